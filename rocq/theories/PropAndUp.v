(** C73: on Android, bringing an interface up is all or nothing, and taking it down removes what belongs to it. *)
From Coq Require Import String ZArith List Bool Lia.
From Verif Require Import Base Cstr CstrProofs AndUsers AndOptions AndDns AndIf AndSpec PropAndIf AndQuick AndUpSpec.
Import ListNotations.
Open Scope Z_scope.

(** ** Steps *)
Lemma ndc_dec : forall t, (exists r, after_prefix (str "ndc ") t = Some r /\ firstn 4 t = str "ndc ") \/ (after_prefix (str "ndc ") t = None /\ firstn 4 t <> str "ndc ").
Proof.
  intro t. destruct (after_prefix (str "ndc ") t) as [r|] eqn:E.
  - left. exists r. split; [reflexivity|]. apply after_prefix_some in E as ->. reflexivity.
  - right. split; [reflexivity|]. intro F. rewrite <- (firstn_skipn 4 t), F, after_prefix_app in E. discriminate.
Qed.
Lemma succ_ndc : forall w h t, firstn 4 t = str "ndc " -> succeeded w h (plain t) <-> exists l more, w_lines w h t = l :: more /\ ~ (400 <= atoi l < 600).
Proof. intros w h t F. unfold succeeded. cbn [plain d_command]. destruct (list_eq_dec Z.eq_dec (firstn 4 t) (str "ndc ")); [reflexivity|congruence]. Qed.
Lemma succ_plain : forall w h d, firstn 4 (d_command d) <> str "ndc " -> succeeded w h d <-> w_status w h d = 0.
Proof. intros w h d F. unfold succeeded. destruct (list_eq_dec Z.eq_dec (firstn 4 (d_command d)) (str "ndc ")); [congruence|reflexivity]. Qed.

(** What an act may do; [s]: whether it may end without a failing command, or have no defined behaviour. *)
Definition good (w : world) (s : Prop) {A} (m : act A) : Prop := forall h,
  match m h with
  | Goes _ h' => exists ds, h' = h ++ ds /\ all_succeeded w h ds
  | Exits h' => exists ds, h' = h ++ ds /\ ((s /\ all_succeeded w h ds) \/ exists ds1 d, ds = ds1 ++ [d] /\ all_succeeded w h ds1 /\ ~ succeeded w (h ++ ds1) d)
  | Undefined => s
  end.
Lemma all_nil : forall w h, all_succeeded w h [].
Proof. intros w h b d a E. destruct b; discriminate. Qed.
Lemma all_one : forall w h d, succeeded w h d -> all_succeeded w h [d].
Proof.
  intros w h d S b e a E. destruct b as [|x b]; cbn [app] in E; [|destruct b; discriminate]. rewrite app_nil_r. congruence.
Qed.
Lemma all_app : forall w h d1 d2, all_succeeded w h d1 -> all_succeeded w (h ++ d1) d2 -> all_succeeded w h (d1 ++ d2).
Proof.
  intros w h d1 d2 S1 S2 b e a E. revert b E. induction d1 as [|x d1 IH] using rev_ind; intros b E.
  - rewrite app_nil_r in S2. apply (S2 b e a). exact E.
  - destruct (app_eq_app _ _ _ _ E) as (l & [[E1 E2]|[E1 E2]]).
    + destruct l as [|y l].
      * rewrite app_nil_r in E1. cbn [app] in E2. rewrite <- E1. replace (h ++ (d1 ++ [x])) with ((h ++ d1 ++ [x]) ++ []) by apply app_nil_r. apply (S2 [] e a). symmetry. exact E2.
      * cbn [app] in E2. assert (y = e) as -> by congruence. apply (S1 b e l). exact E1.
    + rewrite E1. rewrite app_assoc. apply (S2 l e a). exact E2.
Qed.
Lemma good_ret : forall w (s : Prop) A (a : A), good w s (ret a).
Proof. intros w s A a h. exists []. split; [symmetry; apply app_nil_r|apply all_nil]. Qed.
Lemma good_stop : forall w A, good w True (@stop A).
Proof. intros w A h. exists []. split; [symmetry; apply app_nil_r|left; split; [exact I|apply all_nil]]. Qed.
Lemma good_bind : forall w (s : Prop) A B (m : act A) (f : A -> act B), good w s m -> (forall a, good w s (f a)) -> good w s (bind m f).
Proof.
  intros w s A B m f G1 G2 h. unfold bind. specialize (G1 h). destruct (m h) as [a h1|h1|]; [|exact G1|exact G1].
  destruct G1 as (d1 & -> & S1). specialize (G2 a (h ++ d1)). destruct (f a (h ++ d1)) as [b h2|h2|]; [| |exact G2].
  - destruct G2 as (d2 & -> & S2). exists (d1 ++ d2). split; [symmetry; apply app_assoc|apply all_app; assumption].
  - destruct G2 as (d2 & -> & [[SS S2]|(d3 & d & -> & S2 & N)]).
    + exists (d1 ++ d2). split; [symmetry; apply app_assoc|left; split; [exact SS|apply all_app; assumption]].
    + exists (d1 ++ d3 ++ [d]). split; [rewrite <- app_assoc; reflexivity|]. right. exists (d1 ++ d3), d. split; [apply app_assoc|]. split; [apply all_app; assumption|].
      rewrite app_assoc. exact N.
Qed.
Lemma good_ask : forall w (s : Prop) t, good w s (ask w t).
Proof. intros w s t h. exists []. split; [symmetry; apply app_nil_r|apply all_nil]. Qed.
Lemma good_undefined : forall w A, good w True (fun _ => @Undefined A).
Proof. intros w A h. exact I. Qed.
Lemma good_deed : forall w (s : Prop) d h, firstn 4 (d_command d) <> str "ndc " ->
  match (if w_status w h d =? 0 then Goes tt (h ++ [d]) else Exits (h ++ [d])) with
  | Goes _ h' => exists ds, h' = h ++ ds /\ all_succeeded w h ds
  | Exits h' => exists ds, h' = h ++ ds /\ ((s /\ all_succeeded w h ds) \/ exists ds1 d, ds = ds1 ++ [d] /\ all_succeeded w h ds1 /\ ~ succeeded w (h ++ ds1) d)
  | Undefined => s
  end.
Proof.
  intros w s d h F. destruct (Z.eqb_spec (w_status w h d) 0) as [E|E].
  - exists [d]. split; [reflexivity|]. apply all_one, succ_plain; assumption.
  - exists [d]. split; [reflexivity|]. right. exists [], d. split; [reflexivity|]. split; [apply all_nil|]. rewrite app_nil_r. intro S. apply E. apply (succ_plain w h d F). exact S.
Qed.
Lemma good_cmd : forall w (s : Prop) t, firstn 4 t <> str "ndc " -> good w s (cmd w false t).
Proof.
  intros w s t F h. unfold cmd. pose proof (good_deed w s (plain t) h F) as G. destruct (w_status w h (plain t) =? 0); exact G.
Qed.
Lemma good_cndc : forall w (s : Prop) t, firstn 4 t = str "ndc " -> good w s (cndc w t).
Proof.
  intros w s t F h. unfold cndc. destruct (w_lines w h t) as [|l ls] eqn:E.
  - exists [plain t]. split; [reflexivity|]. right. exists [], (plain t). split; [reflexivity|]. split; [apply all_nil|]. rewrite app_nil_r. intro S.
    apply (succ_ndc w h t F) in S as (l & more & K & _). congruence.
  - destruct ((400 <=? atoi l) && (atoi l <? 600)) eqn:C.
    + exists [plain t]. split; [reflexivity|]. right. exists [], (plain t). split; [reflexivity|]. split; [apply all_nil|]. rewrite app_nil_r. intro S.
      apply (succ_ndc w h t F) in S as (l2 & more & K & N). apply N. apply andb_true_iff in C. assert (l2 = l) as -> by congruence. destruct C. lia.
    + exists [plain t]. split; [reflexivity|]. apply all_one. apply (succ_ndc w h t F). exists l, ls. split; [exact E|]. intro K. apply andb_false_iff in C. destruct C; lia.
Qed.
Lemma good_issue : forall w (s : Prop) t, good w s (issue w false t).
Proof.
  intros w s t. unfold issue. destruct (ndc_dec t) as [(r & -> & F)|[-> F]]; [apply good_cndc|apply good_cmd]; exact F.
Qed.
Lemma good_issue_all : forall w (s : Prop) ts, good w s (issue_all w false ts).
Proof. induction ts as [|t ts IH]; [apply good_ret|]. apply good_bind; [apply good_issue|intro; exact IH]. Qed.
Lemma good_dep : forall w (s : Prop) A (f : list deed -> act A), (forall h, good w s (f h)) -> good w s (fun h => f h h).
Proof. intros w s A f G h. apply (G h). Qed.
Ltac steps := repeat first
  [ apply good_bind; [|intro] | apply good_ret | apply good_stop | apply good_ask | apply good_undefined | apply good_issue_all | apply good_issue
  | apply good_cmd; discriminate | apply good_cndc; reflexivity ].
Lemma good_up : forall w ulmax sdk random from_app q, good w True (up_steps w ulmax sdk random from_app q).
Proof.
  intros. unfold up_steps, add_if, determine_listen_port, up_if, set_dnses, set_users_of, broadcast. steps.
  - intro h. apply good_deed. discriminate.
  - destruct (draw_netid random); steps; [destruct (negb (a1 =? 0)); steps|]. destruct (sdk <? 31); steps.
  - destruct (dns_parts (q_dnses q)) as [| | |[x|]]; steps.
  - intro h. apply (good_issue w True (set_mtu (w_lines w h) (q_iface q) (q_mtu q)) h).
  - destruct (set_users ulmax (w_packages w) a2 (q_excluded q) (q_included q)); steps.
  - destruct from_app; steps.
Qed.

(** ** Going up *)
Lemma bind_goes : forall A B (m : act A) (f : A -> act B) h b h2, bind m f h = Goes b h2 -> exists a h1, m h = Goes a h1 /\ f a h1 = Goes b h2.
Proof. intros A B m f h b h2 E. unfold bind in E. destruct (m h) as [a h1|h1|] eqn:M; [|discriminate|discriminate]. exists a, h1. auto. Qed.
Lemma cmd_goes : forall w ex t h u h2, cmd w ex t h = Goes u h2 -> h2 = h ++ [plain t].
Proof. intros w ex t h u h2 E. unfold cmd in E. destruct (negb (w_status w h (plain t) =? 0) && negb ex); congruence. Qed.
Lemma cndc_goes : forall w t h u h2, cndc w t h = Goes u h2 -> h2 = h ++ [plain t].
Proof. intros w t h u h2 E. unfold cndc in E. destruct (w_lines w h t); [discriminate|]. destruct ((400 <=? atoi l) && (atoi l <? 600)); congruence. Qed.
Lemma issue_goes : forall w ex t h u h2, issue w ex t h = Goes u h2 -> h2 = h ++ [plain t].
Proof. intros w ex t h u h2 E. unfold issue in E. destruct (after_prefix (str "ndc ") t); [eapply cndc_goes|eapply cmd_goes]; exact E. Qed.
Lemma issue_all_goes : forall w ex ts h u h2, issue_all w ex ts h = Goes u h2 -> h2 = h ++ map plain ts.
Proof.
  induction ts as [|t ts IH]; intros h u h2 E.
  - cbn in E. unfold ret in E. rewrite app_nil_r. congruence.
  - cbn [issue_all] in E. apply bind_goes in E as (a & h1 & E1 & E2). apply issue_goes in E1 as ->. apply IH in E2 as ->. rewrite <- app_assoc. reflexivity.
Qed.
Lemma draw_range : forall random n, draw_netid random = Some n -> 4096 <= n <= 65534 /\ Z.even n = true.
Proof.
  induction random as [|r rs IH]; intros n E; [discriminate|]. cbn [draw_netid] in E.
  destruct (Z.ltb_spec (Z.land r 65534) 4096); [apply IH; exact E|]. assert (n = Z.land r 65534) as -> by congruence. set (m := Z.land r 65534) in *.
  assert (U : m mod 2 ^ 16 = m). { rewrite <- Z.land_ones by lia. unfold m. rewrite <- Z.land_assoc. reflexivity. }
  assert (P : m mod 2 ^ 1 = 0). { rewrite <- Z.land_ones by lia. unfold m. rewrite <- Z.land_assoc. change (Z.land 65534 (Z.ones 1)) with 0. apply Z.land_0_r. }
  assert (B : 0 <= m < 2 ^ 16) by (rewrite <- U; apply Z.mod_pos_bound; lia).
  change (2 ^ 1) with 2 in P. change (2 ^ 16) with 65536 in *. split; [|rewrite Zmod_even in P; destruct (Z.even m); [reflexivity|discriminate]].
  pose proof (Z.div_mod m 2). lia.
Qed.
Definition dns_set (netid : Z) (dnses : list Z) : list (list Z) := match dns_parts dnses with Is (Some x) => [dns_command netid x] | _ => [] end.
Ltac next E := let a := fresh "a" in let h1 := fresh "h1" in let E1 := fresh "E" in
  apply bind_goes in E as (a & h1 & E1 & E);
  first [apply cmd_goes in E1; subst h1 | apply cndc_goes in E1; subst h1 | apply issue_all_goes in E1; subst h1 | idtac].
Lemma determine_goes : forall w ulmax iface h p h2, determine_listen_port w ulmax iface h = Goes p h2 ->
  h2 = h ++ map plain [str "ip link set up dev " ++ iface; str "ip link set down dev " ++ iface] /\
  p = listen_port ulmax (w_lines w (h ++ [plain (str "ip link set up dev " ++ iface)]) (str "wg show " ++ iface ++ str " listen-port")).
Proof.
  intros w ulmax iface h p h2 E. unfold determine_listen_port in E. next E. next E. unfold ask in E0. next E. unfold ret in E.
  assert (h1 = h ++ [plain (str "ip link set up dev " ++ iface)]) as -> by congruence.
  assert (a0 = w_lines w (h ++ [plain (str "ip link set up dev " ++ iface)]) (str "wg show " ++ iface ++ str " listen-port")) as -> by congruence.
  split; [|congruence]. cbn [map]. assert (h2 = (h ++ [plain (str "ip link set up dev " ++ iface)]) ++ [plain (str "ip link set down dev " ++ iface)]) as -> by congruence.
  rewrite <- app_assoc. reflexivity.
Qed.
Definition after_config (iface : list Z) (sdk netid port : Z) (block : bool) : list (list Z) :=
  [str "wg set " ++ iface ++ str " fwmark 0x20000";
   str "iptables" ++ mark_accepted ++ rule_comment iface; str "ip6tables" ++ mark_accepted ++ rule_comment iface] ++
  (if port =? 0 then [] else
    [str "iptables" ++ port_rule port (str "ACCEPT") iface; str "ip6tables" ++ port_rule port (if block then str "DROP" else str "ACCEPT") iface]) ++
  [str "ip link set up dev " ++ iface; str "ndc network create " ++ print_dec netid ++ (if sdk <? 31 then str " vpn 1 1" else str " vpn 1");
   str "ndc network interface add " ++ print_dec netid ++ str " " ++ iface].
Lemma up_if_goes : forall w sdk random iface port h n h2, up_if w sdk random iface port h = Goes n h2 ->
  draw_netid random = Some n /\ exists p r block, p = h ++ r /\ (exists t, h2 = p ++ t) /\ block = should_block_ipv6 (w_lines w p (str "wg show " ++ iface ++ str " endpoints")) /\
    h2 = h ++ map plain (after_config iface sdk n port block).
Proof.
  intros w sdk random iface port h n h2 E. unfold up_if in E. destruct (draw_netid random) as [netid|]; [|discriminate]. next E. next E. next E. next E.
  destruct (Z.eqb_spec port 0) as [Z0|Z0]; cbn [negb] in E0.
  - unfold ret in E0. next E. next E. next E. unfold ret in E. assert (netid = n) as -> by congruence. split; [reflexivity|].
    exists h, [], (should_block_ipv6 (w_lines w h (str "wg show " ++ iface ++ str " endpoints"))). rewrite app_nil_r.
    assert (X : h2 = h ++ map plain (after_config iface sdk n port (should_block_ipv6 (w_lines w h (str "wg show " ++ iface ++ str " endpoints"))))).
    { rewrite Z0. unfold after_config. cbn [app map Z.eqb]. assert (h1 = ((h ++ [plain (str "wg set " ++ iface ++ str " fwmark 0x20000")]) ++
        [plain (str "iptables -I OUTPUT 1 -m mark --mark 0x20000 -j ACCEPT" ++ comment iface)]) ++ [plain (str "ip6tables -I OUTPUT 1 -m mark --mark 0x20000 -j ACCEPT" ++ comment iface)]) as -> by congruence.
      destruct (sdk <? 31); (match type of E with Goes _ ?x = _ => transitivity x; [congruence|] end); rewrite <- !app_assoc; reflexivity. }
    split; [reflexivity|]. split; [rewrite X; eexists; reflexivity|]. split; [reflexivity|exact X].
  - next E0. next E0. unfold ask in E1. apply cmd_goes in E0.
    next E. next E. next E. unfold ret in E. assert (netid = n) as -> by congruence. split; [reflexivity|].
    match type of E1 with Goes _ ?p = _ => set (pp := p) in * end. assert (h0 = pp) as -> by congruence. 
    assert (a4 = w_lines w pp (str "wg show " ++ iface ++ str " endpoints")) as -> by congruence. set (b := should_block_ipv6 _) in *.
    exists pp. eexists. exists b. split; [unfold pp; rewrite <- !app_assoc; reflexivity|].
    assert (X : h2 = h ++ map plain (after_config iface sdk n port b)).
    { unfold after_config. destruct (Z.eqb_spec port 0); [congruence|]. rewrite E0 in E. unfold pp in E.
      destruct (sdk <? 31); (match type of E with Goes _ ?x = _ => transitivity x; [congruence|] end); rewrite <- !app_assoc; reflexivity. }
    split; [|split; [reflexivity|exact X]]. assert (Y : exists t, h2 = h1 ++ t).
    { destruct (sdk <? 31); (match type of E with Goes _ ?x = _ => assert (h2 = x) as -> by congruence end); rewrite <- ?app_assoc; eexists; reflexivity. }
    destruct Y as [t ->]. rewrite E0. rewrite <- app_assoc. eexists. reflexivity.
Qed.
(** Up succeeds only if every single command did, and then exactly these commands were run, in this order, on an interface that did not exist before; the
    configuration was given to wg and to nothing else; nothing was taken down. *)
Theorem C73_up : forall w ulmax sdk random from_app q h, cmd_up w ulmax sdk random from_app q = Succeeded h ->
  w_lines w [] (str "ip link show dev " ++ q_iface q ++ str " 2>/dev/null") = [] /\ all_succeeded w [] h /\
  exists netid port block routes mtu users p1 p2 p3 p4,
    4096 <= netid <= 65534 /\ Z.even netid = true /\
    earlier p1 h /\ port = listen_port ulmax (w_lines w p1 (str "wg show " ++ q_iface q ++ str " listen-port")) /\
    earlier p2 h /\ block = should_block_ipv6 (w_lines w p2 (str "wg show " ++ q_iface q ++ str " endpoints")) /\
    earlier p3 h /\ routes = set_routes (q_iface q) netid (w_lines w p3 (str "wg show " ++ q_iface q ++ str " allowed-ips")) /\
    earlier p4 h /\ mtu = set_mtu (w_lines w p4) (q_iface q) (q_mtu q) /\
    set_users ulmax (w_packages w) netid (q_excluded q) (q_included q) = Is users /\
    h = plain (str "ip link add " ++ q_iface q ++ str " type wireguard") :: mk_deed (str "wg setconf " ++ q_iface q ++ str " /proc/self/fd/0") (Some (q_config q)) ::
        map plain (brought_up (q_iface q) sdk netid port block (set_addr (q_iface q) (q_addrs q)) (dns_set netid (q_dnses q)) routes mtu users (announcement from_app)).
Proof.
  intros w ulmax sdk random from_app q h E. unfold cmd_up in E.
  destruct (w_lines w [] (str "ip link show dev " ++ q_iface q ++ str " 2>/dev/null")) as [|l ls]; [|discriminate]. split; [reflexivity|].
  pose proof (good_up w ulmax sdk random from_app q []) as G. destruct (up_steps w ulmax sdk random from_app q []) as [u h9|h9|] eqn:U; [| |discriminate].
  2:{ destruct (del_if w ulmax true (q_iface q) h9); discriminate. }
  assert (h9 = h) as -> by congruence. destruct G as (ds & D & S). cbn [app] in D. subst ds. split; [exact S|]. clear E S.
  unfold up_steps in U. set (first := plain (str "ip link add " ++ q_iface q ++ str " type wireguard")).
  set (conf := mk_deed (str "wg setconf " ++ q_iface q ++ str " /proc/self/fd/0") (Some (q_config q))).
  apply bind_goes in U as (? & h0 & E & U). apply cmd_goes in E. cbn [app] in E. fold first in E.
  apply bind_goes in U as (? & h1 & E1 & U). unfold set_config in E1. fold conf in E1. destruct (w_status w h0 conf =? 0); [|discriminate].
  assert (h1 = [first; conf]) as -> by (rewrite E in E1; cbn [app] in E1; congruence). clear E E1.
  apply bind_goes in U as (port & h2 & E & U). apply determine_goes in E as [-> P].
  apply bind_goes in U as (netid & h3 & E & U). apply up_if_goes in E as (N & p2 & r2 & block & R & [t2 T] & B & H3).
  apply bind_goes in U as (? & h4 & E & U). apply issue_all_goes in E as H4.
  apply bind_goes in U as (? & h5 & E5 & U).
  assert (H5 : h5 = h4 ++ map plain (dns_set netid (q_dnses q))).
  { unfold set_dnses in E5. unfold dns_set. destruct (dns_parts (q_dnses q)) as [| | |[dns|]]; try discriminate.
    - apply issue_goes in E5. exact E5.
    - unfold ret in E5. cbn [map]. rewrite app_nil_r. congruence. }
  apply bind_goes in U as (? & h6 & E6 & U). apply bind_goes in E6 as (ls & h5' & A5 & E6). unfold ask in A5.
  assert (h5' = h5) as -> by congruence. assert (ls = w_lines w h5 (str "wg show " ++ q_iface q ++ str " allowed-ips")) as -> by congruence. apply issue_all_goes in E6.
  apply bind_goes in U as (? & h7 & E7 & U). apply issue_goes in E7.
  apply bind_goes in U as (? & h8 & E8 & U). unfold set_users_of in E8. destruct (set_users ulmax (w_packages w) netid (q_excluded q) (q_included q)) as [| | |users] eqn:SU; try discriminate.
  apply issue_all_goes in E8.
  assert (H9 : h = h8 ++ map plain (announcement from_app)).
  { unfold broadcast in U. unfold announcement. destruct from_app; [unfold ret in U; cbn [map]; rewrite app_nil_r; congruence|]. apply cmd_goes in U. exact U. }
  destruct (draw_range _ _ N) as [NR NE].
  exists netid, port, block. eexists. eexists. exists users. eexists. exists p2. exists h5. exists h6.
  split; [exact NR|]. split; [exact NE|].
  split; [|split; [exact P|]]. 
  { rewrite H9, E8, E7, E6, H5, H4, H3. cbn [map app]. eexists. rewrite <- !app_assoc. cbn [app]. reflexivity. }
  split; [|split; [exact B|]].
  { rewrite H9, E8, E7, E6, H5, H4, T. eexists. rewrite <- !app_assoc. reflexivity. }
  split; [|split; [reflexivity|]].
  { rewrite H9, E8, E7, E6. eexists. rewrite <- !app_assoc. reflexivity. }
  split; [|split; [reflexivity|]].
  { rewrite H9, E8, E7. eexists. rewrite <- !app_assoc. reflexivity. }
  split; [exact SU|].
  rewrite H9, E8, E7, E6, H5, H4, H3. unfold brought_up, after_config. rewrite !map_app. cbn [map app]. rewrite <- ?app_assoc. cbn [app]. rewrite ?map_app. rewrite <- ?app_assoc. reflexivity.
Qed.

(** ** Going down *)
(** What iptables-save prints consists of whole lines. *)
Definition saves_lines (w : world) : Prop := forall h,
  (exists rules, w_lines w h (str "iptables-save") = map line rules) /\ (exists rules, w_lines w h (str "ip6tables-save") = map line rules).
Lemma issue_all_exiting : forall w ts h, Forall (fun t => after_prefix (str "ndc ") t = None) ts -> issue_all w true ts h = Goes tt (h ++ map plain ts).
Proof.
  intros w ts h F. revert h. induction F as [|t ts N F IH]; intro h; [cbn; unfold ret; rewrite app_nil_r; reflexivity|].
  cbn [issue_all]. unfold bind. unfold issue. rewrite N. unfold cmd. rewrite andb_false_r. rewrite IH. rewrite <- app_assoc. reflexivity.
Qed.
Lemma deletes_not_ndc : forall program gone, program = str "iptables" \/ program = str "ip6tables" ->
  Forall (fun t => after_prefix (str "ndc ") t = None) (map (fun r => program ++ str " -D " ++ r) gone).
Proof. intros program gone P. apply Forall_forall. intros t I. apply in_map_iff in I as (r & <- & _). destruct P as [-> | ->]; reflexivity. Qed.
Lemma network_deeds : forall ulmax iface lines, destroy_network ulmax iface lines = [] \/ exists id, destroy_network ulmax iface lines = [str "ndc network destroy " ++ id].
Proof. intros. unfold destroy_network. destruct (first_netid iface lines); [right; eexists; reflexivity|left; reflexivity]. Qed.
Lemma map_plain_rules : forall p gone, map plain (map (fun r => p ++ r) gone) = map (fun r => plain (p ++ r)) gone.
Proof. intros. rewrite map_map. reflexivity. Qed.
(** In the cleanup, whatever fails, everything is tried. *)
Lemma del_if_exiting : forall w ulmax iface h, literal iface -> saves_lines w ->
  exists ds r, torn_down w iface h ds /\ del_if w ulmax true iface h = r /\ (r = Goes tt (h ++ ds) \/ r = Exits (h ++ ds)).
Proof.
  intros w ulmax iface h L S. unfold del_if, bind, ask. unfold cmd at 1. rewrite andb_false_r. cbv iota beta.
  set (h1 := h ++ [plain (str "ip link del " ++ iface)]).
  destruct (S h1) as [[rules4 R4] _]. destruct (C72_rules (str "iptables") iface rules4 L) as (gone4 & G4 & D4).
  rewrite R4. unfold line. rewrite D4, issue_all_exiting by (apply deletes_not_ndc; left; reflexivity). cbv iota beta.
  set (h2 := h1 ++ _). destruct (S h2) as [_ [rules6 R6]]. destruct (C72_rules (str "ip6tables") iface rules6 L) as (gone6 & G6 & D6).
  rewrite R6. unfold line. rewrite D6, issue_all_exiting by (apply deletes_not_ndc; right; reflexivity). cbv iota beta.
  set (h3 := h2 ++ _). set (ls := w_lines w h3 (str "ip rule show")).
  set (network := map plain (destroy_network ulmax iface ls)).
  exists ([plain (str "ip link del " ++ iface)] ++ map (fun r => plain (str "iptables -D " ++ r)) gone4 ++ map (fun r => plain (str "ip6tables -D " ++ r)) gone6 ++ network). eexists.
  assert (H3 : forall t, h3 ++ t = h ++ [plain (str "ip link del " ++ iface)] ++ map (fun r => plain (str "iptables -D " ++ r)) gone4 ++ map (fun r => plain (str "ip6tables -D " ++ r)) gone6 ++ t).
  { intro t. unfold h3, h2, h1. rewrite !map_map. rewrite <- !app_assoc. reflexivity. }
  split.
  - exists rules4, gone4, rules6, gone6, network. cbv zeta. split; [reflexivity|]. split; [exact R4|]. split; [exact G4|]. split; [|split; [exact G6|]].
    + replace (h ++ [plain (str "ip link del " ++ iface)] ++ map (fun r => plain (str "iptables -D " ++ r)) gone4) with h2; [exact R6|].
      unfold h2, h1. rewrite map_map. rewrite <- app_assoc. reflexivity.
    + unfold network. destruct (network_deeds ulmax iface ls) as [-> |[id ->]]; [left; reflexivity|right; exists id; reflexivity].
  - split; [reflexivity|]. rewrite <- H3. unfold network. destruct (network_deeds ulmax iface ls) as [-> |[id ->]].
    + left. cbn [map issue_all]. rewrite app_nil_r. reflexivity.
    + cbn [map issue_all]. unfold bind, ret, issue. change (after_prefix (str "ndc ") (str "ndc network destroy " ++ id)) with (Some (str "network destroy " ++ id)). cbv iota. unfold cndc.
      destruct (w_lines w h3 (str "ndc network destroy " ++ id)); [right; reflexivity|]. destruct ((400 <=? atoi l) && (atoi l <? 600)); [right; reflexivity|left; reflexivity].
Qed.
(** If bringing up does not succeed, either nothing was done, because the interface existed, or whatever had been done (all of which succeeded but perhaps the last command) is
    followed by a complete teardown, whichever of the teardown's commands fail. *)
Theorem C73_failed : forall w ulmax sdk random from_app q h, literal (q_iface q) -> saves_lines w -> cmd_up w ulmax sdk random from_app q = Failed h ->
  (w_lines w [] (str "ip link show dev " ++ q_iface q ++ str " 2>/dev/null") <> [] /\ h = []) \/
  (exists done torn, h = done ++ torn /\ torn_down w (q_iface q) done torn /\
     (all_succeeded w [] done \/ exists before d, done = before ++ [d] /\ all_succeeded w [] before /\ ~ succeeded w before d)).
Proof.
  intros w ulmax sdk random from_app q h L S E. unfold cmd_up in E.
  destruct (w_lines w [] (str "ip link show dev " ++ q_iface q ++ str " 2>/dev/null")) as [|l ls]; [|left; split; [discriminate|congruence]]. right.
  pose proof (good_up w ulmax sdk random from_app q []) as G. destruct (up_steps w ulmax sdk random from_app q []) as [u h9|h9|]; [discriminate| |discriminate].
  destruct G as (ds & D & K). cbn [app] in D. subst ds. destruct (del_if_exiting w ulmax (q_iface q) h9 L S) as (torn & r & T & R & X).
  exists h9, torn. split; [|split; [exact T|]].
  - rewrite R in E. destruct X as [-> | ->]; congruence.
  - destruct K as [[_ K]|(ds1 & d & -> & K & N)]; [left; exact K|right; exists ds1, d; auto].
Qed.
Lemma del_if_goes : forall w ulmax iface h u h2, literal iface -> saves_lines w -> del_if w ulmax false iface h = Goes u h2 -> exists ds, h2 = h ++ ds /\ torn_down w iface h ds.
Proof.
  intros w ulmax iface h u h2 L S E. unfold del_if in E. next E. apply bind_goes in E as (? & h3 & E4 & E). apply bind_goes in E4 as (ls4 & h4 & A4 & E4). unfold ask in A4.
  set (h1 := h ++ [plain (str "ip link del " ++ iface)]) in *. assert (h4 = h1) as -> by congruence. assert (ls4 = w_lines w h1 (str "iptables-save")) as -> by congruence.
  destruct (S h1) as [[rules4 R4] _]. destruct (C72_rules (str "iptables") iface rules4 L) as (gone4 & G4 & D4).
  rewrite R4 in E4. unfold line in E4. rewrite D4 in E4. apply issue_all_goes in E4.
  apply bind_goes in E as (? & h5 & E6 & E). apply bind_goes in E6 as (ls6 & h6 & A6 & E6). unfold ask in A6.
  assert (h6 = h3) as -> by congruence. assert (ls6 = w_lines w h3 (str "ip6tables-save")) as -> by congruence.
  destruct (S h3) as [_ [rules6 R6]]. destruct (C72_rules (str "ip6tables") iface rules6 L) as (gone6 & G6 & D6).
  rewrite R6 in E6. unfold line in E6. rewrite D6 in E6. apply issue_all_goes in E6.
  apply bind_goes in E as (ls & h7 & A7 & E). unfold ask in A7. assert (h7 = h5) as -> by congruence. apply issue_all_goes in E.
  exists ([plain (str "ip link del " ++ iface)] ++ map (fun r => plain (str "iptables -D " ++ r)) gone4 ++ map (fun r => plain (str "ip6tables -D " ++ r)) gone6 ++ map plain (destroy_network ulmax iface ls)).
  split; [rewrite E, E6, E4; unfold h1; rewrite !map_map; rewrite <- !app_assoc; reflexivity|].
  exists rules4, gone4, rules6, gone6, (map plain (destroy_network ulmax iface ls)). cbv zeta. split; [reflexivity|]. split; [exact R4|]. split; [exact G4|]. split; [|split; [exact G6|]].
  - replace (h ++ [plain (str "ip link del " ++ iface)] ++ map (fun r => plain (str "iptables -D " ++ r)) gone4) with h3; [exact R6|].
    rewrite E4. unfold h1. rewrite map_map. rewrite <- app_assoc. reflexivity.
  - destruct (network_deeds ulmax iface ls) as [-> |[id ->]]; [left; reflexivity|right; exists id; reflexivity].
Qed.
Lemma good_del_if : forall w (s : Prop) ulmax iface, good w s (del_if w ulmax false iface).
Proof. intros. unfold del_if. steps. Qed.
Lemma strtok_join : forall names, Forall (fun n => n <> [] /\ ~ In 32 n /\ ~ In 10 n) names -> strtok_routes [] (join [32] names ++ [10]) = names.
Proof.
  intros names F. destruct names as [|n names]; [reflexivity|]. revert n F. induction names as [|m names IH]; intros n F; inversion F as [|? ? (NE & N1 & N2) F2]; subst.
  - cbn [join]. rewrite strtok_end by assumption. cbn [app]. destruct n; [congruence|reflexivity].
  - rewrite join_cons by discriminate. rewrite <- !app_assoc. cbn [app]. rewrite strtok_line by assumption. cbn [app]. destruct n as [|c n]; [congruence|]. cbn [app]. f_equal. apply (IH m). exact F2.
Qed.
(** Down does nothing at all unless the interface is among those wg lists, under exactly this name; then it succeeds only if every command did, and these are the teardown's. *)
Theorem C73_down : forall w ulmax from_app iface names, literal iface -> saves_lines w -> Forall (fun n => n <> [] /\ ~ In 32 n /\ ~ In 10 n) names ->
  (w_lines w [] (str "wg show interfaces") = [join [32] names ++ [10]] \/ (names = [] /\ w_lines w [] (str "wg show interfaces") = [])) ->
  match cmd_down w ulmax from_app iface with
  | Succeeded h => In iface names /\ all_succeeded w [] h /\ exists torn, h = torn ++ map plain (announcement from_app) /\ torn_down w iface [] torn
  | Failed h => (~ In iface names /\ h = []) \/ (In iface names /\ exists before d, h = before ++ [d] /\ all_succeeded w [] before /\ ~ succeeded w before d)
  | No_telling => False
  end.
Proof.
  intros w ulmax from_app iface names L S F W. unfold cmd_down.
  assert (LI : (match w_lines w [] (str "wg show interfaces") with [] => [] | l :: _ => strtok_routes [] l end) = names).
  { destruct W as [-> |[-> ->]]; [apply strtok_join; exact F|reflexivity]. }
  rewrite LI. destruct (existsb (beq iface) names) eqn:X.
  - apply existsb_exists in X as (n & I & B). apply beq_eq in B as <-.
    assert (G : good w False (del_if w ulmax false iface ;; broadcast w from_app)).
    { apply good_bind; [apply good_del_if|intros _]. unfold broadcast. destruct from_app; steps. }
    specialize (G []). destruct ((del_if w ulmax false iface ;; broadcast w from_app) []) as [u h|h|] eqn:E.
    + split; [exact I|]. destruct G as (ds & D & K). cbn [app] in D. subst ds. split; [exact K|].
      apply bind_goes in E as (? & h1 & E1 & E). apply del_if_goes in E1 as (torn & -> & T); [|assumption|assumption]. exists torn. split; [|exact T].
      unfold broadcast in E. unfold announcement. destruct from_app; [unfold ret in E; cbn [map]; rewrite app_nil_r; cbn [app] in E; congruence|]. apply cmd_goes in E. exact E.
    + right. split; [exact I|]. destruct G as (ds & D & K). cbn [app] in D. subst ds. destruct K as [[[] _]|(ds1 & d & -> & K & N)]. exists ds1, d. auto.
    + destruct G.
  - left. split; [|reflexivity]. intro I. assert (K : existsb (beq iface) names = true) by (apply existsb_exists; exists iface; split; [exact I|apply beq_refl]). congruence.
Qed.

(** ** What is left of the firewall *)
Lemma effect_delete : forall program rules r, effect program rules (plain (program ++ str " -D " ++ r)) = without_first r rules.
Proof.
  intros program rules r. unfold effect. cbn [plain d_command]. rewrite app_assoc. rewrite firstn_app, Nat.sub_diag, firstn_O, app_nil_r, firstn_all.
  destruct (list_eq_dec Z.eq_dec (program ++ str " -D ") (program ++ str " -D ")) as [_|N]; [|congruence].
  rewrite skipn_app, Nat.sub_diag, skipn_all. reflexivity.
Qed.
Lemma fold_delete : forall program gone rules, fold_left (effect program) (map (fun r => plain (program ++ str " -D " ++ r)) gone) rules = fold_left (fun rs r => without_first r rs) gone rules.
Proof. induction gone as [|r gone IH]; intro rules; [reflexivity|]. cbn [map fold_left]. rewrite effect_delete. apply IH. Qed.
Lemma fold_keeps : forall iface gone x rules, Forall (added_for iface) gone -> ~ added_for iface x ->
  fold_left (fun rs r => without_first r rs) gone (x :: rules) = x :: fold_left (fun rs r => without_first r rs) gone rules.
Proof.
  intros iface gone x rules F N. revert rules. induction F as [|r gone A F IH]; intro rules; [reflexivity|]. cbn [fold_left without_first].
  destruct (list_eq_dec Z.eq_dec x r) as [->|_]; [contradiction|]. apply IH.
Qed.
Lemma goes_added : forall iface rules gone, goes_for iface rules gone -> Forall (added_for iface) gone.
Proof. induction 1; [constructor|constructor; assumption|assumption]. Qed.
Lemma gone_others : forall iface rules gone, goes_for iface (map (fun r => str "-A " ++ r) rules) gone ->
  others iface rules (fold_left (fun rs r => without_first r rs) gone rules).
Proof.
  induction rules as [|x rules IH]; intros gone G; inversion G as [|r l g A G1 E1|l l2 g N G1 E1]; subst; [constructor| |].
  - cbn [fold_left without_first]. destruct (list_eq_dec Z.eq_dec x x); [|congruence].
    apply others_skip; [exact A|apply IH; exact G1].
  - assert (NA : ~ added_for iface x) by (apply N; reflexivity). rewrite (fold_keeps iface) by (eauto using goes_added). apply others_keep; [exact NA|apply IH; exact G1].
Qed.
Lemma no_effect : forall program t rules, firstn (length (program ++ str " -D ")) t <> program ++ str " -D " -> effect program rules (plain t) = rules.
Proof. intros program t rules N. unfold effect. cbn [plain d_command]. destruct (list_eq_dec Z.eq_dec _ _); [congruence|reflexivity]. Qed.
Lemma fold_no_effect : forall program ds rules, Forall (fun d => forall rs, effect program rs d = rs) ds -> fold_left (effect program) ds rules = rules.
Proof. intros program ds rules F. revert rules. induction F as [|d ds E F IH]; intro rules; [reflexivity|]. cbn [fold_left]. rewrite E. apply IH. Qed.
Lemma lines_inj : forall a b, map line a = map line b -> a = b.
Proof.
  induction a as [|x a IH]; intros [|y b] E; try discriminate; [reflexivity|]. cbn [map] in E. unfold line at 1 3 in E.
  assert (E1 : x ++ [10] = y ++ [10]) by congruence. apply app_inj_tail in E1 as [-> _]. f_equal. apply IH. congruence.
Qed.
(** What iptables-save prints for a list of rules. *)
Definition printed (rules : list (list Z)) : list (list Z) := map line (map (fun r => str "-A " ++ r) rules).
(** After a teardown exactly the rules that were not added for the interface are left, in their order: none of its own, and all others. *)
Theorem C73_firewall : forall w iface h ds rules4, torn_down w iface h ds ->
  w_lines w (h ++ [plain (str "ip link del " ++ iface)]) (str "iptables-save") = printed rules4 ->
  others iface rules4 (fold_left (effect (str "iptables")) ds rules4) /\
  exists between, (exists rest, ds = plain (str "ip link del " ++ iface) :: between ++ rest) /\
    forall rules6, w_lines w (h ++ plain (str "ip link del " ++ iface) :: between) (str "ip6tables-save") = printed rules6 ->
    others iface rules6 (fold_left (effect (str "ip6tables")) ds rules6).
Proof.
  intros w iface h ds rules4 (r4 & gone4 & r6 & gone6 & network & T) P. cbv zeta in T. destruct T as (-> & W4 & G4 & W6 & G6 & N).
  assert (E4 : r4 = map (fun r => str "-A " ++ r) rules4) by (apply lines_inj; unfold printed in P; congruence). subst r4.
  assert (NN : forall program, program = str "iptables" \/ program = str "ip6tables" -> forall rules, fold_left (effect program) network rules = rules).
  { intros program PR rules. apply fold_no_effect. destruct N as [-> |[id ->]]; [constructor|]. constructor; [|constructor]. intro rs. apply no_effect. destruct PR as [-> | ->]; cbn; discriminate. }
  assert (ND : forall program, program = str "iptables" \/ program = str "ip6tables" -> forall rules, effect program rules (plain (str "ip link del " ++ iface)) = rules).
  { intros program PR rules. apply no_effect. destruct PR as [-> | ->]; cbn; discriminate. }
  split; [|exists (map (fun r => plain (str "iptables -D " ++ r)) gone4); split; [exists (map (fun r => plain (str "ip6tables -D " ++ r)) gone6 ++ network); reflexivity|]].
  - cbn [app fold_left]. rewrite ND by auto. rewrite !fold_left_app. rewrite NN by auto.
    rewrite (fold_no_effect _ (map (fun r => plain (str "ip6tables -D " ++ r)) gone6)).
    + change (map (fun r => plain (str "iptables -D " ++ r)) gone4) with (map (fun r => plain (str "iptables" ++ str " -D " ++ r)) gone4). rewrite fold_delete. apply gone_others. exact G4.
    + apply Forall_forall. intros d I. apply in_map_iff in I as (r & <- & _). intro rs. apply no_effect. cbn. discriminate.
  - intros rules6 P6. assert (E6 : r6 = map (fun r => str "-A " ++ r) rules6).
    { apply lines_inj. unfold printed in P6. cbn [app] in W6. congruence. }
    subst r6. cbn [app fold_left]. rewrite ND by auto. rewrite !fold_left_app. rewrite NN by auto.
    rewrite (fold_no_effect _ (map (fun r => plain (str "iptables -D " ++ r)) gone4)).
    + change (map (fun r => plain (str "ip6tables -D " ++ r)) gone6) with (map (fun r => plain (str "ip6tables" ++ str " -D " ++ r)) gone6). rewrite fold_delete. apply gone_others. exact G6.
    + apply Forall_forall. intros d I. apply in_map_iff in I as (r & <- & _). intro rs. apply no_effect. cbn. discriminate.
Qed.

(** The rules that bringing up inserts are such as the teardown deletes. *)
Theorem C73_own_rules : forall iface port verdict,
  (exists r, mark_accepted ++ rule_comment iface = str " -I " ++ r /\ added_for iface r) /\
  (exists r, port_rule port verdict iface = str " -I " ++ r /\ added_for iface r).
Proof.
  intros iface port verdict. split.
  - exists (str "OUTPUT 1 -m mark --mark 0x20000 -j ACCEPT" ++ rule_comment iface). split; [reflexivity|].
    exists (str "OUTPUT 1 -m mark --mark 0x20000 -j ACCEPT -m comment"), []. reflexivity.
  - exists (str "INPUT 1 -p udp --dport " ++ print_dec port ++ str " -j " ++ verdict ++ rule_comment iface). split; [reflexivity|].
    exists (str "INPUT 1 -p udp --dport " ++ print_dec port ++ str " -j " ++ verdict ++ str " -m comment"), []. unfold rule_comment. rewrite <- !app_assoc. reflexivity.
Qed.

(** ** Cases *)
(** A phone on which the commands succeed, but those that begin with [bad]; iptables-save prints the rules that were inserted, and one more. *)
Definition inserted (program : list Z) (h : list deed) : list (list Z) :=
  flat_map (fun d => match after_prefix (program ++ str " -I ") (d_command d) with Some r => [nl (str "-A " ++ r)] | None => [] end) h.
Definition phone2 (bad : list Z) : world := mk_world
  (fun _ d => if beq (firstn (length bad) (d_command d)) bad then 1 else 0)
  (fun h t =>
     if beq (firstn 4 t) (str "ndc ") then [nl (if beq (firstn (length bad) t) bad then str "501 0 no" else str "200 0 success")]
     else if beq t (str "wg show interfaces") then [nl (str "work home")]
     else if beq t (str "wg show home listen-port") then [nl (str "51820")]
     else if beq t (str "wg show home endpoints") then [peer_line (str "AAAA", str "192.0.2.1:51820")]
     else if beq t (str "wg show home allowed-ips") then [peer_line (str "AAAA", str "10.0.0.0/8 fd00::/8")]
     else if beq t (str "iptables-save") then nl (str "-A INPUT -m comment --comment ""wireguard rule work"" -j DROP") :: inserted (str "iptables") h
     else if beq t (str "ip6tables-save") then inserted (str "ip6tables") h
     else if beq t (str "ip rule show") then [nl (str "13000:	from all fwmark 0xc1064/0xcffff lookup home")]
     else [])
  (Some []).
Definition trip : wanted := mk_wanted (str "home") (str "[Interface]") 1280 (str "10.0.0.2/32") (str "10.0.0.1") None None.
Theorem C73_up_case : cmd_up (phone2 (str "nothing")) (2 ^ 64 - 1) 30 [4000; 69732] false trip = Succeeded (
  plain (str "ip link add home type wireguard") :: mk_deed (str "wg setconf home /proc/self/fd/0") (Some (str "[Interface]")) :: map plain [
  str "ip link set up dev home"; str "ip link set down dev home"; str "wg set home fwmark 0x20000";
  str "iptables -I OUTPUT 1 -m mark --mark 0x20000 -j ACCEPT -m comment --comment ""wireguard rule home""";
  str "ip6tables -I OUTPUT 1 -m mark --mark 0x20000 -j ACCEPT -m comment --comment ""wireguard rule home""";
  str "iptables -I INPUT 1 -p udp --dport 51820 -j ACCEPT -m comment --comment ""wireguard rule home""";
  str "ip6tables -I INPUT 1 -p udp --dport 51820 -j DROP -m comment --comment ""wireguard rule home""";
  str "ip link set up dev home"; str "ndc network create 4196 vpn 1 1"; str "ndc network interface add 4196 home";
  str "ndc interface setcfg home '10.0.0.2' 32"; str "ndc resolver setnetdns 4196 '' '10.0.0.1'";
  str "ndc network route add 4196 home 10.0.0.0/8"; str "ndc network route add 4196 home fd00::/8"; str "ndc interface setmtu home 1280";
  str "ndc network users add 4196 0-99999";
  str "am broadcast -a com.wireguard.android.action.REFRESH_TUNNEL_STATES com.wireguard.android"]).
Proof. vm_compute. reflexivity. Qed.
Theorem C73_failed_case : cmd_up (phone2 (str "ndc network create")) (2 ^ 64 - 1) 33 [69732] false trip = Failed (
  plain (str "ip link add home type wireguard") :: mk_deed (str "wg setconf home /proc/self/fd/0") (Some (str "[Interface]")) :: map plain [
  str "ip link set up dev home"; str "ip link set down dev home"; str "wg set home fwmark 0x20000";
  str "iptables -I OUTPUT 1 -m mark --mark 0x20000 -j ACCEPT -m comment --comment ""wireguard rule home""";
  str "ip6tables -I OUTPUT 1 -m mark --mark 0x20000 -j ACCEPT -m comment --comment ""wireguard rule home""";
  str "iptables -I INPUT 1 -p udp --dport 51820 -j ACCEPT -m comment --comment ""wireguard rule home""";
  str "ip6tables -I INPUT 1 -p udp --dport 51820 -j DROP -m comment --comment ""wireguard rule home""";
  str "ip link set up dev home"; str "ndc network create 4196 vpn 1";
  str "ip link del home";
  str "iptables -D OUTPUT 1 -m mark --mark 0x20000 -j ACCEPT -m comment --comment ""wireguard rule home""";
  str "iptables -D INPUT 1 -p udp --dport 51820 -j ACCEPT -m comment --comment ""wireguard rule home""";
  str "ip6tables -D OUTPUT 1 -m mark --mark 0x20000 -j ACCEPT -m comment --comment ""wireguard rule home""";
  str "ip6tables -D INPUT 1 -p udp --dport 51820 -j DROP -m comment --comment ""wireguard rule home""";
  str "ndc network destroy 4196"]).
Proof. vm_compute. reflexivity. Qed.
Theorem C73_down_case :
  cmd_down (phone2 (str "nothing")) (2 ^ 64 - 1) true (str "home") = Succeeded (map plain [str "ip link del home"; str "ndc network destroy 4196"]) /\
  cmd_down (phone2 (str "nothing")) (2 ^ 64 - 1) true (str "hom") = Failed [].
Proof. vm_compute. auto. Qed.
(** The phone is one the theorems are about. *)
Theorem C73_phone_case : forall bad, saves_lines (phone2 bad) /\ literal (str "home").
Proof.
  intro bad. assert (L : forall program h, exists rules, inserted program h = map line rules).
  { intros program h. induction h as [|d h [rules IH]]; [exists []; reflexivity|]. unfold inserted. cbn [flat_map]. fold (inserted program h). rewrite IH.
    destruct (after_prefix _ (d_command d)) as [r|]; [exists ((str "-A " ++ r) :: rules); reflexivity|exists rules; reflexivity]. }
  split; [|split; intro K; cbn in K; intuition discriminate]. intro h. split.
  - destruct (L (str "iptables") h) as [rules E]. exists (str "-A INPUT -m comment --comment ""wireguard rule work"" -j DROP" :: rules).
    change (w_lines (phone2 bad) h (str "iptables-save")) with (nl (str "-A INPUT -m comment --comment ""wireguard rule work"" -j DROP") :: inserted (str "iptables") h). rewrite E. reflexivity.
  - apply L.
Qed.
(** When taking down, the first failing command ends the program: the rules stay. *)
Theorem C73_down_stops_refuted : cmd_down (phone2 (str "ip link del")) (2 ^ 64 - 1) true (str "home") = Failed [plain (str "ip link del home")].
Proof. vm_compute. reflexivity. Qed.

Print Assumptions C73_up.
Print Assumptions C73_failed.
Print Assumptions C73_down.
Print Assumptions C73_firewall.
Print Assumptions C73_own_rules.
Print Assumptions C73_phone_case.
