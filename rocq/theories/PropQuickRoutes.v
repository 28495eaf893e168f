(** C43 and C46: the routes 'wg-quick up' asks for (lines 338-340 of linux.bash) and the routing table of the default ones. *)
From Coq Require Import String ZArith List Bool Lia Permutation.
From Verif Require Import Base Cstr Types Show Bash Quick QuickSpec QuickRun QuickRunSpec QuickRunProofs QuickUpProofs QuickRouteSpec QuickRouteProofs PropQuickUp.
Import ListNotations.
Open Scope Z_scope.

Lemma all_routes_value : forall sys glob ifc, good any (all_routes sys glob ifc) (fun rs h => exists a b,
  h = [(show_aips ifc, a); (sort_command (unlines (route_lines glob (read_complete (a_output a)))), b)] /\ rs = expand glob (captured (a_output b))).
Proof.
  intros sys glob ifc. unfold all_routes. eapply good_bind; [apply output_good; split; [exact I|reflexivity]|]. cbn beta. intros out h1 (a & -> & ->).
  eapply good_bind; [apply run_ask; [exact I|reflexivity]|]. cbn beta. intros b h2 ->. apply good_ret. exists a, b. split; reflexivity.
Qed.

Lemma off_routes : forall sys fuel ifc o, o_table o = str "off" -> forall rs,
  good any (for_each (add_route sys fuel ifc o true) rs) (fun _ h => changes h = []).
Proof.
  intros sys fuel ifc o Ho rs. induction rs as [|r rs IH]; cbn [for_each]; [apply good_ret; reflexivity|].
  eapply good_bind with (Q := fun _ h => h = []).
  - unfold add_route. rewrite Ho. change (beq (str "off") (str "off")) with true. apply good_ret. reflexivity.
  - cbn beta. intros _ h1 ->. exact IH.
Qed.
Lemma table_routes : forall sys fuel ifc o, o_table o <> str "off" -> auto_table o = false -> forall rs,
  good any (for_each (add_route sys fuel ifc o true) rs) (fun _ h => Forall2 (table_route ifc (o_table o)) rs (changes h)).
Proof.
  intros sys fuel ifc o Ho Ha rs. induction rs as [|r rs IH]; cbn [for_each]; [apply good_ret; constructor|].
  eapply good_bind with (Q := fun _ h => exists c, table_route ifc (o_table o) r c /\ changes h = [c]).
  - unfold add_route, step. apply beq_neq in Ho. rewrite Ho, Ha. cbn [negb].
    assert (P : proto r = str "-4" \/ proto r = str "-6") by apply proto_cases.
    eapply good_conseq; [apply step_good; [exact I|destruct P as [-> | ->]; reflexivity]|]. cbn beta. intros _ h _ (_ & a & -> & _).
    eexists. split; [exists (proto r); split; [apply proto_family|reflexivity]|]. destruct P as [-> | ->]; reflexivity.
  - cbn beta. intros _ h1 (c & Hc & E). eapply good_conseq; [apply IH|]. cbn beta. intros _ h2 _ H2. rewrite changes_app, E. constructor; assumption.
Qed.

(** What the loop does when it ends normally: it asks for the allowed IPs, sorts them and treats each according to the Table setting. *)
Lemma add_routes_done : forall sys glob fuel ifc o s v s1, add_routes sys glob fuel ifc o true s = Done v s1 ->
  exists a b h rs, sh_hist s1 = sh_hist s ++ (show_aips ifc, a) :: (sort_command (unlines (route_lines glob (read_complete (a_output a)))), b) :: h /\
    rs = expand glob (captured (a_output b)) /\ undisturbed h /\ all_well h /\
    (o_table o = str "off" -> changes h = []) /\
    (o_table o <> [] -> o_table o <> str "off" -> o_table o <> str "auto" -> Forall2 (table_route ifc (o_table o)) rs (changes h)) /\
    (o_table o = [] \/ o_table o = str "auto" -> forall used m m', 0 <= m -> honest ifc used m h m' -> routed ifc used m rs (changes h)).
Proof.
  intros sys glob fuel ifc o s v s1 E.
  assert (G : good any (add_routes sys glob fuel ifc o true) (fun _ h0 => exists a b h, 
    h0 = (show_aips ifc, a) :: (sort_command (unlines (route_lines glob (read_complete (a_output a)))), b) :: h /\ quiet any h /\
    (o_table o = str "off" -> changes h = []) /\
    (o_table o <> str "off" -> auto_table o = false -> Forall2 (table_route ifc (o_table o)) (expand glob (captured (a_output b))) (changes h)) /\
    (auto_table o = true -> forall used m m', 0 <= m -> honest ifc used m h m' -> routed ifc used m (expand glob (captured (a_output b))) (changes h)))).
  { unfold add_routes. eapply good_bind; [apply all_routes_value|]. cbn beta. intros rs h1 (a & b & -> & ->).
    assert (F : good any (for_each (add_route sys fuel ifc o true) (expand glob (captured (a_output b)))) (fun _ h =>
      (o_table o = str "off" -> changes h = []) /\
      (o_table o <> str "off" -> auto_table o = false -> Forall2 (table_route ifc (o_table o)) (expand glob (captured (a_output b))) (changes h)) /\
      (auto_table o = true -> forall used m m', 0 <= m -> honest ifc used m h m' -> routed ifc used m (expand glob (captured (a_output b))) (changes h)))).
    { destruct (auto_table o) eqn:Ha.
      - intro s0. pose proof (fun used => add_routes_value sys fuel ifc o used Ha (expand glob (captured (a_output b))) s0) as V.
        destruct (for_each _ _ s0) as [x s2|x s2|x s2|s2]; try apply (V (fun _ _ => True)).
        destruct (V (fun _ _ => True)) as (h & Eh & Hq & _). exists h. split; [exact Eh|]. split; [exact Hq|]. split.
        + intro Ho. unfold auto_table in Ha. rewrite Ho in Ha. discriminate.
        + split; [discriminate|]. intros _ used m m' Hm Hh. destruct (V used) as (h' & Eh' & _ & Hv). rewrite Eh in Eh'. apply app_inv_head in Eh' as <-. eapply Hv; eauto.
      - destruct (beq (o_table o) (str "off")) eqn:Ho.
        + apply beq_eq in Ho. eapply good_conseq; [apply off_routes, Ho|]. cbn beta. intros _ h _ H. split; [auto|]. split; [intro N; contradiction|discriminate].
        + apply beq_neq in Ho. eapply good_conseq; [apply table_routes; [exact Ho|exact Ha]|]. cbn beta. intros _ h _ H. split; [intro N; contradiction|]. split; [auto|discriminate]. }
    intro s0. specialize (F s0). destruct (for_each _ _ s0) as [x s2|x s2|x s2|s2]; try exact F.
    destruct F as (h & Eh & Hq & F1 & F2 & F3). exists h. split; [exact Eh|]. split; [exact Hq|]. exists a, b, h. split; [reflexivity|]. auto. }
  specialize (G s). rewrite E in G. destruct G as (h0 & Eh & _ & a & b & h & -> & Hq & G1 & G2 & G3).
  exists a, b, h, (expand glob (captured (a_output b))). split; [exact Eh|]. split; [reflexivity|].
  split; [intros ev Hi; unfold quiet in Hq; rewrite Forall_forall in Hq; apply (Hq ev Hi)|]. split; [eapply quiet_all_well; exact Hq|].
  split; [exact G1|]. split.
  - intros N1 N2 N3. apply G2; [exact N2|]. unfold auto_table. apply beq_neq in N1, N3. rewrite N1, N3. reflexivity.
  - intro Ha. apply G3. unfold auto_table. destruct Ha as [-> | ->]; reflexivity.
Qed.

(** C46: for a device with any peers and allowed IPs, when "wg show" prints them as wg does (C32) and sort sorts, the routes asked for are exactly
    those of the peers, the most specific first: none with "Table = off", each in the given table, or each according to [routed]. *)
Theorem C46_routes : forall sys glob fuel ifc o s v s1 E d, glob_plain glob -> glob (str "(none)") = [str "(none)"] -> wf_device d ->
  add_routes sys glob fuel ifc o true s = Done v s1 ->
  exists a b h, sh_hist s1 = sh_hist s ++ (show_aips ifc, a) :: (sort_command (c_input (sort_command (unlines (route_lines glob (read_complete (a_output a)))))), b) :: h /\
    (ugly_print E d (str "allowed-ips") false = Some (a_output a) ->
     c_input (sort_command (unlines (route_lines glob (read_complete (a_output a))))) = unlines (device_routes d) /\
     (sorts (unlines (device_routes d)) (a_output b) ->
      exists rs, Permutation (device_routes d) rs /\ specific_first rs /\
        (o_table o = str "off" -> changes h = []) /\
        (o_table o <> [] -> o_table o <> str "off" -> o_table o <> str "auto" -> Forall2 (table_route ifc (o_table o)) rs (changes h)) /\
        (o_table o = [] \/ o_table o = str "auto" -> forall used m m', 0 <= m -> honest ifc used m h m' -> routed ifc used m rs (changes h)))).
Proof.
  intros sys glob fuel ifc o s v s1 E d Hg Hn W H. destruct (add_routes_done _ _ _ _ _ _ _ _ H) as (a & b & h & rs & Eh & -> & _ & _ & R1 & R2 & R3).
  exists a, b, h. split; [exact Eh|]. intro Ha. cbn [c_input sort_command].
  pose proof (route_lines_device glob E d (a_output a) Hg Hn W Ha) as RL. rewrite RL. split; [reflexivity|]. intro Hs.
  assert (D : Forall (fun t => exists x, wf_aip x /\ t = aip_text x) (device_routes d)).
  { destruct W as (_ & _ & _ & _ & W). unfold device_routes. apply Forall_forall. intros t Ht. apply in_flat_map in Ht as (p & Hp & Ht).
    apply in_map_iff in Ht as (x & <- & Hx). exists x. split; [|reflexivity]. rewrite Forall_forall in W. destruct (W p Hp) as (_ & _ & _ & _ & Wa & _).
    rewrite Forall_forall in Wa. apply Wa, Hx. }
  destruct (Hs (device_routes d)) as (ls & Eo & Pm & Sp).
  { eapply Forall_impl; [|exact D]. intros t (x & Hx & ->). apply (visible_no0 _ (proj2 (aip_text_token x Hx))). }
  { reflexivity. }
  assert (D2 : Forall (fun t => exists x, wf_aip x /\ t = aip_text x) ls) by (eapply Permutation_Forall; [exact Pm|exact D]).
  assert (RS : expand glob (captured (a_output b)) = ls).
  { rewrite Eo. unfold expand. rewrite words_captured.
    - rewrite words_unlines.
      + clear - D2 Hg. induction D2 as [|t l (x & Hx & ->) D2 IH]; [reflexivity|]. cbn [flat_map]. rewrite Hg by (apply aip_text_plain, Hx). cbn [app]. f_equal. exact IH.
      + eapply Forall_impl; [|exact D2]. intros t (x & Hx & ->). apply aip_text_token, Hx.
    - unfold unlines. intro Hi. apply in_concat in Hi as (y & Hy & Hi). apply in_map_iff in Hy as (t & <- & Ht). rewrite Forall_forall in D2. destruct (D2 t Ht) as (x & Hx & ->).
      apply in_app_or in Hi as [Hi|[Hi|[]]]; [exact (proj1 (visible_no0 _ (proj2 (aip_text_token x Hx))) Hi)|discriminate]. }
  rewrite RS in *. exists ls. auto.
Qed.

(** C43: with an automatic table, whatever the routes are and whatever tables are in use, the first default route takes the first table from
    51820 on that is free in both families (unless a fwmark is set, which then names the table), sets the fwmark to it, and every default
    route uses that table.  ([routed] says so command by command.) *)
Theorem C43_table : forall sys glob fuel ifc o s v s1 used, o_table o = [] \/ o_table o = str "auto" ->
  add_routes sys glob fuel ifc o true s = Done v s1 ->
  exists a b inp h rs, sh_hist s1 = sh_hist s ++ (show_aips ifc, a) :: (sort_command inp, b) :: h /\
    rs = expand glob (captured (a_output b)) /\
    forall m m', 0 <= m -> honest ifc used m h m' -> routed ifc used m rs (changes h).
Proof.
  intros sys glob fuel ifc o s v s1 used Ho H. destruct (add_routes_done _ _ _ _ _ _ _ _ H) as (a & b & h & rs & Eh & -> & _ & _ & _ & _ & R).
  exists a, b. eexists. exists h, (expand glob (captured (a_output b))). split; [exact Eh|]. split; [reflexivity|]. intros m m' Hm Hh. eapply R; eauto.
Qed.

(** Consequences of [routed]. *)
Definition table_of (ifc : list Z) (k : Z) (c : command) : Prop :=
  c = set_mark ifc k \/ exists f r, c = argv [str "ip"; f; str "route"; str "add"; r; str "dev"; ifc; str "table"; print_dec k].

Lemma default_table : forall ifc t r g c k, 0 <= t -> default_commands ifc t r g -> In c g -> 0 <= k -> table_of ifc k c -> k = t /\ c <> set_mark ifc k.
Proof.
  intros ifc t r g c k Ht (f & sy & fw & Hf & Hfw & Hsy & ->) Hi Hk Hc. apply in_app_or in Hi as [Hi|Hi].
  - destruct Hi as [<-|[<-|[<-|[]]]]; destruct Hc as [E|(f' & r' & E)]; try discriminate. split; [|discriminate]. injection E as _ _ E.
    apply PropDump.dec_inj; [exact Hk|exact Ht|symmetry; exact E].
  - exfalso. apply in_app_or in Hi as [Hi|[<-|[]]].
    + destruct Hsy as [(_ & ->)|(_ & ->)]; [destruct Hi|]. destruct Hi as [<-|[]]. destruct Hc as [E|(f' & r' & E)]; discriminate.
    + destruct Hc as [->|(f' & r' & ->)]; destruct Hfw as [E|[E|E]]; discriminate E.
Qed.
Lemma plain_table : forall ifc r cs c k, cs = [] \/ (exists c, plain_route ifc r c /\ cs = [c]) -> In c cs -> table_of ifc k c -> False.
Proof.
  intros ifc r cs c k [->|(c0 & (f & Hf & ->) & ->)] Hi Hc; [destruct Hi|]. destruct Hi as [<-|[]]. destruct Hc as [E|(f' & r' & E)]; discriminate.
Qed.

(** A fwmark that is set is kept and names the table. *)
Theorem C43_kept : forall ifc used m rs cs, routed ifc used m rs cs -> 0 < m ->
  forall c k, In c cs -> 0 <= k -> table_of ifc k c -> k = m /\ c <> set_mark ifc k.
Proof.
  intros ifc used m rs cs H. induction H as [m|m r rs cs cs' N Hc H IH|t r rs g cs D F G H IH|m r rs g cs D Hm G H IH]; intros Hm0 c k Hi Hk Ht.
  - destruct Hi.
  - apply in_app_or in Hi as [Hi|Hi]; [exfalso; eapply plain_table; eauto|apply IH; assumption].
  - lia.
  - apply in_app_or in Hi as [Hi|Hi]; [eapply default_table; [|exact G|exact Hi|exact Hk|exact Ht]; lia|apply IH; assumption].
Qed.

(** Otherwise a single table is used, the first free one. *)
Theorem C43_chosen : forall ifc used rs cs, routed ifc used 0 rs cs ->
  (forall c k, In c cs -> 0 <= k -> ~ table_of ifc k c) \/
  exists t, first_free used t /\ In (set_mark ifc t) cs /\ forall c k, In c cs -> 0 <= k -> table_of ifc k c -> k = t.
Proof.
  intros ifc used rs cs H. remember 0 as m eqn:Em. induction H as [m|m r rs cs cs' N Hc H IH|t r rs g cs D F G H IH|m r rs g cs D Hm G H IH]; [left; intros c k []| | |lia].
  - destruct (IH Em) as [L|(t & F & Hi & T)]; [left|right; exists t; split; [exact F|]; split; [apply in_or_app; right; exact Hi|]]; intros c k Hi' Hk Ht;
      (apply in_app_or in Hi' as [Hi'|Hi']; [eapply plain_table in Ht; [destruct Ht|exact Hc|exact Hi']|]); [exact (L c k Hi' Hk Ht)|exact (T c k Hi' Hk Ht)].
  - right. exists t. split; [exact F|]. split; [left; reflexivity|]. assert (Ht0 : 0 < t) by (destruct F; lia).
    intros c k [<-|Hi] Hk Ht.
    + destruct Ht as [E|(f' & r' & E)]; [|discriminate]. injection E as E. apply PropDump.dec_inj; [exact Hk|lia|symmetry; exact E].
    + apply in_app_or in Hi as [Hi|Hi]; [eapply default_table; [|exact G|exact Hi|exact Hk|exact Ht]; lia|eapply C43_kept; eauto].
Qed.

(** The search ends: if it needs more than [fuel] rounds then the [fuel] tables from 51820 on are all in use. *)
Theorem C43_ends : forall sys glob fuel ifc o s s1 used, add_routes sys glob fuel ifc o true s = Loops s1 ->
  exists h, sh_hist s1 = sh_hist s ++ h /\ forall m m', 0 <= m -> honest ifc used m h m' -> forall k, 51820 <= k < 51820 + Z.of_nat fuel -> in_use used k.
Proof.
  intros sys glob fuel ifc o s s1 used H.
  assert (E : ends (add_routes sys glob fuel ifc o true) (exhausted fuel ifc used)).
  { unfold add_routes. eapply ends_bind; [apply all_routes_value| |].
    - apply ends_never. unfold all_routes. apply bind_never; [apply output_never|]. intro x. apply bind_never; [apply run_never|]. discriminate.
    - intros rs h1 _. eapply ends_conseq; [apply add_routes_ends|]. intro h. apply exhausted_after. }
  exact (E s s1 H).
Qed.

(** ** A concrete case *)
Section Check.
Variable ifc : list Z.
Variable usedb : list Z -> Z -> bool.
Definition used_of (f : list Z) (t : Z) : Prop := usedb f t = true.
Fixpoint beqs (a b : list (list Z)) : bool :=
  match a, b with [], [] => true | x :: a', y :: b' => beq x y && beqs a' b' | _, _ => false end.
Lemma beqs_eq : forall a b, beqs a b = true <-> a = b.
Proof.
  induction a as [|x a IH]; intros [|y b]; cbn [beqs]; try (split; congruence). rewrite andb_true_iff, beq_eq, IH. split; [intros [-> ->]; reflexivity|intro E; injection E; auto].
Qed.
Definition cmd_eqb (c c' : command) : bool := beqs (c_argv c) (c_argv c') && beq (c_input c) (c_input c').
Lemma cmd_eqb_eq : forall c c', cmd_eqb c c' = true <-> c = c'.
Proof. intros [w i] [w' i']. unfold cmd_eqb. cbn [c_argv c_input]. rewrite andb_true_iff, beq_eq, beqs_eq. split; [intros [-> ->]; reflexivity|intro E; injection E; auto]. Qed.
Definition silentb (s : list Z) : bool := forallb (fun c => (c =? 10) || (c =? 0)) s.
Lemma silentb_silent : forall s, silentb s = true <-> silent s.
Proof.
  intro s. unfold silentb, silent. rewrite forallb_forall, Forall_forall. split; intros H c Hc; specialize (H c Hc).
  - apply orb_true_iff in H as [H|H]; apply Z.eqb_eq in H; auto.
  - destruct H as [-> | ->]; reflexivity.
Qed.
Fixpoint check (m : Z) (h : history) : option Z :=
  match h with
  | [] => Some m
  | (c, a) :: h' =>
      if (if cmd_eqb c (show_mark ifc) then (a_status a =? 0) && beq (a_output a) (mark_str m ++ [10]) else true) &&
         (if m =? 0 then
            match c_argv c with
            | [i; f; r; s; t; w] => if cmd_eqb c (show_table f (number w)) then Bool.eqb (usedb f (number w)) (negb (silentb (a_output a))) else true
            | _ => true
            end
          else true)
      then check (match c_argv c with
                  | [i; s; n; f; w] => if cmd_eqb c (set_mark ifc (number w)) && (0 <? number w) && (a_status a =? 0) then number w else m
                  | _ => m
                  end) h'
      else None
  end.
Lemma number_print : forall t, 0 <= t -> number (print_dec t) = t.
Proof. intros t Ht. unfold number. apply take_digits_all, CstrProofs.print_dec_value, Ht. Qed.
Lemma check_honest : forall h m m', check m h = Some m' -> honest ifc used_of m h m'.
Proof.
  induction h as [|[c a] h IH]; intros m m' H; cbn [check] in H; [injection H as <-; constructor|].
  destruct (_ && _) eqn:E; [|discriminate]. apply andb_true_iff in E as [E1 E2]. econstructor; [| | |apply IH, H].
  - intro Ec. apply cmd_eqb_eq in Ec. rewrite Ec in E1. apply andb_true_iff in E1 as [S O]. apply Z.eqb_eq in S. apply beq_eq in O. auto.
  - intros -> f t Ht Ec. rewrite Ec in E2. unfold show_table, argv in E2. cbn [Z.eqb c_argv] in E2. rewrite number_print in E2 by exact Ht.
    assert (X : forall x, cmd_eqb x x = true) by (intro x; apply cmd_eqb_eq; reflexivity).
    rewrite X in E2. apply eqb_prop in E2. unfold used_of. rewrite E2, <- silentb_silent. destruct (silentb (a_output a)); cbn [negb]; intuition congruence.
  - destruct c as [ws inp]. cbn [c_argv].
    assert (K : forall t, 0 < t -> mk_cmd ws inp = set_mark ifc t -> exists i s n f w, ws = [i; s; n; f; w] /\ number w = t).
    { intros t Ht Ec. injection Ec as -> _. do 5 eexists. split; [reflexivity|]. apply number_print. lia. }
    destruct ws as [|i [|s [|n [|f [|w [|]]]]]];
      try (right; split; [intros t Ht Ec; exfalso; destruct (K t Ht Ec) as (? & ? & ? & ? & ? & X & _); discriminate X|reflexivity]).
    destruct (cmd_eqb _ _ && _ && _) eqn:X.
    + apply andb_true_iff in X as [X X3]. apply andb_true_iff in X as [X1 X2]. apply cmd_eqb_eq in X1. apply Z.eqb_eq in X3. apply Z.ltb_lt in X2.
      left. exists (number w). auto.
    + right. split; [|reflexivity]. intros t Ht Ec S. destruct (K t Ht Ec) as (? & ? & ? & ? & w' & Ew & Hw). injection Ew as <- <- <- <- <-.
      assert (Y : cmd_eqb (mk_cmd [i; s; n; f; w] inp) (set_mark ifc (number w)) = true) by (apply cmd_eqb_eq; rewrite Hw; exact Ec).
      rewrite Y, S, Hw in X. cbn [andb Z.eqb] in X. apply Z.ltb_lt in Ht. rewrite Ht in X. discriminate.
Qed.
End Check.

(** Tables 51820 (IPv4) and 51821 (IPv6) are in use; the peers' allowed IPs contain both default routes. *)
Definition busy (f : list Z) (t : Z) : bool := (beq f (str "-4") && (t =? 51820)) || (beq f (str "-6") && (t =? 51821)).
Definition mark_in (h : history) : Z :=
  fold_left (fun m ev => match c_argv (fst ev) with [i; s; n; f; w] => if beq s (str "set") && beq f (str "fwmark") then number w else m | _ => m end) h 0.
Definition busy_system : system := fun h c =>
  match c_argv c with
  | [w; s; i; p] =>
      if beq p (str "fwmark") then mk_answer 0 (mark_str (mark_in h) ++ [10]) None
      else if beq p (str "allowed-ips") then mk_answer 0 (str "AAAA" ++ [9] ++ str "0.0.0.0/0 10.0.0.0/8 ::/0" ++ [10]) None
      else mk_answer 0 [] None
  | [i; f; r; s; t; w] =>
      if beq r (str "route") && beq t (str "table") && busy f (number w) then mk_answer 0 (str "10.9.0.0/24 dev eth0" ++ [10]) None
      else if beq i (str "sort") then mk_answer 0 (unlines [str "10.0.0.0/8"; str "::/0"; str "0.0.0.0/0"]) None
      else mk_answer 0 [] None
  | _ => mk_answer 0 [] None
  end.
Definition busy_run : result Z := add_routes busy_system no_glob 10 wg0 options0 true (mk_shell [] false false).
Definition busy_history : history := match busy_run with Done _ s => sh_hist s | _ => [] end.
Example C43_case : (exists s, busy_run = Done 0 s) /\ honest wg0 (used_of busy) 0 (skipn 2 busy_history) 51822 /\
  firstn 4 (map (fun c => c_argv c) (changes busy_history)) = map words_of
   [["ip"; "-4"; "route"; "add"; "10.0.0.0/8"; "dev"; "wg0"]; ["wg"; "set"; "wg0"; "fwmark"; "51822"];
    ["ip"; "-6"; "rule"; "add"; "not"; "fwmark"; "51822"; "table"; "51822"];
    ["ip"; "-6"; "rule"; "add"; "table"; "main"; "suppress_prefixlength"; "0"]]%string /\
  In (argv [str "ip"; str "-4"; str "route"; str "add"; str "0.0.0.0/0"; str "dev"; wg0; str "table"; str "51822"]) (changes busy_history).
Proof.
  split; [eexists; vm_compute; reflexivity|]. split; [apply check_honest; vm_compute; reflexivity|]. split; [vm_compute; reflexivity|vm_compute; tauto].
Qed.

(** A device with two routes: what wg prints for it, and a sorted list. *)
Definition route_device : device :=
  mk_device wg0 3 false true true true true (repeat 4 32) (repeat 5 32) 0 51820
    [mk_peer false false true false false (repeat 7 32) (repeat 0 32) EpNone 0 0 0 0 0 [mk_aip AF_INET [0; 0; 0; 0] 0; mk_aip AF_INET [10; 0; 0; 0] 8]].
Lemma unlines_inj : forall a b, Forall (fun l => ~ In 10 l) a -> Forall (fun l => ~ In 10 l) b -> unlines a = unlines b -> a = b.
Proof.
  intros a b Ha Hb E. pose proof (QuickProofs.split_all_lines a [] Ha (fun x => x)) as A. pose proof (QuickProofs.split_all_lines b [] Hb (fun x => x)) as B.
  unfold unlines in E. rewrite E in A. rewrite A in B. apply app_inj_tail in B as [-> _]. reflexivity.
Qed.
Example C46_case : wf_device route_device /\ device_routes route_device = [str "0.0.0.0/0"; str "10.0.0.0/8"] /\
  sorts (unlines (device_routes route_device)) (unlines [str "10.0.0.0/8"; str "0.0.0.0/0"]).
Proof.
  split; [|split; [vm_compute; reflexivity|]].
  - unfold wf_device, route_device, wf_key. cbn [d_pub d_priv d_fwmark d_port d_peers].
    assert (B : forall x n, 0 <= x < 256 -> Forall is_byte (repeat x n)) by (intros x n Hx; apply Forall_forall; intros y Hy; apply repeat_spec in Hy as ->; exact Hx).
    split; [split; [reflexivity|apply B; lia]|]. split; [split; [reflexivity|apply B; lia]|]. split; [lia|]. split; [lia|]. constructor; [|constructor].
    unfold wf_peer, wf_key. cbn [p_pub p_psk p_endpoint p_ka p_aips p_rx p_tx p_hs_sec p_hs_nsec wf_endpoint].
    split; [split; [reflexivity|apply B; lia]|]. split; [split; [reflexivity|apply B; lia]|]. split; [exact I|]. split; [lia|]. split; [|repeat split; lia].
    constructor; [|constructor; [|constructor]]; left; cbn [a_family a_ip a_cidr]; (split; [reflexivity|]; split; [reflexivity|]; split; [|lia]); repeat constructor; cbn; lia.
  - intros ls Hl E. apply unlines_inj in E; [|vm_compute; repeat constructor; intuition discriminate|exact Hl].
    exists [str "10.0.0.0/8"; str "0.0.0.0/0"]. split; [reflexivity|]. split; [rewrite <- E; apply perm_swap|].
    intros a x b y c n m El (pa & pd & N1 & E1 & _ & _ & ->) (qa & qd & N2 & E2 & _ & _ & ->).
    destruct a as [|a0 [|a1 a]]; [|injection El as _ _ El; destruct b; discriminate|destruct a; injection El as _ _ El; discriminate].
    injection El as Ex El. destruct b as [|b0 b]; [|injection El as _ El; destruct b; discriminate]. injection El as Ey _. subst x y.
    apply (f_equal (split_first 47)) in E1. apply (f_equal (split_first 47)) in E2. rewrite split_first_at in E1, E2 by assumption.
    vm_compute in E1, E2. injection E1 as _ <-. injection E2 as _ <-. vm_compute. discriminate.
Qed.
Print Assumptions C46_routes.
Print Assumptions C43_table.
Print Assumptions C43_chosen.
Print Assumptions C43_ends.
