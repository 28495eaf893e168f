(** C67: DNS settings on macOS. *)
From Coq Require Import String ZArith List Bool Lia Permutation.
From Verif Require Import Base Cstr CstrProofs Bash Quick QuickRun QuickSpec QuickRunSpec QuickRouteSpec QuickReloadSpec PropQuick PropQuickReload BsdRoutesProofs3 Sh DarDns DarDnsSpec DarDnsProofs DarDnsProofs2 DarDnsProofs3 DarDnsProofs4.
Import ListNotations.
Open Scope Z_scope.

(** However often DNS was set, whatever services came meanwhile, wherever the script was stopped, and however often putting the settings back failed or was
    interrupted: once it succeeds, every service that did not vanish from the list has the servers and search domains it had at first. *)
Theorem C67_restored : forall sys glob order dns search, glob_plain glob -> some_order order ->
  forall s1 s2 s3 u s4 g T0 T,
  lives (set_dns sys order dns search (pure tt)) (mk_sh [] dvars0) s1 -> stops (set_dns sys order dns search (pure tt)) s1 s2 ->
  attempts (del_dns sys glob order) s2 s3 -> del_dns sys glob order s3 = Fin u s4 -> s_hist s4 = s_hist s3 ++ g -> succeeds g ->
  effects T0 (s_hist s4) T -> forall x, stays x (s_hist s4) -> T x = T0 x.
Proof.
  intros sys glob order dns search G O s1 s2 s3 u s4 g T0 T L S A D E Sg Ef x St.
  pose proof (lives_W sys order dns search O x T0 _ _ L (start_W x T0)) as X1. pose proof (stops_W sys order dns search O x T0 _ _ S X1) as X2.
  pose proof (attempts_W sys glob order G O x T0 _ _ A X2) as X3. pose proof (rule_del sys glob order G O x T0 (s_hist s3) s3 (conj X3 eq_refl)) as Y. rewrite D in Y.
  destruct Y as (_ & Y). exact (Y g E Sg T Ef St).
Qed.

(** When DNS has been set, every listed service has the servers and search domains of the configuration, and no other service is changed. *)
Theorem C67_configured : forall sys order dns search, some_order order -> dns <> [] ->
  forall s u s1 g T T1, set_dns sys order dns search (pure tt) s = Fin u s1 -> s_hist s1 = s_hist s ++ g -> succeeds g -> effects T g T1 ->
  forall x, (listed x g -> T1 x = configured dns search) /\ (~ listed x g -> T1 x = T x).
Proof. exact round. Qed.

(** Whatever the commands answer, a service is only ever changed after it has been listed. *)
Theorem C67_untouched : forall sys glob order dns search, glob_plain glob -> some_order order ->
  forall s1 s2 s3, lives (set_dns sys order dns search (pure tt)) (mk_sh [] dvars0) s1 -> stops (set_dns sys order dns search (pure tt)) s1 s2 ->
  attempts (del_dns sys glob order) s2 s3 ->
  forall h1 ev h2 x, s_hist s3 = h1 ++ ev :: h2 -> (exists ws, fst ev = set_servers x ws \/ fst ev = set_domains x ws) -> listed x h1.
Proof.
  intros sys glob order dns search G O s1 s2 s3 L S A h1 ev h2 x E C. set (T0 := fun _ : list Z => mk_setting [] []).
  pose proof (lives_W sys order dns search O x T0 _ _ L (start_W x T0)) as X1. pose proof (stops_W sys order dns search O x T0 _ _ S X1) as X2.
  pose proof (attempts_W sys glob order G O x T0 _ _ A X2) as ((_ & _ & U) & _). eapply U; eassumption.
Qed.

(** ** A Mac *)
(** Two services; what networksetup shows is what was set. *)
Definition wifi : list Z := str "Wi-Fi".
Definition usb : list Z := str "USB LAN".
Definition apply_to (x : list Z) (v : setting) (ev : event) : setting :=
  match c_argv (fst ev) with
  | _ :: o :: s :: ws =>
      if negb (beq s x) then v
      else if beq o (str "-setdnsservers") then (match ws with [] => v | _ => mk_setting (meant ws) (domains v) end)
      else if beq o (str "-setsearchdomains") then (match ws with [] => v | _ => mk_setting (servers v) (meant ws) end)
      else v
  | _ => v
  end.
Definition at_first : settings := fun x =>
  if beq x wifi then mk_setting [str "192.168.1.1"; str "192.168.1.2"] []
  else if beq x usb then mk_setting [] [str "lan"] else mk_setting [] [].
Definition now (h : history) (x : list Z) : setting := fold_left (apply_to x) h (at_first x).
Definition show (ws : list (list Z)) : list Z := match ws with [] => str "There aren't any." | _ => unlines ws end.
Definition is_c (c d : command) : bool := if list_eq_dec (list_eq_dec Z.eq_dec) (c_argv c) (c_argv d) then true else false.
(** [two]: from then on the second service is there; [broken]: then the list cannot be had. *)
Definition mac (two broken : nat) : system := fun h c =>
  if is_c c list_services then
    if Nat.eqb (length h) broken then mk_answer 1 [] None
    else mk_answer 0 (unlines ([str "An asterisk (*) denotes that a network service is disabled."; wifi] ++ (if Nat.leb two (length h) then [42 :: usb] else []))) None
  else match c_argv c with
  | [_; o; s] =>
      if beq o (str "-getdnsservers") then mk_answer 0 (show (servers (now h s))) None
      else if beq o (str "-getsearchdomains") then mk_answer 0 (show (domains (now h s))) None
      else mk_answer 0 [] None
  | _ => mk_answer 0 [] None
  end.
Definition in_order : history -> list (list Z) -> list (list Z) := fun _ l => l.
Definition word_glob (w : list Z) : list (list Z) := [w].
Definition tunnel_dns : list (list Z) := [str "10.0.0.1"].
Definition state {A} (r : fin dvars A) (s0 : sh dvars) : sh dvars := match r with Fin _ s | Quit _ s | Hit _ s | Spin s => s end.
Fixpoint rounds (sys : system) (trapped : act dvars unit) (n : nat) (s : sh dvars) : sh dvars :=
  match n with O => s | S n' => rounds sys trapped n' (state (set_dns sys in_order tunnel_dns [] trapped s) s) end.

(** Checking that a history is about the settings [now]. *)
Inductive kind := KList | KServers (s : list Z) | KDomains (s : list Z) | KSetServers (s : list Z) (ws : list (list Z)) | KSetDomains (s : list Z) (ws : list (list Z)).
Definition the_command (k : kind) : command := match k with
  | KList => list_services | KServers s => get_servers s | KDomains s => get_domains s | KSetServers s ws => set_servers s ws | KSetDomains s ws => set_domains s ws end.
Definition the_kind (c : command) : kind := match c_argv c with
  | _ :: o :: s :: ws => if beq o (str "-getdnsservers") then KServers s else if beq o (str "-getsearchdomains") then KDomains s
      else if beq o (str "-setdnsservers") then KSetServers s ws else KSetDomains s ws
  | _ => KList end.
Definition entryb (w : list Z) : bool :=
  negb (beq w []) && forallb (fun c => negb (existsb (Z.eqb c) (str "*?[\(")) && negb (existsb (Z.eqb c) [0; 9; 10; 32])) w && negb (beq w (str "Empty")).
Definition shownb (ws : list (list Z)) (out : list Z) : bool := match ws with [] => existsb (Z.eqb 32) out | _ => forallb entryb ws && beq out (unlines ws) end.
Definition okb (h : history) (k : kind) (a : answer) : bool := match k with
  | KList => true
  | KServers s => shownb (servers (now h s)) (a_output a)
  | KDomains s => shownb (domains (now h s)) (a_output a)
  | _ => true end && (match k with KList => true | _ => a_status a =? 0 end).
Lemma entryb_entry : forall w, entryb w = true -> entry w.
Proof.
  intros w H. unfold entryb in H. apply andb_prop in H. destruct H as (H & H3). apply andb_prop in H. destruct H as (H1 & H2). rewrite forallb_forall in H2.
  assert (X : forall c l, existsb (Z.eqb c) l = false -> ~ In c l).
  { intros c l E I. assert (existsb (Z.eqb c) l = true) by (apply existsb_exists; exists c; split; [exact I|apply Z.eqb_refl]). congruence. }
  split; [intros ->; discriminate H1|]. split; [|split].
  - unfold plain_word. apply Forall_forall. intros c Hc. specialize (H2 c Hc). apply andb_prop in H2. apply X, negb_true_iff, H2.
  - apply Forall_forall. intros c Hc. specialize (H2 c Hc). apply andb_prop in H2. destruct H2 as (_ & H2). apply negb_true_iff, X in H2. cbn in H2. lia.
  - intros ->. vm_compute in H3. discriminate H3.
Qed.
Lemma shownb_shown : forall ws out, shownb ws out = true -> shown ws out.
Proof.
  intros [|w ws] out H; unfold shownb in H.
  - left. split; [reflexivity|]. apply existsb_exists in H. destruct H as (c & Hc & E). apply Z.eqb_eq in E. subst c. exact Hc.
  - right. apply andb_prop in H. destruct H as (H1 & H2). apply beq_eq in H2. split; [discriminate|]. split; [|exact H2]. rewrite forallb_forall in H1. apply Forall_forall. intros x Hx. apply entryb_entry, H1, Hx.
Qed.
Lemma now_snoc : forall h ev x, now (h ++ [ev]) x = apply_to x (now h x) ev.
Proof. intros h ev x. unfold now. rewrite fold_left_app. reflexivity. Qed.
Lemma okb_effect : forall h k a, okb h k a = true -> effect (now h) (the_command k, a) (now (h ++ [(the_command k, a)])).
Proof.
  intros h k a H. unfold okb in H. apply andb_prop in H. destruct H as (H & Sa). destruct k as [|s|s|s ws|s ws]; cbn [the_command].
  - apply ef_other; [intro x; rewrite now_snoc; reflexivity|..]; intros; discriminate.
  - apply ef_shows_servers; [intro x; rewrite now_snoc; unfold apply_to; cbn [fst c_argv get_servers argv]; destruct (negb (beq s x)); reflexivity|]. intros _. apply shownb_shown, H.
  - apply ef_shows_domains; [intro x; rewrite now_snoc; unfold apply_to; cbn [fst c_argv get_domains argv]; destruct (negb (beq s x)); reflexivity|]. intros _. apply shownb_shown, H.
  - destruct ws as [|w ws].
    + apply ef_no_servers. intro x. rewrite now_snoc. unfold apply_to. cbn [fst c_argv set_servers argv]. destruct (negb (beq s x)); reflexivity.
    + apply ef_servers; [discriminate| | |].
      * intros x Hx. rewrite now_snoc. unfold apply_to. cbn [fst c_argv set_servers argv]. rewrite (beq_no s x) by congruence. reflexivity.
      * rewrite now_snoc. unfold apply_to. cbn [fst c_argv set_servers argv]. rewrite beq_refl. reflexivity.
      * intros _. rewrite now_snoc. unfold apply_to. cbn [fst c_argv set_servers argv]. rewrite beq_refl. reflexivity.
  - destruct ws as [|w ws].
    + apply ef_no_domains. intro x. rewrite now_snoc. unfold apply_to. cbn [fst c_argv set_domains argv]. destruct (negb (beq s x)); reflexivity.
    + apply ef_domains; [discriminate| | |].
      * intros x Hx. rewrite now_snoc. unfold apply_to. cbn [fst c_argv set_domains argv]. rewrite (beq_no s x) by congruence. reflexivity.
      * rewrite now_snoc. unfold apply_to. cbn [fst c_argv set_domains argv]. rewrite beq_refl. reflexivity.
      * intros _. rewrite now_snoc. unfold apply_to. cbn [fst c_argv set_domains argv]. rewrite beq_refl. reflexivity.
Qed.
Fixpoint okall (pre h : history) : bool := match h with
  | [] => true
  | (c, a) :: h' => is_c c (the_command (the_kind c)) && beq (c_input c) [] && okb pre (the_kind c) a && okall (pre ++ [(c, a)]) h' end.
Lemma okall_effects : forall h pre, okall pre h = true -> effects (now pre) h (now (pre ++ h)).
Proof.
  induction h as [|[c a] h IH]; intros pre H; [rewrite app_nil_r; constructor; reflexivity|]. cbn [okall] in H. apply andb_prop in H. destruct H as (H & H3). apply andb_prop in H. destruct H as (H & H2). apply andb_prop in H. destruct H as (H1 & Hi).
  apply beq_eq in Hi. unfold is_c in H1. destruct (list_eq_dec _ _ _) as [E|]; [|discriminate]. assert (Ec : c = the_command (the_kind c)).
  { destruct c as [ws i]. cbn [c_argv c_input] in *. subst i. rewrite E. generalize (the_kind (mk_cmd ws [])). intros []; reflexivity. }
  econstructor; [|specialize (IH _ H3); rewrite <- app_assoc in IH; exact IH]. rewrite Ec at 1 2. apply okb_effect, H2.
Qed.
Lemma in_order_ok : some_order in_order.
Proof. intros h l. apply Permutation_refl. Qed.
Lemma word_glob_ok : glob_plain word_glob.
Proof. intros w _. reflexivity. Qed.
(** Once it is listed, a service is listed every time. *)
Definition in_list (x : list Z) (a : answer) : bool := existsb (beq x) (map service_name (tl (read_complete (a_output a)))).
Fixpoint stayb (x : list Z) (seen : bool) (h : history) : bool := match h with
  | [] => true
  | (c, a) :: h' => if is_c c list_services then (negb seen || in_list x a) && stayb x (seen || in_list x a) h' else stayb x seen h' end.
Lemma in_list_lists : forall x a, in_list x a = true <-> lists (a_output a) x.
Proof.
  intros x a. rewrite lists_iff. unfold in_list. rewrite existsb_exists. split; [intros (y & Hy & Ey); apply beq_eq in Ey; subst y; exact Hy|intro H; exists x; split; [exact H|apply beq_refl]].
Qed.
Lemma is_list : is_c list_services list_services = true.
Proof. unfold is_c. destruct (list_eq_dec _ _ _); [reflexivity|contradiction]. Qed.
Lemma stayb_true : forall x h, stayb x true h = true -> forall h1 b h2, h = h1 ++ (list_services, b) :: h2 -> lists (a_output b) x.
Proof.
  intros x h. induction h as [|[c a] h IH]; intros H h1 b h2 E; [destruct h1; discriminate E|]. cbn [stayb] in H. destruct h1 as [|e h1]; cbn [app] in E.
  - assert (c = list_services /\ a = b) as (-> & ->) by (split; congruence). rewrite is_list in H. cbn [negb orb] in H. apply andb_prop in H. apply in_list_lists, H.
  - assert (h = h1 ++ (list_services, b) :: h2) by congruence. apply (IH) with (h1 := h1) (h2 := h2); [|assumption]. destruct (is_c c list_services); [cbn [negb orb] in H; apply andb_prop in H; apply H|exact H].
Qed.
Lemma stayb_stays : forall x h seen, stayb x seen h = true -> stays x h.
Proof.
  intros x h. induction h as [|[c a] h IH]; intros seen H h1 a1 h2 b h3 E L; [destruct h1; discriminate E|]. cbn [stayb] in H. destruct h1 as [|e h1]; cbn [app] in E.
  - assert (c = list_services /\ a = a1 /\ h = h2 ++ (list_services, b) :: h3) as (-> & -> & Eh) by (repeat split; congruence). rewrite is_list in H. apply andb_prop in H. destruct H as (_ & H).
    rewrite (proj2 (in_list_lists x a1) L), orb_true_r in H. eapply stayb_true; eassumption.
  - assert (Eh : h = h1 ++ (list_services, a1) :: h2 ++ (list_services, b) :: h3) by congruence. destruct (is_c c list_services).
    + apply andb_prop in H. destruct H as (_ & H). exact (IH _ H h1 a1 h2 b h3 Eh L).
    + exact (IH _ H h1 a1 h2 b h3 Eh L).
Qed.

(** Two rounds, the second with a new service; then the script is stopped, putting back fails or not, and all is as before. *)
Definition mac1 : system := mac 3 99.
Definition mac_s1 : sh dvars := rounds mac1 (pure tt) 2 (mk_sh [] dvars0).
Definition mac_s2 : sh dvars := state (del_dns mac1 word_glob in_order mac_s1) mac_s1.
Theorem C67_case : exists u g T,
  lives (set_dns mac1 in_order tunnel_dns [] (pure tt)) (mk_sh [] dvars0) mac_s1 /\
  del_dns mac1 word_glob in_order mac_s1 = Fin u mac_s2 /\ s_hist mac_s2 = s_hist mac_s1 ++ g /\ succeeds g /\ effects at_first (s_hist mac_s2) T /\
  stays wifi (s_hist mac_s2) /\ stays usb (s_hist mac_s2) /\ T wifi = at_first wifi /\ T usb = at_first usb /\
  (exists T1, effects at_first (s_hist mac_s1) T1 /\ T1 wifi = configured tunnel_dns [] /\ T1 usb = configured tunnel_dns []) /\ configured tunnel_dns [] <> at_first wifi.
Proof.
  exists tt, (skipn 12 (s_hist mac_s2)), (now (s_hist mac_s2)).
  split. { eapply li_set; [eapply li_set; [apply li_nil|]|]; vm_compute; reflexivity. }
  split; [vm_compute; reflexivity|]. split; [vm_compute; reflexivity|]. split; [vm_compute; repeat (constructor; [reflexivity|]); constructor|].
  split; [apply (okall_effects (s_hist mac_s2) []); vm_compute; reflexivity|]. split; [apply (stayb_stays _ _ false); vm_compute; reflexivity|]. split; [apply (stayb_stays _ _ false); vm_compute; reflexivity|]. split; [vm_compute; reflexivity|]. split; [vm_compute; reflexivity|].
  split; [exists (now (s_hist mac_s1)); split; [apply (okall_effects (s_hist mac_s1) []); vm_compute; reflexivity|split; vm_compute; reflexivity]|vm_compute; discriminate].
Qed.

(** ** What does not hold *)
(** A single failure of "networksetup -listallnetworkservices" makes the script take the tunnel's own DNS settings for the user's. *)
Definition mac2 : system := mac 99 5.
Definition lost_s1 : sh dvars := rounds mac2 (pure tt) 3 (mk_sh [] dvars0).
Definition lost_s2 : sh dvars := state (del_dns mac2 word_glob in_order lost_s1) lost_s1.
Theorem C67_lost_refuted : ~ forall sys glob order dns search s1 u s2 g T0 T, glob_plain glob -> some_order order ->
  lives (set_dns sys order dns search (pure tt)) (mk_sh [] dvars0) s1 -> del_dns sys glob order s1 = Fin u s2 -> s_hist s2 = s_hist s1 ++ g -> succeeds g ->
  effects T0 (s_hist s2) T -> Forall (fun ev => fst ev = list_services \/ a_status (snd ev) = 0) (s_hist s2) -> forall x, listed x (s_hist s2) -> T x = T0 x.
Proof.
  intro H. assert (X : now (s_hist lost_s2) wifi = at_first wifi); [|vm_compute in X; discriminate X].
  assert (L : lives (set_dns mac2 in_order tunnel_dns [] (pure tt)) (mk_sh [] dvars0) lost_s1) by (eapply li_set; [eapply li_set; [eapply li_set; [apply li_nil|]|]|]; vm_compute; reflexivity).
  assert (D : del_dns mac2 word_glob in_order lost_s1 = Fin tt lost_s2) by (vm_compute; reflexivity).
  assert (G : s_hist lost_s2 = s_hist lost_s1 ++ skipn 11 (s_hist lost_s2)) by (vm_compute; reflexivity).
  assert (E : effects at_first (s_hist lost_s2) (now (s_hist lost_s2))) by (apply (okall_effects (s_hist lost_s2) []); vm_compute; reflexivity).
  refine (H mac2 word_glob in_order tunnel_dns [] lost_s1 tt lost_s2 _ _ _ word_glob_ok in_order_ok L D G _ E _ wifi _).
  - vm_compute. repeat (constructor; [reflexivity|]). constructor.
  - apply Forall_forall. intros ev Hev. assert (B : forallb (fun ev => is_c (fst ev) list_services || (a_status (snd ev) =? 0)) (s_hist lost_s2) = true) by (vm_compute; reflexivity).
    rewrite forallb_forall in B. specialize (B ev Hev). apply orb_prop in B. destruct B as [B|B]; [left|right; apply Z.eqb_eq, B]. 
    assert (K : forallb (fun ev => beq (c_input (fst ev)) []) (s_hist lost_s2) = true) by (vm_compute; reflexivity). rewrite forallb_forall in K. specialize (K ev Hev). apply beq_eq in K.
    unfold is_c in B. destruct (list_eq_dec _ _ _) as [Y|]; [|discriminate B]. destruct (fst ev) as [ws i]. cbn in K, Y. subst. reflexivity.
  - exists (mk_answer 0 (unlines [str "An asterisk (*) denotes that a network service is disabled."; wifi]) None). split; [vm_compute; left; reflexivity|]. apply lists_iff. vm_compute. left. reflexivity.
Qed.

(** The alarm of the route monitor, when it comes while a new service is asked for its servers: the search domains that are then taken for the user's are those of
    the tunnel. *)
Definition mac3 : system := mac 3 99.
Definition alarm3 (h : history) : bool := match rev h with (c, _) :: _ => is_c c (get_servers usb) | [] => false end.
Definition ring : act dvars unit := on_alarm mac3 in_order tunnel_dns [] alarm3.
Definition rung_s1 : sh dvars := rounds mac3 ring 2 (mk_sh [] dvars0).
Definition rung_s2 : sh dvars := state (del_dns mac3 word_glob in_order rung_s1) rung_s1.
Theorem C67_alarm_refuted : ~ forall sys glob order dns search alarm s1 u s2 g T0 T, glob_plain glob -> some_order order ->
  lives (set_dns sys order dns search (on_alarm sys order dns search alarm)) (mk_sh [] dvars0) s1 -> del_dns sys glob order s1 = Fin u s2 -> s_hist s2 = s_hist s1 ++ g -> succeeds g ->
  effects T0 (s_hist s2) T -> Forall (fun ev => a_status (snd ev) = 0) (s_hist s2) -> forall x, stays x (s_hist s2) -> T x = T0 x.
Proof.
  intro H. assert (X : now (s_hist rung_s2) usb = at_first usb); [|vm_compute in X; discriminate X].
  assert (L : lives (set_dns mac3 in_order tunnel_dns [] ring) (mk_sh [] dvars0) rung_s1) by (eapply li_set; [eapply li_set; [apply li_nil|]|]; vm_compute; reflexivity).
  assert (D : del_dns mac3 word_glob in_order rung_s1 = Fin tt rung_s2) by (vm_compute; reflexivity).
  set (n := length (s_hist rung_s1)).
  assert (G : s_hist rung_s2 = s_hist rung_s1 ++ skipn n (s_hist rung_s2)) by (vm_compute; reflexivity).
  assert (E : effects at_first (s_hist rung_s2) (now (s_hist rung_s2))) by (apply (okall_effects (s_hist rung_s2) []); vm_compute; reflexivity).
  refine (H mac3 word_glob in_order tunnel_dns [] alarm3 rung_s1 tt rung_s2 _ _ _ word_glob_ok in_order_ok L D G _ E _ usb _).
  - vm_compute. repeat (constructor; [reflexivity|]). constructor.
  - vm_compute. repeat (constructor; [reflexivity|]). constructor.
  - apply (stayb_stays _ _ false). vm_compute. reflexivity.
Qed.

Print Assumptions C67_restored.
Print Assumptions C67_configured.
Print Assumptions C67_untouched.
Print Assumptions C67_case.
Print Assumptions C67_lost_refuted.
Print Assumptions C67_alarm_refuted.
