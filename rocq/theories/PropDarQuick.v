(** C68: wg-quick on macOS. *)
From Coq Require Import String ZArith List Bool Lia.
From Verif Require Import Base Cstr CstrProofs Bash Quick QuickRun QuickSpec QuickRunSpec QuickReloadSpec QuickRouteSpec QuickMain QuickSave Sh ShGoes BsdRoutes BsdRoutesSpec
  BsdRoutesProofs BsdRoutesProofs2 BsdRoutesProofs3 PropBsdRoutes PropQuickReload FreeQuick DarQuick DarSpec DarProofs DarProofs2 DarProofs3.
From Verif Require FreeSpec FreeProofs FreeProofs3 OpenSpec OpenProofs3 DarDnsSpec PropQuickFirewall.
Import ListNotations.
Open Scope Z_scope.
Notation sample := OpenProofs3.sample.
Notation fine_b := (fine bears).

Definition never_1 : command -> Prop := fun _ => False.
Lemma no_never : forall (P : history -> Prop) h, P h -> Forall (fun ev => ~ never_1 (fst ev)) h.
Proof. intros P h _. apply Forall_forall. intros x _ []. Qed.
Lemma looking_bears : forall ifc h, looking ifc h -> Forall (fun ev => bears (fst ev)) h.
Proof.
  intros ifc h [r H].
  assert (B1 : bears FreeSpec.show_interfaces) by asks. assert (B2 : bears (has_name ifc)) by asks. assert (B3 : bears (read_name ifc)) by (right; right; left; exists ifc; reflexivity).
  assert (B4 : forall x, bears (FreeSpec.has_socket x)) by (intro; asks). assert (B5 : forall p, bears (made_at p)) by (intro p; right; left; exists p; reflexivity).
  inversion H; subst; repeat (constructor; [cbn [fst]; auto|]); constructor.
Qed.

(** ** Up *)
Section Up.
Variables (sys : system) (glob : list Z -> list (list Z)) (order : history -> list (list Z) -> list (list Z)) (ifc : list Z) (o : options) (us : list Z).
Hypothesis any_order : DarDnsSpec.some_order order.
(** What follows when the interface is not up yet. *)
Definition brought_up (r : history) (st : Z) : Prop := exists cr ri p rs, r = cr ++ all_steps p /\ creation us ifc cr ri /\ Forall (fine bears_at_start) cr /\ in_order glob ri ifc o rs p /\ Forall fine_b (all_steps p) /\ st = 0 /\
  (default_among o rs -> hosts_kept ri o rs (p_hosts p)).
Definition cannot_create (r : history) (st : Z) : Prop := exists cr cl, r = cr ++ cl /\ no_creation us ifc cr /\ Forall (fine bears_at_start) cr /\ undone_early ifc 1 cl st.
Definition creation_fails (r : history) (st : Z) : Prop := exists cr ev st0 cl, r = cr ++ ev :: cl /\ breaks_off bears_at_start (creating us ifc) cr ev /\ fails_with bears_at_start ev st0 /\ undone_early ifc st0 cl st.
Definition creation_hit (r : history) (st : Z) : Prop := exists cr ev st0 c1 st1 c2, r = cr ++ ev :: c1 ++ c2 /\ breaks_off bears_at_start (creating us ifc) cr ev /\ a_signal (snd ev) = Some st0 /\
  undone_early ifc st0 c1 st1 /\ undone_early ifc st1 c2 st.
Definition step_fails (r : history) (st : Z) : Prop := exists cr ri fwd ev st0 cl, r = cr ++ fwd ++ ev :: cl /\ creation us ifc cr ri /\ Forall (fine bears_at_start) cr /\
  breaks_off bears (setting_up glob ri ifc o) fwd ev /\ fails_with bears ev st0 /\ undone ri ifc st0 cl st.
Definition refused (r : history) (st : Z) : Prop := exists cr ri p rs cl, r = cr ++ all_steps p ++ cl /\ creation us ifc cr ri /\ Forall (fine bears_at_start) cr /\ Forall fine_b (all_steps p) /\
  in_order_refused glob ri ifc o rs p /\ undone ri ifc 1 cl st.
Definition step_hit (r : history) (st : Z) : Prop := exists cr ri fwd ev st0 c1 st1 c2, r = cr ++ fwd ++ ev :: c1 ++ c2 /\ creation us ifc cr ri /\ Forall (fine bears_at_start) cr /\
  breaks_off bears (setting_up glob ri ifc o) fwd ev /\ a_signal (snd ev) = Some st0 /\ undone ri ifc st0 c1 st1 /\ undone ri ifc st1 c2 st.

Lemma kept_of : forall ri p rs v v1, v_eps v = [] -> default_among o rs -> up_complete o ri v p rs v1 -> hosts_kept ri o rs (p_hosts p).
Proof.
  intros ri p rs v v1 V X (vr & (G4 & G6 & Ge & A4 & A6) & U & _). rewrite V in Ge. destruct (U X) as (_ & B4 & B6 & (a4 & a6 & ae & L & R4 & R6 & I1 & I2) & K); [rewrite Ge; constructor|].
  exists a4, a6, ae, (v_gw4 v1), (v_gw6 v1), (fresh_eps ae), (v_auto4 v1), (v_auto6 v1). split; [exact L|]. split; [rewrite R4; apply gateway_spec|]. split; [rewrite R6; apply gateway_spec|]. split; [apply hosts_spec|].
  split; [rewrite B4; exact A4|]. split; [rewrite B6; exact A6|]. intros B T Kn No.
  assert (S : sound B vr B) by (split; [|rewrite Ge; intros e f []]; intros f e; rewrite Ge; split; [intros [[] _]|reflexivity]).
  destruct (K B B T Kn No S) as [Hd _]. intros f e. destruct (Hd f e) as [H1 H2]. split.
  - intros [Hi Hw]. apply H1. split; [eapply I2; eassumption|exact Hw].
  - intro N. apply H2. intros [Hi Hw]. apply N. split; [apply I1, Hi|exact Hw].
Qed.
Lemma up_cases : forall s st H, s_vars s = vars0 ->
  region (undo sys ifc []) (add_if sys ifc us) (fun real => region (undo sys ifc real) (after_add_if sys glob order ifc o real) (fun _ s => (Some 0, s_hist s))) s = (Some st, H) ->
  exists r, H = s_hist s ++ r /\ (brought_up r st \/ cannot_create r st \/ creation_fails r st \/ creation_hit r st \/ step_fails r st \/ refused r st \/ step_hit r st).
Proof.
  intros s st H V E.
  apply (region_cases vars bears_at_start never_1 _ _ _ _ _ _ _ _ _ _ _ (go_add_if never_1 sys ifc us) (go_undo_early never_1 sys ifc)) in E as [(ri & s1 & cr & E1 & F1 & (Cr & V1) & E)|[(h & st0 & v1 & cl & -> & X & C)|(h & st0 & v1 & v2 & c1 & c2 & st1 & -> & X & C1 & C2)]].
  2:{ apply closed_trap in C; [|apply no_never]. destruct X as [(F & v' & (N & -> & _))|(h1 & ev & -> & F & Br & q & X)].
      - exists (h ++ cl). split; [reflexivity|]. right. left. exists h, cl. auto.
      - exists (h1 ++ ev :: cl). rewrite <- !app_assoc. split; [reflexivity|]. right. right. left. exists h1, ev, st0, cl. split; [reflexivity|].
        split; [split; [exact F|]; exists q; rewrite <- app_assoc in X; destruct X as [(a & v' & X & _)|(a & v' & X & _)]; eexists; exact X|]. split; [|exact C]. destruct Br as (B1 & B2 & B3 & [B4|[[] _]]). split; [exact B1|]. auto. }
  2:{ apply closed_trap in C1; [|apply no_never]. apply closed_trap in C2; [|apply no_never]. destruct X as (h1 & ev & -> & F & S & q & X). exists (h1 ++ ev :: c1 ++ c2). rewrite <- !app_assoc. split; [reflexivity|]. right. right. right. left.
      exists h1, ev, st0, c1, st1, c2. split; [reflexivity|]. split; [|auto]. split; [exact F|]. exists q. rewrite <- app_assoc in X. destruct X as [(a & v' & X & _)|(a & v' & X & _)]; eexists; exact X. }
  assert (V1' : s_vars s1 = vars0) by congruence. clear V1.
  assert (Ne : ri <> []) by (destruct Cr as (a & b & h' & _ & L); eapply found_ne, L).
  assert (Set_up : forall p q, ((exists (a : unit) v1, up_done glob ifc o ri (s_vars s1) (p ++ q) v1) \/ (exists st v1, up_refused glob ifc o ri (s_vars s1) (p ++ q) st v1)) -> setting_up glob ri ifc o (p ++ q)).
  { intros p q [(a & v1 & X)|(st1 & v1 & _ & X)]; rewrite V1' in X; destruct (X eq_refl eq_refl) as (p1 & rs & Y & IO).
    - exists rs, p1. split; [exact Y|]. left. apply IO.
    - exists rs, p1. auto. }
  apply (region_cases vars bears never_1 _ _ _ _ _ _ _ _ _ _ _ (go_after never_1 sys glob order ifc o ri any_order) (go_undo never_1 sys ifc ri Ne)) in E
    as [(u & s2 & h2 & E2 & F2 & Up & E)|[(h & st0 & v1 & cl & -> & X & C)|(h & st0 & v1 & v2 & c1 & c2 & st1 & -> & X & C1 & C2)]].
  - assert (Es : st = 0 /\ H = s_hist s2) by (split; congruence). destruct Es as [-> ->]. rewrite V1' in Up. destruct (Up eq_refl eq_refl) as (p & rs & -> & IO & Cp). exists (cr ++ all_steps p). rewrite E2, E1, <- app_assoc. split; [reflexivity|].
    left. exists cr, ri, p, rs. split; [reflexivity|]. split; [exact Cr|]. split; [exact F1|]. split; [exact IO|]. split; [exact F2|]. split; [reflexivity|]. intro A. apply (kept_of ri p rs vars0 (s_vars s2) eq_refl A (Cp F2)).
  - apply closed_trap in C; [|apply no_never]. destruct X as [(F & v' & -> & X)|(h1 & ev & -> & F & Br & q & X)].
    + rewrite V1' in X. destruct (X eq_refl eq_refl) as (p & rs & -> & IO). exists (cr ++ all_steps p ++ cl). rewrite E1, <- !app_assoc. split; [reflexivity|]. right. right. right. right. right. left. exists cr, ri, p, rs, cl. auto 10.
    + exists (cr ++ h1 ++ ev :: cl). rewrite E1, <- !app_assoc. split; [reflexivity|]. right. right. right. right. left. exists cr, ri, h1, ev, st0, cl. split; [reflexivity|]. split; [exact Cr|]. split; [exact F1|].
      apply Set_up in X. rewrite <- app_assoc in X. split; [split; [exact F|exists q; exact X]|]. split; [|exact C]. destruct Br as (B1 & B2 & B3 & [B4|[[] _]]). split; [exact B1|]. auto.
  - apply closed_trap in C1; [|apply no_never]. apply closed_trap in C2; [|apply no_never].
    destruct X as (h1 & ev & -> & F & S & q & X). exists (cr ++ h1 ++ ev :: c1 ++ c2). rewrite E1, <- !app_assoc. split; [reflexivity|]. right. right. right. right. right. right. exists cr, ri, h1, ev, st0, c1, st1, c2.
    split; [reflexivity|]. split; [exact Cr|]. split; [exact F1|]. apply Set_up in X. rewrite <- app_assoc in X. split; [split; [exact F|exists q; exact X]|]. auto.
Qed.
(** A signal arrives while the interface is looked for. *)
Definition look_hit (h : history) (st : Z) : Prop := exists fwd ev, h = fwd ++ [ev] /\ breaks_off bears (looking ifc) fwd ev /\ a_signal (snd ev) = Some st.
Definition up_ends (h : history) (st : Z) : Prop :=
  look_hit h st \/
  ((exists ri, lookup ifc h (Some ri)) /\ Forall fine_b h /\ st = 1) \/
  (exists l r, h = l ++ r /\ lookup ifc l None /\ Forall fine_b l /\
    (brought_up r st \/ cannot_create r st \/ creation_fails r st \/ creation_hit r st \/ step_fails r st \/ refused r st \/ step_hit r st)).
Lemma up_whole : forall h0 h st, cmd_up sys glob order ifc o us (mk_sh h0 vars0) = (Some st, h) -> exists h', h = h0 ++ h' /\ up_ends h' st.
Proof.
  intros h0 h st E. unfold cmd_up in E.
  assert (Gf : go bears never_1 (r <~ get_real_interface sys ifc false ;; match r with Some _ => quit 1 | None => pure tt end)
    (fun v _ h v1 => lookup ifc h None /\ v1 = v) (fun v h s1 v1 => (exists ri, lookup ifc h (Some ri)) /\ s1 = 1 /\ v1 = v)).
  { eapply go_conseq; [apply (go_thn vars bears never_1 _ _ _ _ _ (@no_G vars) (fun r v (_ : unit) h v1 => r = None /\ h = [] /\ v1 = v) (fun r v h s1 v1 => r <> None /\ h = [] /\ s1 = 1 /\ v1 = v) (go_looks never_1 sys ifc))| |].
    - intros [ri|]; (eapply go_conseq; [first [apply go_quit|apply go_pure]| |]); cbv beta.
      + intros v a h1 v1 [].
      + intros v h1 s1 v1 (-> & -> & ->). split; [discriminate|auto].
      + intros v a h1 v1 (_ & -> & ->). auto.
      + intros v h1 s1 v1 [].
    - cbv beta. intros v a h1 v1 (r & k1 & v2 & k2 & -> & (L & ->) & -> & -> & ->). rewrite app_nil_r. auto.
    - cbv beta. intros v h1 s1 v1 [[]|(r & k1 & v2 & k2 & -> & (L & ->) & N & -> & -> & ->)]. rewrite app_nil_r. split; [|auto]. destruct r as [ri|]; [|congruence]. exists ri. exact L. }
  assert (Lk : forall p q, ((exists (u : unit) (v1 : vars), lookup ifc (p ++ q) None /\ v1 = vars0) \/ (exists (s1 : Z) (v1 : vars), (exists ri, lookup ifc (p ++ q) (Some ri)) /\ s1 = 1 /\ v1 = vars0)) -> looking ifc (p ++ q)).
  { intros p q [(u & v1 & L & _)|(s1 & v1 & (ri & L) & _)]; eexists; exact L. }
  apply (no_trap_cases vars bears never_1 _ _ _ _ _ _ _ _ Gf) in E as [(u & s1 & h1 & E1 & F1 & (L & V1) & E)|(h1 & Eh & X)].
  - destruct (up_cases s1 st _ V1 E) as (r & Er & X). cbn [s_hist] in E1. rewrite E1, <- app_assoc in Er. exists (h1 ++ r). split; [exact Er|]. right. right. exists h1, r. auto.
  - cbn [s_hist s_vars] in *. exists h1. split; [exact Eh|]. clear Eh.
    destruct X as [[(F & v1 & L & -> & _)|(h2 & ev & -> & F & Br & q & X)]|(h2 & ev & -> & F & S & q & X)].
    + right. left. auto.
    + exfalso. apply Lk, looking_bears in X. rewrite <- app_assoc in X. apply Forall_app in X as [_ X]. inversion X as [|? ? Be _]; subst. destruct Br as (_ & Nb & _). contradiction.
    + left. exists h2, ev. split; [reflexivity|]. split; [|exact S]. apply Lk in X. rewrite <- app_assoc in X. split; [exact F|exists q; exact X].
Qed.
(** 'wg-quick up', whatever commands do and whenever signals arrive: nothing if the interface is up already; otherwise a userspace implementation is started and the
    documented steps run in order, all successful; or one of them fails, or a route or the DNS settings are refused, or a signal arrives, and what had been done is
    taken back. *)
Theorem C68_up : forall h0 h st, cmd_up sys glob order ifc o us (mk_sh h0 vars0) = (Some st, h0 ++ h) ->
  look_hit h st \/
  ((exists ri, lookup ifc h (Some ri)) /\ Forall fine_b h /\ st = 1) \/
  (exists l r, h = l ++ r /\ lookup ifc l None /\ Forall fine_b l /\
    (brought_up r st \/ cannot_create r st \/ creation_fails r st \/ creation_hit r st \/ step_fails r st \/ refused r st \/ step_hit r st)).
Proof. intros h0 h st E. destruct (up_whole h0 _ st E) as (h' & Eh & X). apply app_inv_head in Eh. subst h'. exact X. Qed.
End Up.

(** ** Down and save *)
Definition finding (ifc : list Z) (h : history) : Prop := (exists ri, found ifc h ri) \/ not_found ifc h.
Section Down.
Variables (sys : system) (ifc : list Z) (o : options) (conf : list Z) (amp : bool).
Notation as_1 := (OpenSpec.swaps conf).
Lemma go_there : go bears as_1 (must_be_there sys ifc) (fun v ri h v1 => found ifc h ri /\ v1 = v) (fun v h s1 v1 => not_found ifc h /\ s1 = 1 /\ v1 = v).
Proof.
  unfold must_be_there. eapply go_conseq; [apply (go_thn vars bears as_1 _ _ _ _ _ (@no_G vars)
    (fun r v ri h v1 => (r = Some ri /\ exists a, h = [(FreeSpec.show_interfaces, a)] /\ FreeSpec.named_in ri (a_output a)) /\ v1 = v)
    (fun r v h s1 v1 => ((r = None /\ h = []) \/ exists a ri, r = Some ri /\ h = [(FreeSpec.show_interfaces, a)] /\ ~ FreeSpec.named_in ri (a_output a)) /\ s1 = 1 /\ v1 = v) (go_looks as_1 sys ifc))| |].
  - intros [ri|].
    + eapply go_conseq; [eapply (go_thn vars bears as_1 _ _ _ _ _ (@no_G vars) (fun names v a h v1 => (a = ri /\ occurs ([32] ++ ri ++ [32]) ([32] ++ names ++ [32])) /\ h = [] /\ v1 = v)
        (fun names v h s1 v1 => ~ occurs ([32] ++ ri ++ [32]) ([32] ++ names ++ [32]) /\ h = [] /\ s1 = 1 /\ v1 = v)); [apply go_ask; asks|]| |].
      * intro names. pose proof (PropQuickFirewall.contains_iff (32 :: ri ++ [32]) (32 :: names ++ [32])) as C. destruct (contains _ _); (eapply go_conseq; [first [apply go_pure|apply go_quit]| |]); cbv beta.
        -- intros v a h v1 (-> & -> & ->). split; [split; [reflexivity|apply C; reflexivity]|auto].
        -- intros v h s1 v1 [].
        -- intros v a h v1 [].
        -- intros v h s1 v1 (-> & -> & ->). split; [intro X; apply C in X; discriminate X|auto].
      * cbv beta. intros v a h v1 (names & k1 & v2 & k2 & -> & (b & -> & -> & ->) & (-> & N) & -> & ->). split; [|reflexivity]. split; [reflexivity|]. exists b. split; [reflexivity|exact N].
      * cbv beta. intros v h s1 v1 [[]|(names & k1 & v2 & k2 & -> & (b & -> & -> & ->) & N & -> & -> & ->)]. split; [|auto]. right. exists b, ri. split; [reflexivity|]. split; [reflexivity|exact N].
    + eapply go_conseq; [apply go_quit| |]; cbv beta; [intros v a h v1 []|]. intros v h s1 v1 (-> & -> & ->). auto.
  - cbv beta. intros v ri h v1 (r & k1 & v2 & k2 & -> & (L & ->) & (-> & a & -> & N) & ->). split; [|reflexivity]. exists k1, a. auto.
  - cbv beta. intros v h s1 v1 [[]|(r & k1 & v2 & k2 & -> & (L & ->) & [(-> & ->)|(a & ri & -> & -> & N)] & -> & ->)]; (split; [|auto]).
    + left. rewrite app_nil_r. exact L.
    + right. exists k1, a, ri. auto.
Qed.
Lemma finding_bears : forall h, finding ifc h -> Forall (fun ev => bears (fst ev)) h.
Proof.
  assert (B1 : bears FreeSpec.show_interfaces) by asks.
  intros h [(ri & h1 & a & -> & L & _)|[L|(h1 & a & ri & -> & L & _)]].
  - apply Forall_app. split; [eapply looking_bears; eexists; exact L|constructor; [exact B1|constructor]].
  - eapply looking_bears; eexists; exact L.
  - apply Forall_app. split; [eapply looking_bears; eexists; exact L|constructor; [exact B1|constructor]].
Qed.
Lemma found_name : forall h ri, found ifc h ri -> ri <> [].
Proof. intros h ri (h1 & a & _ & L & _). eapply found_ne, L. Qed.

(** How a series of commands [P] ends: all successful, or stopped by a failure or a signal; a trap removes the temporary file. *)
Definition saved_all (P : history -> Prop) (r : history) (st : Z) : Prop := P r /\ Forall fine_b r /\ st = 0.
Definition down_fails (P : history -> Prop) (r : history) (st : Z) : Prop := exists fwd ev cl st0, r = fwd ++ ev :: cl /\ breaks_off bears P fwd ev /\ fails_saving conf ev st0 /\ swept conf (fst ev) st0 cl st.
Definition down_hit (P : history -> Prop) (r : history) (st : Z) : Prop := exists fwd ev cl st0, r = fwd ++ ev :: cl /\ breaks_off bears P fwd ev /\ a_signal (snd ev) = Some st0 /\ swept_twice conf (fst ev) st0 cl st.
Definition find_hit (h : history) (st : Z) : Prop := exists fwd ev, h = fwd ++ [ev] /\ breaks_off bears (finding ifc) fwd ev /\ a_signal (snd ev) = Some st.

(** 'wg-quick save', whatever commands do and whenever signals arrive. *)
Theorem C68_save : forall h0 h st, cmd_save sys ifc o conf amp (mk_sh h0 vars0) = (Some st, h0 ++ h) ->
  find_hit h st \/
  (not_found ifc h /\ Forall fine_b h /\ st = 1) \/
  (exists ri l r, h = l ++ r /\ found ifc l ri /\ Forall fine_b l /\
    (saved_all (saving_steps ri o conf amp) r st \/ down_fails (saving_steps ri o conf amp) r st \/ down_hit (saving_steps ri o conf amp) r st)).
Proof.
  intros h0 h st E. unfold cmd_save in E. apply (no_trap_cases vars bears as_1 _ _ _ _ _ _ _ _ go_there) in E as [(ri & s1 & h1 & E1 & F1 & (Fd & V1) & E)|(h1 & Eh & X)].
  - assert (Gn : goes bears as_1 (pure tt) (fun (v : vars) (_ : unit) h v1 => h = [] /\ v1 = v)) by (eapply goes_conseq; [apply go_pure|]; cbv beta; intros v u h1' v1 (_ & -> & ->); auto).
    apply (save_cases sys o conf amp ri (pure tt) (fun h => h = []) Gn) in E as (r & Er & X); [|intros h1' ->; constructor]. cbn [s_hist] in E1. rewrite E1, <- app_assoc in Er. apply app_inv_head in Er. subst h.
    right. right. exists ri, h1, r. split; [reflexivity|]. split; [exact Fd|]. split; [exact F1|].
    assert (W : forall fwd ev, breaks_off bears (whole o conf amp ri (fun h => h = [])) fwd ev -> breaks_off bears (saving_steps ri o conf amp) fwd ev).
    { intros fwd ev (F & rest & (k1 & k2 & Ek & S & ->)). split; [exact F|]. exists rest. rewrite Ek, app_nil_r. exact S. }
    destruct X as [(k1 & k2 & -> & S & -> & F & ->)|[(fwd & ev & cl & st0 & -> & B & X)|(fwd & ev & cl & st0 & -> & B & X)]].
    + left. rewrite app_nil_r in *. split; auto.
    + right. left. exists fwd, ev, cl, st0. split; [reflexivity|]. split; [apply W, B|exact X].
    + right. right. exists fwd, ev, cl, st0. split; [reflexivity|]. split; [apply W, B|exact X].
  - cbn [s_hist s_vars] in *. apply app_inv_head in Eh. subst h1.
    assert (Lk : forall p q, ((exists (ri : list Z) (v1 : vars), found ifc (p ++ q) ri /\ v1 = vars0) \/ (exists (s1 : Z) (v1 : vars), not_found ifc (p ++ q) /\ s1 = 1 /\ v1 = vars0)) -> finding ifc (p ++ q)).
    { intros p q [(ri & v1 & L & _)|(s1 & v1 & L & _)]; [left; eexists; exact L|right; exact L]. }
    destruct X as [[(F & v1 & N & -> & _)|(h2 & ev & -> & F & Br & q & X)]|(h2 & ev & -> & F & S & q & X)].
    + right. left. auto.
    + exfalso. apply Lk, finding_bears in X. rewrite <- app_assoc in X. apply Forall_app in X as [_ X]. inversion X as [|? ? Be _]; subst. destruct Br as (_ & Nb & _). contradiction.
    + left. exists h2, ev. split; [reflexivity|]. split; [|exact S]. apply Lk in X. rewrite <- app_assoc in X. split; [exact F|exists q; exact X].
Qed.

(** 'wg-quick down', whatever commands do and whenever signals arrive. *)
Definition taken_down (ri : list Z) (h : history) : Prop := exists q, h = all_dsteps q /\ down_in_order ri ifc o conf amp q.
Lemma down_tail : forall ri pre s st H, ri <> [] -> OpenSpec.hooks ri ifc (o_predown o) pre -> Forall fine_b pre ->
  (if o_save o then save_config sys o conf amp ri (down_rest sys ifc o ri) else region (pure tt) (down_rest sys ifc o ri) (fun _ s => (Some 0, s_hist s))) s = (Some st, H) ->
  exists h, H = s_hist s ++ h /\ (saved_all (taken_down ri) (pre ++ h) st \/ down_fails (taken_down ri) (pre ++ h) st \/ down_hit (taken_down ri) (pre ++ h) st).
Proof.
  intros ri pre s st H Ne Hp Fp E.
  assert (Q : forall sv rest, (o_save o = true -> saving_steps ri o conf amp sv) -> (o_save o = false -> sv = []) -> down_rest_steps ifc o ri rest -> taken_down ri (pre ++ sv ++ rest)).
  { intros sv rest S1 S2 (d & post & -> & G & Hk). exists (mk_dsteps pre sv d post). unfold all_dsteps, down_in_order. cbn [q_pre q_save q_down q_post]. auto 10. }
  destruct (o_save o) eqn:Es.
  - apply (save_cases sys o conf amp ri _ _ (go_down_rest sys ifc o conf ri Ne) (nr_down_rest ifc o conf ri)) in E as (r & -> & X). exists r. split; [reflexivity|].
    assert (W : forall fwd ev, breaks_off bears (whole o conf amp ri (down_rest_steps ifc o ri)) fwd ev -> breaks_off bears (taken_down ri) (pre ++ fwd) ev).
    { intros fwd ev (F & rest & (k1 & k2 & Ek & S & R)). split; [apply Forall_app; auto|]. exists rest. rewrite <- app_assoc, Ek. apply (Q k1 k2 (fun _ => S)); [discriminate|exact R]. }
    destruct X as [(k1 & k2 & -> & S & R & F & ->)|[(fwd & ev & cl & st0 & -> & B & X)|(fwd & ev & cl & st0 & -> & B & X)]].
    + left. split; [apply Q; [auto|discriminate|exact R]|]. split; [apply Forall_app; auto|reflexivity].
    + right. left. exists (pre ++ fwd), ev, cl, st0. rewrite <- app_assoc. split; [reflexivity|]. split; [apply W, B|exact X].
    + right. right. exists (pre ++ fwd), ev, cl, st0. rewrite <- app_assoc. split; [reflexivity|]. split; [apply W, B|exact X].
  - assert (W : forall fwd ev rest, Forall fine_b fwd -> down_rest_steps ifc o ri (fwd ++ ev :: rest) -> breaks_off bears (taken_down ri) (pre ++ fwd) ev /\ ~ OpenSpec.replacing conf (fst ev)).
    { intros fwd ev rest F D. split; [split; [apply Forall_app; auto|]|eapply nr_mid; eapply nr_down_rest; exact D]. exists rest. rewrite <- app_assoc.
      exact (Q [] (fwd ++ ev :: rest) ltac:(discriminate) (fun _ => eq_refl) D). }
    apply (no_trap_cases vars bears as_1 _ _ _ _ _ _ _ _ (go_down_rest sys ifc o conf ri Ne)) in E as [(u & s1 & h & E1 & F1 & (D & _) & E)|(h & -> & X)].
    + assert (Eq : st = 0 /\ H = s_hist s1) by (split; congruence). destruct Eq as [-> ->]. exists h. split; [exact E1|]. left. split; [apply (Q [] h); [discriminate|reflexivity|exact D]|]. split; [apply Forall_app; auto|reflexivity].
    + exists h. split; [reflexivity|]. right. destruct X as [[(_ & v1 & [])|(h1 & ev & -> & F & Br & q & [(a & v1 & D & _)|(a & v1 & [])])]|(h1 & ev & -> & F & Sg & q & [(a & v1 & D & _)|(a & v1 & [])])];
        rewrite <- app_assoc in D; cbn [app] in D; destruct (W _ _ _ F D) as [B N].
      * left. exists (pre ++ h1), ev, [], st. rewrite <- app_assoc. split; [reflexivity|]. split; [exact B|]. split; [exact Br|right; auto].
      * right. exists (pre ++ h1), ev, [], st. rewrite <- app_assoc. split; [reflexivity|]. split; [exact B|]. split; [exact Sg|right; auto].
Qed.
Theorem C68_down : forall h0 h st, cmd_down sys ifc o conf amp (mk_sh h0 vars0) = (Some st, h0 ++ h) ->
  find_hit h st \/
  (not_found ifc h /\ Forall fine_b h /\ st = 1) \/
  (exists ri l r, h = l ++ r /\ found ifc l ri /\ Forall fine_b l /\
    (saved_all (taken_down ri) r st \/ down_fails (taken_down ri) r st \/ down_hit (taken_down ri) r st)).
Proof.
  intros h0 h st E. unfold cmd_down in E.
  assert (Gf : go bears as_1 (real <~ must_be_there sys ifc ;; execute_hooks sys ifc real (o_predown o) ;~ pure real)
    (fun v ri h v1 => (exists l pre, h = l ++ pre /\ found ifc l ri /\ OpenSpec.hooks ri ifc (o_predown o) pre) /\ v1 = v)
    (fun v h s1 v1 => not_found ifc h /\ s1 = 1 /\ v1 = v)).
  { eapply go_conseq; [apply go_thn; [apply go_there|intro ri; apply goes_thn; [apply go_hooks; first [exact o|exact no_glob|exact (fun _ l => l)]|intro; apply go_pure]]| |]; cbv beta.
    - intros v a h1 v1 (ri & k1 & v2 & k2 & -> & (Fd & ->) & u & k3 & v3 & k4 & -> & (Hk & ->) & -> & -> & ->). split; [|reflexivity]. exists k1, k3. rewrite app_nil_r. auto.
    - intros v h1 s1 v1 [X|(ri & k1 & v2 & k2 & _ & _ & [])]. exact X. }
  assert (Tk : forall ri pre, ri <> [] -> OpenSpec.hooks ri ifc (o_predown o) pre -> exists rest, taken_down ri (pre ++ rest)).
  { intros ri pre Ne Hp. destruct (proj1 (go_down_rest sys ifc o conf ri Ne) vars0) as (dr & [(a & v1 & (d & post & _ & G & Hk) & _)|(s1 & v1 & [])]).
    destruct (proj1 (go_prepare sys o conf amp ri) vars0) as (p1 & [(r & v2 & P & _)|(s2 & v2 & [])]). destruct (some_replaced conf (snd r)) as [p2 P2].
    pose proof (steps_of o conf amp ri r p1 p2 sample P P2) as S.
    destruct (o_save o) eqn:Es.
    - eexists (_ ++ d ++ post), (mk_dsteps pre _ d post). unfold all_dsteps, down_in_order. cbn [q_pre q_save q_down q_post]. split; [reflexivity|]. split; [exact Hp|]. split; [intros _; exact S|]. split; [congruence|]. auto.
    - exists (d ++ post), (mk_dsteps pre [] d post). unfold all_dsteps, down_in_order. cbn [q_pre q_save q_down q_post]. split; [reflexivity|]. split; [exact Hp|]. split; [congruence|]. auto. }
  apply (no_trap_cases vars bears as_1 _ _ _ _ _ _ _ _ Gf) in E as [(ri & s1 & h1 & E1 & F1 & ((l & pre & -> & Fd & Hk) & V1) & E)|(h1 & Eh & X)].
  - apply Forall_app in F1 as [Fl Fp]. apply (down_tail ri pre s1 st _ (found_name _ _ Fd) Hk Fp) in E as (k & Ek & X). cbn [s_hist] in E1. rewrite E1, <- !app_assoc in Ek. apply app_inv_head in Ek. subst h.
    right. right. exists ri, l, (pre ++ k). auto.
  - cbn [s_hist s_vars] in *. apply app_inv_head in Eh. subst h1.
    (* Where the last command lies: in the lookup or in the hooks. *)
    assert (Q : forall h2 ev q, Forall fine_b h2 -> ((exists (ri : list Z) (v1 : vars), (exists l pre, (h2 ++ [ev]) ++ q = l ++ pre /\ found ifc l ri /\ OpenSpec.hooks ri ifc (o_predown o) pre) /\ v1 = vars0) \/
        (exists (s1 : Z) (v1 : vars), not_found ifc ((h2 ++ [ev]) ++ q) /\ s1 = 1 /\ v1 = vars0)) ->
      (bears (fst ev) /\ breaks_off bears (finding ifc) h2 ev) \/ (exists ri l fwd, h2 = l ++ fwd /\ found ifc l ri /\ Forall fine_b l /\ breaks_off bears (taken_down ri) fwd ev /\ ~ OpenSpec.replacing conf (fst ev))).
    { intros h2 ev q F [(ri & v1 & (l & pre & Ep & Fd & Hk) & _)|(s1 & v1 & N & _)].
      - rewrite <- app_assoc in Ep. cbn [app] in Ep.
        destruct (List.app_eq_app h2 (ev :: q) l pre Ep) as (m & [(-> & Em)|(-> & Em)]).
        + right. exists ri, l, m. apply Forall_app in F as [Fl Fm]. split; [reflexivity|]. split; [exact Fd|]. split; [exact Fl|]. subst pre.
          split; [|eapply nr_mid; eapply nr_hooks; exact Hk]. split; [exact Fm|]. destruct (Tk ri _ (found_name _ _ Fd) Hk) as (rest & T). exists (q ++ rest). rewrite <- app_assoc in T. exact T.
        + destruct m as [|x m].
          * right. exists ri, h2, []. cbn [app] in Em. subst pre. rewrite !app_nil_r in *. split; [reflexivity|]. split; [exact Fd|]. split; [exact F|].
            split; [|eapply nr_mid with (h1 := []); eapply nr_hooks; exact Hk]. split; [constructor|]. destruct (Tk ri _ (found_name _ _ Fd) Hk) as (rest & T). exists (q ++ rest). exact T.
          * left. cbn [app] in Em. assert (x = ev) by congruence. subst x. assert (Fi : finding ifc (h2 ++ ev :: m)) by (left; eexists; exact Fd).
            split; [|split; [exact F|exists m; exact Fi]]. apply finding_bears, Forall_app in Fi as [_ Fi]. inversion Fi; assumption.
      - left. rewrite <- app_assoc in N. cbn [app] in N. assert (Fi : finding ifc (h2 ++ ev :: q)) by (right; exact N).
        split; [|split; [exact F|exists q; exact Fi]]. apply finding_bears, Forall_app in Fi as [_ Fi]. inversion Fi; assumption. }
    destruct X as [[(F & v1 & N & -> & _)|(h2 & ev & -> & F & Br & q & X)]|(h2 & ev & -> & F & S & q & X)].
    + right. left. auto.
    + apply (Q h2 ev q F) in X as [(Be & _)|(ri & l & fwd & -> & Fd & Fl & B & N)].
      * exfalso. destruct Br as (_ & Nb & _). contradiction.
      * right. right. exists ri, l, (fwd ++ [ev]). rewrite <- app_assoc. split; [reflexivity|]. split; [exact Fd|]. split; [exact Fl|]. right. left. exists fwd, ev, [], st. split; [reflexivity|]. split; [exact B|]. split; [exact Br|right; auto].
    + apply (Q h2 ev q F) in X as [(_ & B)|(ri & l & fwd & -> & Fd & Fl & B & N)].
      * left. exists h2, ev. auto.
      * right. right. exists ri, l, (fwd ++ [ev]). rewrite <- app_assoc. split; [reflexivity|]. split; [exact Fd|]. split; [exact Fl|]. right. right. exists fwd, ev, [], st. split; [reflexivity|]. split; [exact B|]. split; [exact S|right; auto].
Qed.
End Down.

Print Assumptions C68_up.
Print Assumptions C68_save.
Print Assumptions C68_down.
