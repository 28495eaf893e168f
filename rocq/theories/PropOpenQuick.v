(** C66: wg-quick on OpenBSD. *)
From Coq Require Import String ZArith List Bool Lia.
From Verif Require Import Base Cstr CstrProofs Bash Quick QuickRun QuickSpec QuickRunSpec QuickReloadSpec QuickRouteSpec QuickMain QuickSave Sh ShGoes BsdRoutes BsdRoutesSpec
  BsdRoutesProofs BsdRoutesProofs2 BsdRoutesProofs3 PropQuickReload FreeQuick OpenQuick OpenSpec OpenProofs OpenProofs2 OpenProofs3 OpenProofs4.
From Verif Require FreeSpec PropFree FreeProofs5.
Import FreeSpec (steps, mk_steps, p_pre, p_conf, p_addr, p_mtu, p_up, p_dns, p_list, p_routes, p_hosts, p_mon, p_post, all_steps, routes_all_of).
Import ListNotations.
Open Scope Z_scope.

(** ** Up *)
Section Up.
Variables (sys : system) (glob : list Z -> list (list Z)) (fuel : nat) (ifc : list Z) (o : options).
(** What follows when there is no such interface yet. *)
Definition brought_up (r : history) (st : Z) : Prop := exists cr ri p rs, r = cr ++ all_steps p /\ creation ifc cr ri /\ in_order glob ri ifc o rs p /\ Forall fine r /\ st = 0 /\
  (routes_all_of o F4 rs \/ routes_all_of o F6 rs -> FreeSpec.hosts_kept ri o rs (p_hosts p)).
Definition cannot_create (r : history) (st : Z) : Prop := exists cr cl, r = cr ++ cl /\ no_creation ifc cr /\ Forall fine cr /\ undone_early ifc cl st.
Definition creation_hit (r : history) (st : Z) : Prop := exists cr ev st0 c1 st1 c2, r = cr ++ ev :: c1 ++ c2 /\ breaks_off (creating ifc) cr ev /\ a_signal (snd ev) = Some st0 /\
  undone_early ifc c1 st1 /\ undone_early ifc c2 st.
Definition step_fails (r : history) (st : Z) : Prop := exists cr ri fwd ev st0 cl, r = cr ++ fwd ++ ev :: cl /\ creation ifc cr ri /\ Forall fine cr /\ breaks_off (setting_up glob ri ifc o) fwd ev /\
  fails_with ev st0 /\ undone ifc ri st0 cl st.
Definition route_refused (r : history) (st : Z) : Prop := exists cr ri p rs cl, r = cr ++ all_steps p ++ cl /\ creation ifc cr ri /\ Forall fine (cr ++ all_steps p) /\ in_order_refused glob ri ifc o rs p /\
  undone ifc ri 1 cl st.
Definition step_hit (r : history) (st : Z) : Prop := exists cr ri fwd ev st0 c1 st1 c2, r = cr ++ fwd ++ ev :: c1 ++ c2 /\ creation ifc cr ri /\ Forall fine cr /\ breaks_off (setting_up glob ri ifc o) fwd ev /\
  a_signal (snd ev) = Some st0 /\ undone ifc ri st0 c1 st1 /\ undone ifc ri st1 c2 st.

Definition never_1 : command -> Prop := fun _ => False.
Lemma creating_bears : forall h, creating ifc h -> Forall (fun ev => bears (fst ev)) h.
Proof.
  assert (B1 : bears FreeSpec.show_interfaces) by asks. assert (B2 : forall ri, bears (create ri ifc)) by (intro ri; right; right; right; exists ri, ifc; reflexivity).
  intros h [(ri & H)|H]; induction H; repeat (constructor; [solve [apply B1|apply B2]|]); try assumption; constructor.
Qed.
Lemma early_trap : forall (v : vars) st0 cl st, closed bears never_1 (fun _ (_ : unit) _ _ => False) (fun v h st v1 => restoring ifc [] h /\ st = 1 /\ v1 = v) v st0 cl st -> undone_early ifc cl st.
Proof.
  intros v st0 cl st [(_ & _ & v1 & [])|[(F & v1 & R & -> & _)|[(h & ev & -> & F & B & q & [(a & v1 & [])|(s1 & v1 & R & _)])|(h & ev & -> & F & S & q & [(a & v1 & [])|(s1 & v1 & R & _)])]]].
  - left. auto.
  - right. exists h, ev. split; [reflexivity|]. rewrite <- app_assoc in R. split; [split; [exact F|exists q; exact R]|]. left. destruct B as (B1 & B2 & B3 & [B4|[[] _]]). split; [exact B1|]. auto.
  - right. exists h, ev. split; [reflexivity|]. rewrite <- app_assoc in R. split; [split; [exact F|exists q; exact R]|]. right. exact S.
Qed.
Lemma up_cases : forall s st H, s_vars s = vars0 ->
  region (undo sys ifc []) (add_if sys ifc fuel) (fun real => region (undo sys ifc real) (after_add_if sys glob ifc o real) (fun _ s => (Some 0, s_hist s))) s = (Some st, H) ->
  exists r, H = s_hist s ++ r /\ (brought_up r st \/ cannot_create r st \/ creation_hit r st \/ step_fails r st \/ route_refused r st \/ step_hit r st).
Proof.
  intros s st H V E.
  apply (region_cases vars bears never_1 _ _ _ _ _ _ _ _ _ _ _ (go_add_if never_1 sys glob ifc fuel) (go_undo_early never_1 sys ifc)) in E as [(ri & s1 & cr & E1 & F1 & (Cr & (Dw & Li & Ne) & V1) & E)|[(h & st0 & v1 & cl & -> & X & C)|(h & st0 & v1 & v2 & c1 & c2 & st1 & -> & X & C1 & C2)]].
  2:{ apply early_trap in C. destruct X as [(F & v' & (N & -> & _))|(h1 & ev & -> & F & Br & q & X)].
      - exists (h ++ cl). split; [reflexivity|]. right. left. exists h, cl. auto.
      - exfalso. assert (Cg : creating ifc ((h1 ++ [ev]) ++ q)) by (destruct X as [(a & v' & X & _)|(a & v' & X & _)]; [left; exists a; exact X|right; exact X]).
        apply creating_bears in Cg. rewrite <- app_assoc in Cg. apply Forall_app in Cg as [_ Cg]. inversion Cg as [|? ? Be _]; subst. destruct Br as (_ & Nb & _). contradiction. }
  2:{ apply early_trap in C1, C2. destruct X as (h1 & ev & -> & F & S & q & X). exists (h1 ++ ev :: c1 ++ c2). rewrite <- !app_assoc. split; [reflexivity|]. right. right. left.
      exists h1, ev, st0, c1, st1, c2. split; [reflexivity|]. split; [|auto]. split; [exact F|]. exists q.
      assert (Cg : creating ifc ((h1 ++ [ev]) ++ q)) by (destruct X as [(a & v' & X & _)|(a & v' & X & _)]; [left; exists a; exact X|right; exact X]). rewrite <- app_assoc in Cg. exact Cg. }
  assert (V1' : s_vars s1 = vars0) by congruence. clear V1.
  assert (Set_up : forall p q, ((exists (a : unit) v1, up_done glob ifc o ri (s_vars s1) (p ++ q) v1) \/ (exists st v1, up_refused glob ifc o ri (s_vars s1) (p ++ q) st v1)) -> setting_up glob ri ifc o (p ++ q)).
  { intros p q [(a & v1 & X)|(st1 & v1 & _ & p1 & rs & X & Y)].
    - rewrite V1' in X. destruct (X eq_refl eq_refl) as (p1 & rs & Y & IO & _). exists rs, p1. auto.
    - exists rs, p1. auto. }
  apply (region_cases vars bears never_1 _ _ _ _ _ _ _ _ _ _ _ (go_after never_1 sys glob ifc o ri Li) (go_undo never_1 sys ifc o ri Ne Dw)) in E
    as [(u & s2 & h2 & E2 & F2 & Up & E)|[(h & st0 & v1 & cl & -> & X & C)|(h & st0 & v1 & v2 & c1 & c2 & st1 & -> & X & C1 & C2)]].
  - assert (Es : st = 0 /\ H = s_hist s2) by (split; congruence). destruct Es as [-> ->]. rewrite V1' in Up. destruct (Up eq_refl eq_refl) as (p & rs & -> & IO & Cp). exists (cr ++ all_steps p). rewrite E2, E1, <- app_assoc. split; [reflexivity|].
    left. exists cr, ri, p, rs. split; [reflexivity|]. split; [exact Cr|]. split; [exact IO|]. split; [apply Forall_app; auto|]. split; [reflexivity|]. intro A. apply (PropFree.kept_of ri o [] p rs (s_vars s2) A (Cp F2)).
  - apply closed_trap in C; [|intros h' _; apply Forall_forall; intros x _ []]. destruct X as [(F & v' & -> & p & rs & -> & IO)|(h1 & ev & -> & F & Br & q & X)].
    + exists (cr ++ all_steps p ++ cl). rewrite E1, <- !app_assoc. split; [reflexivity|]. right. right. right. right. left. exists cr, ri, p, rs, cl. split; [reflexivity|]. split; [exact Cr|]. split; [apply Forall_app; auto|]. auto.
    + exists (cr ++ h1 ++ ev :: cl). rewrite E1, <- !app_assoc. split; [reflexivity|]. right. right. right. left. exists cr, ri, h1, ev, st0, cl. split; [reflexivity|]. split; [exact Cr|]. split; [exact F1|].
      apply Set_up in X. rewrite <- app_assoc in X. split; [split; [exact F|exists q; exact X]|]. split; [|exact C]. destruct Br as (B1 & B2 & B3 & [B4|[[] _]]). split; [exact B1|]. auto.
  - apply closed_trap in C1; [|intros h' _; apply Forall_forall; intros x _ []]. apply closed_trap in C2; [|intros h' _; apply Forall_forall; intros x _ []].
    destruct X as (h1 & ev & -> & F & S & q & X). exists (cr ++ h1 ++ ev :: c1 ++ c2). rewrite E1, <- !app_assoc. split; [reflexivity|]. right. right. right. right. right. exists cr, ri, h1, ev, st0, c1, st1, c2.
    split; [reflexivity|]. split; [exact Cr|]. split; [exact F1|]. apply Set_up in X. rewrite <- app_assoc in X. split; [split; [exact F|exists q; exact X]|]. auto.
Qed.
(** 'wg-quick up', whatever commands do and whenever signals arrive: nothing if there is such an interface already; otherwise an interface is created under the first free
    number and the documented steps run in order, all successful; or one of them fails, or a route has no address to go by, or a signal arrives, and what had been done is taken back. *)
Theorem C66_up : forall h0 h st, cmd_up sys glob fuel ifc o (mk_sh h0 vars0) = (Some st, h0 ++ h) -> exists a r, h = (list_all, a) :: r /\
  ((a_signal a = Some st /\ r = []) \/
   (a_signal a = None /\ (exists ri, real_name ifc (a_output a) ri) /\ r = [] /\ st = 1) \/
   (a_signal a = None /\ no_real_name ifc (a_output a) /\
    (brought_up r st \/ cannot_create r st \/ creation_hit r st \/ step_fails r st \/ route_refused r st \/ step_hit r st))).
Proof.
  intros h0 h st E. unfold cmd_up in E.
  assert (Gf : go bears never_1 (r <~ get_real_interface sys ifc ;; match r with Some _ => quit 1 | None => pure tt end)
    (fun v _ h v1 => (exists a, h = [(list_all, a)] /\ scan ifc (fst (raw_lines (a_output a))) [] = None) /\ v1 = v)
    (fun v h s1 v1 => (exists a ri, h = [(list_all, a)] /\ scan ifc (fst (raw_lines (a_output a))) [] = Some ri) /\ s1 = 1 /\ v1 = v)).
  { eapply go_conseq; [apply (go_thn vars bears never_1 _ _ _ _ _ (@no_G vars) (fun r v (_ : unit) h v1 => r = None /\ h = [] /\ v1 = v) (fun r v h s1 v1 => r <> None /\ h = [] /\ s1 = 1 /\ v1 = v) (go_get_real never_1 sys ifc))| |].
    - intros [ri|]; (eapply go_conseq; [first [apply go_quit|apply go_pure]| |]); cbv beta.
      + intros v a h1 v1 [].
      + intros v h1 s1 v1 (-> & -> & ->). split; [discriminate|auto].
      + intros v a h1 v1 (_ & -> & ->). auto.
      + intros v h1 s1 v1 [].
    - cbv beta. intros v a h1 v1 (r & k1 & v2 & k2 & -> & (b & -> & -> & ->) & Er & -> & ->). split; [|reflexivity]. exists b. auto.
    - cbv beta. intros v h1 s1 v1 [[]|(r & k1 & v2 & k2 & -> & (b & -> & Er & ->) & N & -> & -> & ->)]. split; [|auto]. destruct r as [ri|]; [|congruence]. exists b, ri. auto. }
  apply (no_trap_cases vars bears never_1 _ _ _ _ _ _ _ _ Gf) in E as [(u & s1 & h1 & E1 & F1 & ((a & -> & Sc) & V1) & E)|(h1 & Eh & X)].
  - destruct (up_cases s1 st _ V1 E) as (r & Er & X). cbn [s_hist] in E1. rewrite E1 in Er. rewrite <- app_assoc in Er. apply app_inv_head in Er. subst h. exists a, r. split; [reflexivity|]. right. right.
    inversion F1 as [|? ? [Sg _] _]; subst. split; [exact Sg|]. split; [|exact X]. pose proof (scan_name ifc (a_output a)) as Y. rewrite Sc in Y. exact Y.
  - cbn [s_hist s_vars] in *. apply app_inv_head in Eh. subst h1.
    destruct X as [[(F & v1 & (a & ri & -> & Sc) & -> & _)|(h2 & ev & -> & F & Br & q & X)]|(h2 & ev & -> & F & S & q & X)].
    + exists a, []. split; [reflexivity|]. right. left. inversion F as [|? ? [Sg _] _]; subst. split; [exact Sg|]. split; [|auto]. exists ri. pose proof (scan_name ifc (a_output a)) as Y. rewrite Sc in Y. exact Y.
    + exfalso. assert (Q : exists a, (h2 ++ [ev]) ++ q = [(list_all, a)]) by (destruct X as [(u & v1 & (a & X & _) & _)|(s1 & v1 & (a & ri & X & _) & _)]; exists a; exact X). destruct Q as [a Q].
      rewrite <- app_assoc in Q. destruct h2 as [|x h2]; [|destruct h2; discriminate Q]. cbn [app] in Q. assert (Q1 : ev = (list_all, a)) by congruence. subst ev. destruct Br as (_ & Nb & _). apply Nb. right. left. reflexivity.
    + assert (Q : exists a, (h2 ++ [ev]) ++ q = [(list_all, a)]) by (destruct X as [(u & v1 & (a & X & _) & _)|(s1 & v1 & (a & ri & X & _) & _)]; exists a; exact X). destruct Q as [a Q].
      rewrite <- app_assoc in Q. destruct h2 as [|x h2]; [|destruct h2; discriminate Q]. cbn [app] in Q. assert (Q1 : ev = (list_all, a)) by congruence. subst ev. exists a, []. auto.
Qed.
End Up.

(** ** Down and save *)
Section Down.
Variables (sys : system) (ifc : list Z) (o : options) (conf : list Z) (amp : bool).
Lemma one_list_all : forall (h q : list event) ev a, (h ++ [ev]) ++ q = [(list_all, a)] -> h = [] /\ q = [] /\ ev = (list_all, a).
Proof. intros h q ev a E. rewrite <- app_assoc in E. destruct h as [|x h]; [|destruct h; discriminate E]. destruct q as [|y q]; [|discriminate E]. cbn [app] in E. split; [reflexivity|]. split; [reflexivity|congruence]. Qed.
Lemma list_all_bears : bears list_all.
Proof. right. left. reflexivity. Qed.
Lemma go_there : go bears (swaps conf) (must_be_there sys ifc)
    (fun v ri h v1 => (exists a, h = [(list_all, a)] /\ scan ifc (fst (raw_lines (a_output a))) [] = Some ri) /\ v1 = v)
    (fun v h s1 v1 => (exists a, h = [(list_all, a)] /\ scan ifc (fst (raw_lines (a_output a))) [] = None) /\ s1 = 1 /\ v1 = v).
Proof.
  unfold must_be_there. eapply go_conseq; [apply (go_thn vars bears (swaps conf) _ _ _ _ _ (@no_G vars) (fun r v ri h v1 => r = Some ri /\ h = [] /\ v1 = v) (fun r v h s1 v1 => r = None /\ h = [] /\ s1 = 1 /\ v1 = v) (go_get_real (swaps conf) sys ifc))| |].
  - intros [ri|]; (eapply go_conseq; [first [apply go_quit|apply go_pure]| |]); cbv beta.
    + intros v a h1 v1 (-> & -> & ->). auto.
    + intros v h1 s1 v1 [].
    + intros v a h1 v1 [].
    + intros v h1 s1 v1 (-> & -> & ->). auto.
  - cbv beta. intros v a h1 v1 (r & k1 & v2 & k2 & -> & (b & -> & Er & ->) & -> & -> & ->). split; [|reflexivity]. exists b. auto.
  - cbv beta. intros v h1 s1 v1 [[]|(r & k1 & v2 & k2 & -> & (b & -> & -> & ->) & N & -> & -> & ->)]. split; [|auto]. exists b. auto.
Qed.
Lemma scan_real : forall a ri, scan ifc (fst (raw_lines (a_output a))) [] = Some ri -> real_name ifc (a_output a) ri.
Proof. intros a ri E. pose proof (scan_name ifc (a_output a)) as Y. rewrite E in Y. exact Y. Qed.
Lemma scan_no : forall a, scan ifc (fst (raw_lines (a_output a))) [] = None -> no_real_name ifc (a_output a).
Proof. intros a E. pose proof (scan_name ifc (a_output a)) as Y. rewrite E in Y. exact Y. Qed.

(** How a series of commands [P] ends: all successful, or given up because netstat says nothing, or stopped by a failure or a signal; a trap removes the temporary file. *)
Definition saved_all (P : history -> Prop) (r : history) (st : Z) : Prop := P r /\ Forall fine r /\ st = 0.
Definition gives_up (P : history -> Prop) (r : history) (st : Z) : Prop := P r /\ Forall fine r /\ st = 1.
Definition down_fails (P : history -> Prop) (r : history) (st : Z) : Prop := exists fwd ev cl st0, r = fwd ++ ev :: cl /\ breaks_off P fwd ev /\ fails_saving conf ev st0 /\ swept conf (fst ev) st0 cl st.
Definition down_hit (P : history -> Prop) (r : history) (st : Z) : Prop := exists fwd ev cl st0, r = fwd ++ ev :: cl /\ breaks_off P fwd ev /\ a_signal (snd ev) = Some st0 /\ swept_twice conf (fst ev) st0 cl st.

(** 'wg-quick save', whatever commands do and whenever signals arrive. *)
Theorem C66_save : forall h0 h st, cmd_save sys ifc o conf amp (mk_sh h0 vars0) = (Some st, h0 ++ h) -> exists a r, h = (list_all, a) :: r /\
  ((a_signal a = Some st /\ r = []) \/
   (a_signal a = None /\ no_real_name ifc (a_output a) /\ r = [] /\ st = 1) \/
   (a_signal a = None /\ exists ri, real_name ifc (a_output a) ri /\
    (saved_all (saving_steps ri o conf amp) r st \/ gives_up (silent ri) r st \/ down_fails (saving ri o conf amp) r st \/ down_hit (saving ri o conf amp) r st))).
Proof.
  intros h0 h st E. unfold cmd_save in E. apply (no_trap_cases vars bears (swaps conf) _ _ _ _ _ _ _ _ go_there) in E as [(ri & s1 & h1 & E1 & F1 & ((a & -> & Sc) & V1) & E)|(h1 & Eh & X)].
  - assert (Gn : goes bears (swaps conf) (pure tt) (fun (v : vars) (_ : unit) h v1 => h = [] /\ v1 = v)) by (eapply goes_conseq; [apply go_pure|]; cbv beta; intros v u h1 v1 (_ & -> & ->); auto).
    apply (save_cases sys ifc o conf amp ri (pure tt) (fun h => h = []) Gn) in E as (r & Er & X); [|intros h1 ->; constructor]. cbn [s_hist] in E1. rewrite E1, <- app_assoc in Er. apply app_inv_head in Er. subst h.
    exists a, r. split; [reflexivity|]. right. right. inversion F1 as [|? ? [Sg _] _]; subst. split; [exact Sg|]. exists ri. split; [apply scan_real, Sc|].
    assert (W : forall fwd ev, breaks_off (whole o conf amp ri (fun h => h = [])) fwd ev -> breaks_off (saving ri o conf amp) fwd ev).
    { intros fwd ev (F & rest & [(k1 & k2 & Ek & S & ->)|S]); (split; [exact F|]); exists rest; [left; rewrite Ek, app_nil_r; exact S|right; exact S]. }
    destruct X as [(k1 & k2 & -> & S & -> & F & ->)|[(S & F & ->)|[(fwd & ev & cl & st0 & -> & B & X)|(fwd & ev & cl & st0 & -> & B & X)]]].
    + left. rewrite app_nil_r in *. split; auto.
    + right. left. split; auto.
    + right. right. left. exists fwd, ev, cl, st0. split; [reflexivity|]. split; [apply W, B|exact X].
    + right. right. right. exists fwd, ev, cl, st0. split; [reflexivity|]. split; [apply W, B|exact X].
  - cbn [s_hist s_vars] in *. apply app_inv_head in Eh. subst h1.
    destruct X as [[(F & v1 & (a & -> & Sc) & -> & _)|(h2 & ev & -> & F & Br & q & X)]|(h2 & ev & -> & F & S & q & X)].
    + exists a, []. split; [reflexivity|]. right. left. inversion F as [|? ? [Sg _] _]; subst. split; [exact Sg|]. split; [apply scan_no, Sc|auto].
    + exfalso. assert (Q : exists a, (h2 ++ [ev]) ++ q = [(list_all, a)]) by (destruct X as [(u & v1 & (a & X & _) & _)|(s1 & v1 & (a & X & _) & _)]; exists a; exact X). destruct Q as [a Q].
      apply one_list_all in Q as (_ & _ & ->). destruct Br as (_ & Nb & _). apply Nb, list_all_bears.
    + assert (Q : exists a, (h2 ++ [ev]) ++ q = [(list_all, a)]) by (destruct X as [(u & v1 & (a & X & _) & _)|(s1 & v1 & (a & X & _) & _)]; exists a; exact X). destruct Q as [a Q].
      apply one_list_all in Q as (-> & _ & ->). exists a, []. auto.
Qed.

(** 'wg-quick down', whatever commands do and whenever signals arrive. *)
Definition taken_down (ri : list Z) (h : history) : Prop := exists q, h = all_dsteps q /\ down_in_order ri ifc o conf amp q.
Definition left_silent (ri : list Z) (h : history) : Prop := exists q, h = all_dsteps q /\ down_silent ri ifc o q.
Lemma swept_plain : forall c st, ~ replacing conf c -> swept conf c st [] st.
Proof. intros c st N. right. auto. Qed.
Lemma swept_plain2 : forall c st, ~ replacing conf c -> swept_twice conf c st [] st.
Proof. intros c st N. right. auto. Qed.
Lemma down_tail : forall ri pre s st H, ri <> [] -> hooks ri ifc (o_predown o) pre -> Forall fine pre ->
  (if o_save o then save_config sys o conf amp ri (down_rest sys ifc o ri) else region (pure tt) (down_rest sys ifc o ri) (fun _ s => (Some 0, s_hist s))) s = (Some st, H) ->
  exists h, H = s_hist s ++ h /\ (saved_all (taken_down ri) (pre ++ h) st \/ gives_up (left_silent ri) (pre ++ h) st \/ down_fails (taking_down ri ifc o conf amp) (pre ++ h) st \/ down_hit (taking_down ri ifc o conf amp) (pre ++ h) st).
Proof.
  intros ri pre s st H Ne Hp Fp E.
  assert (Q : forall sv rest, (o_save o = true -> saving_steps ri o conf amp sv) -> (o_save o = false -> sv = []) -> down_rest_steps ifc o ri rest -> taken_down ri (pre ++ sv ++ rest)).
  { intros sv rest S1 S2 (dns & a & dns2 & post & -> & R1 & R2 & Hk). exists (mk_dsteps pre sv dns [(FreeSpec.destroy ri, a)] dns2 post). unfold all_dsteps, down_in_order. cbn [q_pre q_save q_dns q_down q_dns2 q_post].
    split; [reflexivity|]. split; [exact Hp|]. split; [exact S1|]. split; [exact S2|]. split; [exact R1|]. split; [reflexivity|]. auto. }
  destruct (o_save o) eqn:Es.
  - apply (save_cases sys ifc o conf amp ri _ _ (go_down_rest sys ifc o conf ri Ne) (nr_down_rest ifc o conf ri)) in E as (r & -> & X). exists r. split; [reflexivity|].
    assert (Z1 : forall k, silent ri k -> left_silent ri (pre ++ k)).
    { intros k S. exists (mk_dsteps pre k [] [] [] []). unfold all_dsteps, down_silent. cbn [q_pre q_save q_dns q_down q_dns2 q_post]. rewrite !app_nil_r. auto 10. }
    assert (W : forall fwd ev, breaks_off (whole o conf amp ri (down_rest_steps ifc o ri)) fwd ev -> breaks_off (taking_down ri ifc o conf amp) (pre ++ fwd) ev).
    { intros fwd ev (F & rest & X1). split; [apply Forall_app; auto|]. exists rest. rewrite <- app_assoc. destruct X1 as [(k1 & k2 & Ek & S & R)|S].
      - rewrite Ek. destruct (Q k1 k2 (fun _ => S) ltac:(discriminate) R) as (q & Eq & D). exists q. auto.
      - destruct (Z1 _ S) as (q & Eq & D). exists q. auto. }
    destruct X as [(k1 & k2 & -> & S & R & F & ->)|[(S & F & ->)|[(fwd & ev & cl & st0 & -> & B & X)|(fwd & ev & cl & st0 & -> & B & X)]]].
    + left. split; [apply Q; [auto|discriminate|exact R]|]. split; [apply Forall_app; auto|reflexivity].
    + right. left. split; [apply Z1, S|]. split; [apply Forall_app; auto|reflexivity].
    + right. right. left. exists (pre ++ fwd), ev, cl, st0. rewrite <- app_assoc. split; [reflexivity|]. split; [apply W, B|exact X].
    + right. right. right. exists (pre ++ fwd), ev, cl, st0. rewrite <- app_assoc. split; [reflexivity|]. split; [apply W, B|exact X].
  - assert (W : forall fwd ev rest, Forall fine fwd -> down_rest_steps ifc o ri (fwd ++ ev :: rest) -> breaks_off (taking_down ri ifc o conf amp) (pre ++ fwd) ev /\ ~ replacing conf (fst ev)).
    { intros fwd ev rest F D. split; [split; [apply Forall_app; auto|]|eapply nr_mid; eapply nr_down_rest; exact D]. exists rest. rewrite <- app_assoc.
      destruct (Q [] (fwd ++ ev :: rest) ltac:(discriminate) (fun _ => eq_refl) D) as (q & Eq & Dq). exists q. auto. }
    apply (no_trap_cases vars bears (swaps conf) _ _ _ _ _ _ _ _ (go_down_rest sys ifc o conf ri Ne)) in E as [(u & s1 & h & E1 & F1 & (D & _) & E)|(h & -> & X)].
    + assert (Eq : st = 0 /\ H = s_hist s1) by (split; congruence). destruct Eq as [-> ->]. exists h. split; [exact E1|]. left. split; [apply (Q [] h); [discriminate|reflexivity|exact D]|]. split; [apply Forall_app; auto|reflexivity].
    + exists h. split; [reflexivity|]. right. right. destruct X as [[(_ & v1 & [])|(h1 & ev & -> & F & Br & q & [(a & v1 & D & _)|(a & v1 & [])])]|(h1 & ev & -> & F & Sg & q & [(a & v1 & D & _)|(a & v1 & [])])];
        rewrite <- app_assoc in D; cbn [app] in D; destruct (W _ _ _ F D) as [B N].
      * left. exists (pre ++ h1), ev, [], st. rewrite <- app_assoc. split; [reflexivity|]. split; [exact B|]. split; [exact Br|apply swept_plain, N].
      * right. exists (pre ++ h1), ev, [], st. rewrite <- app_assoc. split; [reflexivity|]. split; [exact B|]. split; [exact Sg|apply swept_plain2, N].
Qed.
Theorem C66_down : forall h0 h st, cmd_down sys ifc o conf amp (mk_sh h0 vars0) = (Some st, h0 ++ h) -> exists a r, h = (list_all, a) :: r /\
  ((a_signal a = Some st /\ r = []) \/
   (a_signal a = None /\ no_real_name ifc (a_output a) /\ r = [] /\ st = 1) \/
   (a_signal a = None /\ exists ri, real_name ifc (a_output a) ri /\
    (saved_all (taken_down ri) r st \/ gives_up (left_silent ri) r st \/ down_fails (taking_down ri ifc o conf amp) r st \/ down_hit (taking_down ri ifc o conf amp) r st))).
Proof.
  intros h0 h st E. unfold cmd_down in E.
  assert (Gf : go bears (swaps conf) (real <~ must_be_there sys ifc ;; execute_hooks sys ifc real (o_predown o) ;~ pure real)
    (fun v ri h v1 => (exists a pre, h = (list_all, a) :: pre /\ scan ifc (fst (raw_lines (a_output a))) [] = Some ri /\ hooks ri ifc (o_predown o) pre) /\ v1 = v)
    (fun v h s1 v1 => (exists a, h = [(list_all, a)] /\ scan ifc (fst (raw_lines (a_output a))) [] = None) /\ s1 = 1 /\ v1 = v)).
  { eapply go_conseq; [apply go_thn; [apply go_there|intro ri; apply goes_thn; [apply go_hooks|intro; apply go_pure]]| |]; cbv beta.
    - intros v a h1 v1 (ri & k1 & v2 & k2 & -> & ((b & -> & Sc) & ->) & u & k3 & v3 & k4 & -> & (Hk & ->) & -> & -> & ->). split; [|reflexivity]. exists b, k3. rewrite app_nil_r. auto.
    - intros v h1 s1 v1 [X|(ri & k1 & v2 & k2 & _ & _ & [])]. exact X. }
  assert (Nr : forall ri (pre : list event), hooks ri ifc (o_predown o) pre -> exists rest, down_rest_steps ifc o ri rest /\ True \/ ri = []).
  { intros ri pre _. destruct ri as [|r0 r1]; [exists []; right; reflexivity|]. destruct (proj1 (go_down_rest sys ifc o conf (r0 :: r1) ltac:(discriminate)) vars0) as (q & [(a & v1 & X & _)|(s1 & v1 & [])]). exists q. left. auto. }
  assert (Tk : forall ri pre, ri <> [] -> hooks ri ifc (o_predown o) pre -> exists rest, taking_down ri ifc o conf amp (pre ++ rest)).
  { intros ri pre Ne Hp. destruct (Nr ri pre Hp) as (rest & [((dns & a & dns2 & post & -> & R1 & R2 & Hk) & _)|]); [|congruence].
    destruct (o_save o) eqn:Es.
    - exists [(list_addresses ri, mk_answer 0 [] None)], (mk_dsteps pre [(list_addresses ri, mk_answer 0 [] None)] [] [] [] []). unfold all_dsteps, down_silent. cbn [q_pre q_save q_dns q_down q_dns2 q_post]. rewrite !app_nil_r. split; [reflexivity|]. right.
      split; [exact Hp|]. split; [exact Es|]. split; [|auto]. exists (mk_answer 0 [] None). split; [reflexivity|]. exact (read_complete_spec []).
    - exists (dns ++ (FreeSpec.destroy ri, a) :: dns2 ++ post), (mk_dsteps pre [] dns [(FreeSpec.destroy ri, a)] dns2 post). unfold all_dsteps, down_in_order. cbn [q_pre q_save q_dns q_down q_dns2 q_post]. split; [reflexivity|]. left.
      split; [exact Hp|]. split; [congruence|]. split; [auto|]. auto. }
  assert (Rn : forall a ri, scan ifc (fst (raw_lines (a_output a))) [] = Some ri -> ri <> []) by (intros a ri Sc; apply scan_real, real_name_word in Sc as (_ & _ & Ne); exact Ne).
  apply (no_trap_cases vars bears (swaps conf) _ _ _ _ _ _ _ _ Gf) in E as [(ri & s1 & h1 & E1 & F1 & ((a & pre & -> & Sc & Hk) & V1) & E)|(h1 & Eh & X)].
  - inversion F1 as [|? ? [Sg _] Fp]; subst. apply (down_tail ri pre s1 st _ (Rn _ _ Sc) Hk Fp) in E as (k & Ek & X). cbn [s_hist] in E1. rewrite E1, <- app_assoc in Ek. apply app_inv_head in Ek. subst h.
    exists a, (pre ++ k). split; [reflexivity|]. right. right. split; [exact Sg|]. exists ri. split; [apply scan_real, Sc|exact X].
  - cbn [s_hist s_vars] in *. apply app_inv_head in Eh. subst h1.
    assert (Q : forall h2 ev q (a : answer), Forall fine h2 -> ((exists (ri : list Z) (v1 : vars), (exists a pre, (h2 ++ [ev]) ++ q = (list_all, a) :: pre /\ scan ifc (fst (raw_lines (a_output a))) [] = Some ri /\ hooks ri ifc (o_predown o) pre) /\ v1 = vars0) \/
        (exists (s1 : Z) (v1 : vars), (exists a, (h2 ++ [ev]) ++ q = [(list_all, a)] /\ scan ifc (fst (raw_lines (a_output a))) [] = None) /\ s1 = 1 /\ v1 = vars0)) ->
      (h2 = [] /\ exists a, ev = (list_all, a)) \/ (exists a ri fwd, h2 = (list_all, a) :: fwd /\ a_signal a = None /\ real_name ifc (a_output a) ri /\ breaks_off (taking_down ri ifc o conf amp) fwd ev /\ ~ replacing conf (fst ev))).
    { intros h2 ev q _ F [(ri & v1 & (a & pre & Ep & Sc & Hk) & _)|(s1 & v1 & (a & Ep & _) & _)].
      - rewrite <- app_assoc in Ep. cbn [app] in Ep. destruct h2 as [|x fwd]; [left; split; [reflexivity|]; exists a; cbn [app] in Ep; congruence|]. right. cbn [app] in Ep. assert (Ex : x = (list_all, a)) by congruence. assert (Ep' : fwd ++ ev :: q = pre) by congruence.
        subst x. inversion F as [|? ? [Sg _] Ff]; subst. exists a, ri, fwd. split; [reflexivity|]. split; [exact Sg|]. split; [apply scan_real, Sc|]. split; [|eapply nr_mid; eapply nr_hooks; exact Hk]. split; [exact Ff|].
        destruct (Tk ri _ (Rn _ _ Sc) Hk) as (rest & T). exists (q ++ rest). rewrite <- app_assoc in T. exact T.
      - left. apply one_list_all in Ep as (-> & _ & ->). split; [reflexivity|exists a; reflexivity]. }
    destruct X as [[(F & v1 & (a & -> & Sc) & -> & _)|(h2 & ev & -> & F & Br & q & X)]|(h2 & ev & -> & F & S & q & X)].
    + exists a, []. split; [reflexivity|]. right. left. inversion F as [|? ? [Sg _] _]; subst. split; [exact Sg|]. split; [apply scan_no, Sc|auto].
    + apply (Q h2 ev q sample F) in X as [(-> & a & ->)|(a & ri & fwd & -> & Sg & Rl & B & N)].
      * exfalso. destruct Br as (_ & Nb & _). apply Nb, list_all_bears.
      * exists a, (fwd ++ [ev]). split; [reflexivity|]. right. right. split; [exact Sg|]. exists ri. split; [exact Rl|]. right. right. left. exists fwd, ev, [], st. split; [reflexivity|]. split; [exact B|]. split; [exact Br|apply swept_plain, N].
    + apply (Q h2 ev q sample F) in X as [(-> & a & ->)|(a & ri & fwd & -> & Sg & Rl & B & N)].
      * exists a, []. auto.
      * exists a, (fwd ++ [ev]). split; [reflexivity|]. right. right. split; [exact Sg|]. exists ri. split; [exact Rl|]. right. right. right. exists fwd, ev, [], st. split; [reflexivity|]. split; [exact B|]. split; [exact S|apply swept_plain2, N].
Qed.
End Down.

Print Assumptions C66_up.
Print Assumptions C66_save.
Print Assumptions C66_down.
