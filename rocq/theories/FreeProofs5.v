(** Proofs about wg-quick on FreeBSD: all ways in which bringing the interface up can end. *)
From Coq Require Import String ZArith List Bool Lia.
From Verif Require Import Base Cstr CstrProofs Bash Quick QuickRun QuickSpec QuickRunSpec QuickReloadSpec QuickRouteSpec QuickUndoSpec QuickUpProofs PropQuickFirewall PropQuickUndo QuickSave
  QuickRouteProofs Sh BsdRoutes BsdRoutesSpec BsdRoutesProofs BsdRoutesProofs2 BsdRoutesProofs3 PropBsdRoutes FreeQuick FreeSpec FreeProofs FreeProofs2 FreeProofs3 FreeProofs4.
Import ListNotations.
Open Scope Z_scope.


Section Up.
Variables (sys : system) (glob : list Z -> list (list Z)) (fuel : nat) (ifc : list Z) (o : options) (us d : list Z).
Hypothesis d_ne : d <> [].
Notation goes := (goes ifc o d).
Definition Dtidy (v : vars) (_ : unit) (h : history) (v1 : vars) : Prop := (exists a, h = [(remove_dir d, a)]) /\ v1 = v.
Definition Dundo (v : vars) (_ : unit) (h : history) (v1 : vars) : Prop := undo_steps ifc o d (v_dns v) (v_eps v) h /\ v1 = v.
Lemma goes_tidy : goes (clean_temp sys) Dtidy.
Proof. apply goes_clean; assumption. Qed.
Lemma goes_undo' : goes (undo sys fuel ifc o) Dundo.
Proof. apply goes_undo; assumption. Qed.

Lemma remove_dir_not_excused : ~ excused (remove_dir d).
Proof. apply not_excused. vm_compute. intuition discriminate. Qed.
Lemma tidied_of : forall v st0 cl st, finished Dtidy v st0 cl st -> tidied d st0 cl st.
Proof.
  intros v st0 cl st [(v1 & [(a & ->) _] & F & ->)|(cl1 & ev & cl2 & v1 & -> & [(a & E) _] & _ & B)]; exists a.
  - split; [reflexivity|]. left. split; [|reflexivity]. inversion F as [|? ? [_ [S|X]] _]; subst; [exact S|]. destruct (remove_dir_not_excused X).
  - destruct cl1 as [|x [|y cl1]]; [|discriminate E|discriminate E]. cbn [app] in E. assert (ev = (remove_dir d, a)) by congruence. subst ev. split; [reflexivity|]. right.
    destruct B as [_ [(_ & S & [->|[(w & ws & Ew & [-> | ->]) _]])|(f & x & Ex & _)]].
    + auto.
    + discriminate Ew.
    + discriminate Ew.
    + apply (f_equal c_argv) in Ex. discriminate Ex.
Qed.
Lemma goes_up : goes (after_add_if sys glob ifc o) (fun v _ h v1 => up_steps glob ifc o v h v1).
Proof. apply goes_after; assumption. Qed.
Lemma undoing_of : forall known eps h cl, undo_steps ifc o d known eps cl -> (known = true <-> registered ifc h) -> (known = true -> o_dns o <> []) -> undoing ifc o d h cl.
Proof.
  intros known eps h cl (h1 & h2 & a & -> & (dns & down & -> & K1 & K2 & Td) & Dl & _) Iff Ne. exists dns, down, h2, a. split; [rewrite <- app_assoc; reflexivity|].
  split; [intro R; apply Iff in R; exact (K1 R (Ne R))|]. split; [intro N; apply K2; destruct known; [destruct N; apply Iff; reflexivity|reflexivity]|]. split; [exact Td|exact Dl].
Qed.
Lemma undone_of : forall v h st0 cl st, (v_dns v = true <-> registered ifc h) -> (v_dns v = true -> o_dns o <> []) -> finished Dundo v st0 cl st -> undone ifc o d h st0 cl st.
Proof.
  intros v h st0 cl st Iff Ne [(v1 & [U _] & F & ->)|(cl1 & ev & cl2 & v1 & -> & [U _] & F & B)].
  - left. split; [eapply undoing_of; eassumption|]. auto.
  - right. exists cl1, ev, cl2. split; [reflexivity|]. split; [eapply undoing_of; eassumption|]. auto.
Qed.
Lemma region_thn : forall A B (clean : act vars unit) (m : act vars A) (f : A -> act vars B) k s, region clean (thn m f) k s =
  match m s with Fin a s1 => region clean (f a) k s1 | Quit st s1 => at_exit clean st s1 | Hit st s1 => interrupted clean st s1 | Spin s1 => (None, s_hist s1) end.
Proof. intros A B clean m f k s. unfold region, thn, interrupted. destruct (m s); reflexivity. Qed.

(** ** Every way it can end *)
Definition up_complete (v : vars) (p : steps) (rs : list (list Z)) (v1 : vars) : Prop := exists vr,
  (v_gw4 vr = v_gw4 v /\ v_gw6 vr = v_gw6 v /\ v_eps vr = v_eps v /\ (v_auto4 vr = true <-> routes_all_of o F4 rs) /\ (v_auto6 vr = true <-> routes_all_of o F6 rs)) /\
  (routes_all_of o F4 rs \/ routes_all_of o F6 rs -> round_fact ifc vr (p_hosts p) v1) /\
  (~ (routes_all_of o F4 rs \/ routes_all_of o F6 rs) -> v1 = vr).
Definition up_ends (r : history) (st : Z) : Prop :=
  (exists cr p rs cl v1, r = cr ++ all_steps p ++ cl /\ created us ifc cr /\ calm cr /\ in_order glob ifc o rs p /\ Forall fine (all_steps p) /\ up_complete (first_vars d) p rs v1 /\
     (finished Dtidy v1 0 cl st \/ cut Dtidy v1 cl st)) \/
  (exists cr cl st0, r = cr ++ cl /\ not_created us ifc cr st0 /\ calm cr /\ (finished Dundo (first_vars d) st0 cl st \/ cut Dundo (first_vars d) cl st)) \/
  (exists cr ev cl st0, r = cr ++ ev :: cl /\ calm cr /\ a_signal (snd ev) = Some st0 /\ creating us ifc cr (fst ev) /\ twice ifc o Dundo (first_vars d) st0 cl st) \/
  (exists cr fwd ev cl p rs rest v1 st0, r = cr ++ fwd ++ ev :: cl /\ created us ifc cr /\ calm cr /\ in_order glob ifc o rs p /\ all_steps p = fwd ++ ev :: rest /\ Forall fine fwd /\
     tracks ifc o (first_vars d) (fwd ++ [ev]) v1 /\
     ((broke ev st0 /\ (finished Dundo v1 st0 cl st \/ cut Dundo v1 cl st)) \/ (a_signal (snd ev) = Some st0 /\ twice ifc o Dundo v1 st0 cl st))).
Lemma up_cases : forall s st H, s_vars s = first_vars d -> cmd_up sys glob fuel ifc o us s = (Some st, H) -> exists a r, H = s_hist s ++ (is_there ifc, a) :: r /\
  ((a_signal a = None /\ captured (a_output a) <> [] /\ (finished Dtidy (first_vars d) 1 r st \/ cut Dtidy (first_vars d) r st)) \/
   (exists st0, a_signal a = Some st0 /\ twice ifc o Dtidy (first_vars d) st0 r st) \/
   (a_signal a = None /\ captured (a_output a) = [] /\ up_ends r st)).
Proof.
  intros s st H Hv E. unfold cmd_up in E. unfold ask in E. unfold region at 1 in E. unfold thn at 1 2 in E. unfold call, pure at 1 in E. change (argv [!"ifconfig"; ifc]) with (is_there ifc) in E. set (a := sys (s_hist s) (is_there ifc)) in *.
  exists a. destruct (a_signal a) as [st0|] eqn:S.
  { set (s1 := mk_sh (s_hist s ++ [(is_there ifc, a)]) (s_vars s)) in *. assert (Hs1 : v_tmp (s_vars s1) = d) by (unfold s1; cbn [s_vars]; rewrite Hv; reflexivity).
    destruct (interrupted_goes ifc o d (clean_temp sys) Dtidy s1 st0 st H goes_tidy Hs1 E) as (cl & -> & T). exists cl. unfold s1 in *. cbn [s_hist s_vars] in *. rewrite Hv in T. rewrite <- app_assoc.
    split; [reflexivity|]. right. left. exists st0. auto. }
  destruct (beq (captured (a_output a)) []) eqn:Eb; cbn [negb] in E.
  2: { unfold quit in E. set (s1 := mk_sh (s_hist s ++ [(is_there ifc, a)]) (s_vars s)) in *. assert (Hs1 : v_tmp (s_vars s1) = d) by (unfold s1; cbn [s_vars]; rewrite Hv; reflexivity).
    destruct (at_exit_goes ifc o d (clean_temp sys) Dtidy s1 1 st H goes_tidy Hs1 E) as (cl & -> & T). exists cl. unfold s1 in *. cbn [s_hist s_vars] in *. rewrite Hv in T. rewrite <- app_assoc.
    split; [reflexivity|]. left. split; [reflexivity|]. split; [|exact T]. intro K. rewrite K in Eb. discriminate Eb. }
  apply beq_eq in Eb. unfold pure in E. set (s1 := mk_sh (s_hist s ++ [(is_there ifc, a)]) (s_vars s)) in *. assert (Hv1 : s_vars s1 = first_vars d) by exact Hv. assert (Hs1 : v_tmp (s_vars s1) = d) by (rewrite Hv1; reflexivity).
  assert (Eh1 : s_hist s1 = s_hist s ++ [(is_there ifc, a)]) by reflexivity. clearbody s1.
  rewrite region_thn in E. pose proof (add_if_runs sys ifc us s1) as AI. destruct (add_if sys ifc us s1) as [u s2|st1 s2|st1 s2|s2].
  - destruct AI as (cr & E2 & Cr & Cc & V2). rewrite Hv1 in V2. assert (Hs2 : v_tmp (s_vars s2) = d) by (rewrite V2; reflexivity).
    destruct (region_goes ifc o d _ _ _ _ _ _ _ _ _ goes_up goes_undo' Hs2 E) as [(u1 & s3 & h & _ & E3 & F & K & U & En)|(h & -> & h1 & ev & v1 & cl & -> & F & K & (u1 & h2 & v2 & U) & st0 & Fi)].
    + unfold the_end in En. assert (Hs3 : v_tmp (s_vars s3) = d) by (destruct K; congruence). destruct (at_exit_goes ifc o d _ Dtidy s3 0 st H goes_tidy Hs3 En) as (cl & -> & T).
      rewrite V2 in U. destruct (U eq_refl eq_refl) as (p & rs & vr & -> & IO & U1 & U2 & U3).
      exists (cr ++ all_steps p ++ cl). rewrite E3, E2, Eh1, <- !app_assoc. split; [reflexivity|]. right. right. split; [reflexivity|]. split; [exact Eb|]. left.
      exists cr, p, rs, cl, (s_vars s3). split; [reflexivity|]. split; [exact Cr|]. split; [exact Cc|]. split; [exact IO|]. split; [exact F|]. split; [|exact T]. exists vr. split; [exact U1|]. split; [|exact U3].
      intro X. apply U2; [exact X|]. unfold all_steps in F. do 8 apply Forall_app in F as [_ F]. apply Forall_app in F as [F _]. exact F.
    + rewrite V2 in U, K. destruct (U eq_refl eq_refl) as (p & rs & vr & Ep & IO & _).
      exists (cr ++ h1 ++ ev :: cl). rewrite E2, Eh1, <- !app_assoc. split; [reflexivity|]. right. right. split; [reflexivity|]. split; [exact Eb|]. right. right. right.
      exists cr, h1, ev, cl, p, rs, h2, v1, st0. split; [reflexivity|]. split; [exact Cr|]. split; [exact Cc|]. split; [exact IO|]. split; [congruence|]. auto.
  - destruct AI as (cr & E2 & Cr & Cc & V2). rewrite Hv1 in V2. assert (Hs2 : v_tmp (s_vars s2) = d) by (rewrite V2; reflexivity).
    destruct (at_exit_goes ifc o d _ Dundo s2 st1 st H goes_undo' Hs2 E) as (cl & -> & T). rewrite V2 in T.
    exists (cr ++ cl). rewrite E2, Eh1, <- !app_assoc. split; [reflexivity|]. right. right. split; [reflexivity|]. split; [exact Eb|]. right. left. exists cr, cl, st1. auto.
  - destruct AI as (cr & b & c & E2 & Cc & Sb & Cr & V2). rewrite Hv1 in V2. assert (Hs2 : v_tmp (s_vars s2) = d) by (rewrite V2; reflexivity).
    destruct (interrupted_goes ifc o d _ Dundo s2 st1 st H goes_undo' Hs2 E) as (cl & -> & T). rewrite V2 in T.
    exists (cr ++ (c, b) :: cl). rewrite E2, Eh1, <- !app_assoc. split; [reflexivity|]. right. right. split; [reflexivity|]. split; [exact Eb|]. right. right. left.
    exists cr, (c, b), cl, st1. split; [reflexivity|]. split; [exact Cc|]. split; [exact Sb|]. split; [|exact T]. destruct Cr as [[-> ->]|(-> & x & -> & N1 & N2)]; [left; auto|right; exists x; auto].
  - destruct AI.
Qed.
End Up.
