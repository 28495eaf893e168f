(** Proofs about wg-quick on FreeBSD: bringing the interface up and the traps. *)
From Coq Require Import String ZArith List Bool Lia.
From Verif Require Import Base Cstr CstrProofs Bash Quick QuickRun QuickSpec QuickRunSpec QuickReloadSpec QuickRouteSpec QuickUndoSpec QuickUpProofs PropQuickFirewall PropQuickUndo QuickSave
  QuickRouteProofs Sh BsdRoutes BsdRoutesSpec BsdRoutesProofs BsdRoutesProofs2 BsdRoutesProofs3 PropBsdRoutes FreeQuick FreeSpec FreeProofs FreeProofs2 FreeProofs3.
Import ListNotations.
Open Scope Z_scope.

Definition calm (h : history) : Prop := Forall (fun ev : event => a_signal (snd ev) = None) h.
Lemma calm_app : forall h1 h2, calm (h1 ++ h2) <-> calm h1 /\ calm h2.
Proof. intros. unfold calm. apply Forall_app. Qed.

Section Ends.
Variables (ifc : list Z) (o : options) (d : list Z).
Notation goes := (goes ifc o d).
(** A trap that runs to its end or fails on the way. *)
Definition finished (D : vars -> unit -> history -> vars -> Prop) (v : vars) (st0 : Z) (cl : history) (st : Z) : Prop :=
  (exists v1, D v tt cl v1 /\ Forall fine cl /\ st = st0) \/
  (exists cl1 ev cl2 v1, cl = cl1 ++ [ev] /\ D v tt (cl1 ++ ev :: cl2) v1 /\ Forall fine cl1 /\ broke ev st).
(** A trap interrupted by a signal. *)
Definition cut (D : vars -> unit -> history -> vars -> Prop) (v : vars) (cl : history) (st : Z) : Prop :=
  exists cl1 ev cl2 v1, cl = cl1 ++ [ev] /\ D v tt (cl1 ++ ev :: cl2) v1 /\ Forall fine cl1 /\ a_signal (snd ev) = Some st.
Lemma not_cut : forall D v cl st, calm cl -> ~ cut D v cl st.
Proof. intros D v cl st C (cl1 & ev & cl2 & v1 & -> & _ & _ & S). apply calm_app in C as [_ C]. inversion C as [|? ? C1 _]; subst. congruence. Qed.
Lemma at_exit_goes : forall m D s st0 st H, goes m D -> v_tmp (s_vars s) = d -> at_exit m st0 s = (Some st, H) ->
  exists cl, H = s_hist s ++ cl /\ (finished D (s_vars s) st0 cl st \/ cut D (s_vars s) cl st).
Proof.
  intros m D s st0 st H [_ G] Hs E. specialize (G s Hs). unfold at_exit in E. destruct (m s) as [[] s1|st1 s1|st1 s1|s1].
  - destruct G as (h & Eh & F & _ & X). injection E as <- <-. exists h. split; [exact Eh|]. left. left. exists (s_vars s1). auto.
  - destruct G as (h & ev & Eh & F & _ & Hb & [] & h' & v' & X). injection E as <- <-. exists (h ++ [ev]). split; [exact Eh|]. left. right. exists h, ev, h', v'. auto.
  - destruct G as (h & ev & Eh & F & _ & Hb & [] & h' & v' & X). injection E as <- <-. exists (h ++ [ev]). split; [exact Eh|]. right. exists h, ev, h', v'. auto.
  - discriminate E.
Qed.
(** After a signal: the trap twice. *)
Definition twice (Dc : vars -> unit -> history -> vars -> Prop) (v : vars) (st0 : Z) (cl : history) (st : Z) : Prop := exists c1 c2 st1 v2, cl = c1 ++ c2 /\
  (finished Dc v st0 c1 st1 \/ cut Dc v c1 st1) /\ tracks ifc o v c1 v2 /\ (finished Dc v2 st1 c2 st \/ cut Dc v2 c2 st).
Definition interrupted (clean : act vars unit) (st : Z) (s1 : sh vars) : outcome :=
  match clean s1 with
  | Fin _ s2 => at_exit clean st s2
  | Quit st1 s2 | Hit st1 s2 => at_exit clean st1 s2
  | Spin s2 => (None, s_hist s2)
  end.
Lemma interrupted_goes : forall clean Dc s st0 st H, goes clean Dc -> v_tmp (s_vars s) = d -> interrupted clean st0 s = (Some st, H) ->
  exists cl, H = s_hist s ++ cl /\ twice Dc (s_vars s) st0 cl st.
Proof.
  intros clean Dc s st0 st H Gc Hs E. unfold interrupted in E. pose proof (proj2 Gc s Hs) as Gc1. destruct (clean s) as [[] s2|st2 s2|st2 s2|s2].
  - destruct Gc1 as (c1 & Ec & Fc & Kc & Xc). assert (Hs2 : v_tmp (s_vars s2) = d) by (destruct Kc; congruence).
    destruct (at_exit_goes clean Dc s2 st0 st H Gc Hs2 E) as (c2 & -> & Fi). exists (c1 ++ c2). rewrite Ec, <- app_assoc. split; [reflexivity|].
    exists c1, c2, st0, (s_vars s2). split; [reflexivity|]. split; [left; left; exists (s_vars s2); auto|]. auto.
  - destruct Gc1 as (c1 & ev1 & Ec & Fc & Kc & Hb1 & [] & h1 & v1 & Xc). assert (Hs2 : v_tmp (s_vars s2) = d) by (destruct Kc; congruence).
    destruct (at_exit_goes clean Dc s2 st2 st H Gc Hs2 E) as (c2 & -> & Fi). exists ((c1 ++ [ev1]) ++ c2). rewrite Ec, <- !app_assoc. split; [reflexivity|].
    exists (c1 ++ [ev1]), c2, st2, (s_vars s2). split; [rewrite <- app_assoc; reflexivity|]. split; [left; right; exists c1, ev1, h1, v1; auto|]. auto.
  - destruct Gc1 as (c1 & ev1 & Ec & Fc & Kc & Hb1 & [] & h1 & v1 & Xc). assert (Hs2 : v_tmp (s_vars s2) = d) by (destruct Kc; congruence).
    destruct (at_exit_goes clean Dc s2 st2 st H Gc Hs2 E) as (c2 & -> & Fi). exists ((c1 ++ [ev1]) ++ c2). rewrite Ec, <- !app_assoc. split; [reflexivity|].
    exists (c1 ++ [ev1]), c2, st2, (s_vars s2). split; [rewrite <- app_assoc; reflexivity|]. split; [right; exists c1, ev1, h1, v1; auto|]. auto.
  - discriminate E.
Qed.
(** Parts of the script under a trap: three ways. *)
Definition ended {A} (Db : vars -> A -> history -> vars -> Prop) (Dc : vars -> unit -> history -> vars -> Prop) (v : vars) (h : history) (st : Z) : Prop :=
  exists h1 ev v1 cl, h = h1 ++ ev :: cl /\ Forall fine h1 /\ tracks ifc o v (h1 ++ [ev]) v1 /\ (exists a h2 v2, Db v a (h1 ++ ev :: h2) v2) /\ exists st0,
  ((broke ev st0 /\ (finished Dc v1 st0 cl st \/ cut Dc v1 cl st)) \/ (a_signal (snd ev) = Some st0 /\ twice Dc v1 st0 cl st)).
Lemma region_goes : forall A (clean : act vars unit) (body : act vars A) k Db Dc s st H, goes body Db -> goes clean Dc -> v_tmp (s_vars s) = d ->
  region clean body k s = (Some st, H) ->
  (exists a s1 h, body s = Fin a s1 /\ s_hist s1 = s_hist s ++ h /\ Forall fine h /\ tracks ifc o (s_vars s) h (s_vars s1) /\ Db (s_vars s) a h (s_vars s1) /\ k a s1 = (Some st, H)) \/
  (exists h, H = s_hist s ++ h /\ ended Db Dc (s_vars s) h st).
Proof.
  intros A clean body k Db Dc s st H [_ Gb] Gc Hs E. specialize (Gb s Hs). unfold region in E. destruct (body s) as [a s1|st1 s1|st1 s1|s1].
  - left. destruct Gb as (h & Eh & F & K & X). exists a, s1, h. auto 8.
  - right. destruct Gb as (h & ev & Eh & F & K & Hb & a & h' & v' & X). assert (Hs1 : v_tmp (s_vars s1) = d) by (destruct K; congruence).
    destruct (at_exit_goes clean Dc s1 st1 st H Gc Hs1 E) as (cl & -> & Fi). exists (h ++ ev :: cl). rewrite Eh, <- !app_assoc. split; [reflexivity|].
    exists h, ev, (s_vars s1), cl. split; [reflexivity|]. split; [exact F|]. split; [exact K|]. split; [eauto|]. exists st1. left. auto.
  - right. destruct Gb as (h & ev & Eh & F & K & Hb & a & h' & v' & X). assert (Hs1 : v_tmp (s_vars s1) = d) by (destruct K; congruence).
    destruct (interrupted_goes clean Dc s1 st1 st H Gc Hs1 E) as (cl & -> & Fi). exists (h ++ ev :: cl). rewrite Eh, <- !app_assoc. split; [reflexivity|].
    exists h, ev, (s_vars s1), cl. split; [reflexivity|]. split; [exact F|]. split; [exact K|]. split; [eauto|]. exists st1. right. auto.
  - discriminate E.
Qed.
End Ends.

Section Up.
Variables (sys : system) (glob : list Z -> list (list Z)) (fuel : nat) (ifc : list Z) (o : options) (us d : list Z).
Hypothesis d_ne : d <> [].
Notation goes := (goes ifc o d).

(** ** The steps after the interface has been created *)
Definition up_steps (v : vars) (h : history) (v1 : vars) : Prop := v_auto4 v = false -> v_auto6 v = false -> exists p rs vr, h = all_steps p /\ in_order glob ifc o rs p /\
  (v_gw4 vr = v_gw4 v /\ v_gw6 vr = v_gw6 v /\ v_eps vr = v_eps v /\ (v_auto4 vr = true <-> routes_all_of o F4 rs) /\ (v_auto6 vr = true <-> routes_all_of o F6 rs)) /\
  (routes_all_of o F4 rs \/ routes_all_of o F6 rs -> Forall fine (p_hosts p) -> round_fact ifc vr (p_hosts p) v1) /\
  (~ (routes_all_of o F4 rs \/ routes_all_of o F6 rs) -> v1 = vr).
Lemma goes_after : goes (after_add_if sys glob ifc o) (fun v _ h v1 => up_steps v h v1).
Proof.
  unfold after_add_if.
  eapply goes_conseq; [eapply goes_thn; [apply goes_hooks|intro u1; eapply goes_thn; [apply goes_must_in; [apply not_excused_wg; discriminate|reflexivity]|intro u2; eapply goes_thn; [apply goes_addresses|
    intro u3; eapply goes_thn; [apply goes_mtu|intro u4; eapply goes_thn; [apply goes_must; [apply not_excused_ifconfig|reflexivity]|intro u5; eapply goes_thn; [apply goes_dns|intro u6;
    eapply goes_thn; [apply goes_routes|intro u7; eapply goes_thn; [apply goes_direct|intro u8; eapply goes_thn; [apply goes_try; [right; right; right; reflexivity|reflexivity]|intro u9; apply goes_hooks|]|]|]|]|]|]|]|]|]|]; cbv beta.
  all: try exact fuel; try exact glob; try exact d_ne; try exact us.
  1: intros v a h v1 Hv (r & _ & ->); exact Hv.
  1: intros v a h v1 Hv (E & _); congruence.
  1: intros v a h v1 Hv (rs & h1 & h2 & _ & _ & _ & Fl); destruct Fl as (_ & _ & _ & _ & E & _); congruence.
  1: intros v a h v1 Hv (_ & [E|E]); subst v1; exact Hv.
  1: intros v a h v1 Hv (r & _ & ->); exact Hv.
  1: intros v a h v1 Hv (_ & ->); exact Hv.
  1: intros v a h v1 Hv (_ & ->); exact Hv.
  1: intros v a h v1 Hv (r & _ & ->); exact Hv.
  1: intros v a h v1 Hv (_ & ->); exact Hv.
  intros v a h v1 Hv (x1 & g1 & w1 & r1 & -> & (H1 & ->) & x2 & g2 & w2 & r2 & -> & (a2 & -> & ->) & x3 & g3 & w3 & r3 & -> & (H3 & ->) & x4 & g4 & w4 & r4 & -> & (H4 & ->) & x5 & g5 & w5 & r5 & -> & (a5 & -> & ->) &
    x6 & g6 & w6 & r6 & -> & (H6 & V6) & x7 & g7 & w7 & r7 & -> & (rs & ga & gb & -> & Hl & Hr & Fl) & x8 & g8 & w8 & r8 & -> & (E8 & H8 & N8) & x9 & g9 & w9 & r9 & -> & (a9 & -> & ->) & H10 & ->).
  intros A4 A6. destruct Fl as (_ & G4 & G6 & Ge & _ & F4' & F6').
  assert (Q : v_gw4 w6 = v_gw4 v /\ v_gw6 w6 = v_gw6 v /\ v_eps w6 = v_eps v /\ v_auto4 w6 = false /\ v_auto6 w6 = false) by (destruct V6 as [-> | ->]; cbn [with_dns v_gw4 v_gw6 v_eps v_auto4 v_auto6]; auto).
  destruct Q as (Q1 & Q2 & Q3 & Q4 & Q5). rewrite Q4 in F4'. rewrite Q5 in F6'.
  assert (I4 : v_auto4 w7 = true <-> routes_all_of o F4 rs) by (rewrite F4'; split; [intros [X|X]; [discriminate X|exact X]|auto]).
  assert (I6 : v_auto6 w7 = true <-> routes_all_of o F6 rs) by (rewrite F6'; split; [intros [X|X]; [discriminate X|exact X]|auto]).
  assert (J : v_auto4 w7 = true \/ v_auto6 w7 = true <-> routes_all_of o F4 rs \/ routes_all_of o F6 rs) by (rewrite I4, I6; reflexivity).
  eexists (mk_steps g1 _ g3 g4 _ g6 ga gb g8 _ r9), rs, w7. split; [unfold all_steps; cbn [p_pre p_conf p_addr p_mtu p_up p_dns p_list p_routes p_hosts p_mon p_post]; rewrite <- !app_assoc; reflexivity|].
  cbn [p_hosts]. split; [|split; [split; [congruence|]; split; [congruence|]; split; [congruence|]; split; assumption|split; [intros X F; apply H8; [apply J, X|exact F]|intro N; apply N8; rewrite J; exact N]]].
  unfold in_order. cbn [p_pre p_conf p_addr p_mtu p_up p_dns p_list p_routes p_hosts p_mon p_post].
  split; [exact H1|]. split; [reflexivity|]. split; [exact H3|]. split; [exact H4|]. split; [reflexivity|]. split; [exact H6|]. split; [exact Hl|]. split; [exact Hr|].
  split; [intro X; apply H8, J, X|]. split; [intro N; apply N8; rewrite J; exact N|]. split; [reflexivity|exact H10].
Qed.
(** ** Creation *)
Lemma add_if_runs : forall s : sh vars,
  match add_if sys ifc us s with
  | Fin _ s1 => exists cr, s_hist s1 = s_hist s ++ cr /\ created us ifc cr /\ calm cr /\ s_vars s1 = s_vars s
  | Quit st s1 => exists cr, s_hist s1 = s_hist s ++ cr /\ not_created us ifc cr st /\ calm cr /\ s_vars s1 = s_vars s
  | Hit st s1 => exists cr a c, s_hist s1 = s_hist s ++ cr ++ [(c, a)] /\ calm cr /\ a_signal a = Some st /\ (cr = [] /\ c = create ifc \/ c = argv [us; ifc] /\ exists b, cr = [(create ifc, b)] /\ a_status b <> 0 /\ ~ name_taken (a_output b)) /\ s_vars s1 = s_vars s
  | Spin _ => False
  end.
Proof.
  intro s. unfold add_if, must, must_in, thn, call. fold (create ifc). change (argv [!"ifconfig"; !"wg"; !"create"; !"name"; ifc]) with (create ifc). set (a := sys (s_hist s) (create ifc)).
  destruct (a_signal a) as [st|] eqn:S.
  { cbn [s_hist s_vars]. exists [], a, (create ifc). split; [reflexivity|]. split; [constructor|]. split; [exact S|]. split; [left; auto|reflexivity]. }
  destruct (Z.eqb_spec (a_status a) 0) as [E|E].
  { unfold pure. cbn [s_hist s_vars]. exists [(create ifc, a)]. split; [reflexivity|]. split; [left; exists a; auto|]. split; [constructor; [exact S|constructor]|reflexivity]. }
  destruct (contains taken_name (captured (a_output a))) eqn:C.
  { unfold pure. cbn [s_hist s_vars]. exists [(create ifc, a)]. split; [reflexivity|]. split; [right; left; exists a; split; [reflexivity|]; split; [exact E|apply contains_iff, C]|]. split; [constructor; [exact S|constructor]|reflexivity]. }
  assert (N : ~ name_taken (a_output a)) by (intro K; apply contains_iff in K; unfold taken_name in C; congruence).
  cbn [s_hist s_vars]. change (mk_cmd [us; ifc] []) with (argv [us; ifc]). set (b := sys (s_hist s ++ [(create ifc, a)]) (argv [us; ifc])). destruct (a_signal b) as [st|] eqn:Sb.
  { cbn [s_hist s_vars]. exists [(create ifc, a)], b, (argv [us; ifc]). split; [rewrite <- app_assoc; reflexivity|]. split; [constructor; [exact S|constructor]|]. split; [exact Sb|]. split; [right; split; [reflexivity|]; exists a; auto|reflexivity]. }
  destruct (Z.eqb_spec (a_status b) 0) as [Eb|Eb]; unfold pure, quit; cbn [s_hist s_vars]; exists [(create ifc, a); (argv [us; ifc], b)]; (split; [rewrite <- app_assoc; reflexivity|]).
  - split; [right; right; exists a, b; auto|]. split; [constructor; [exact S|constructor; [exact Sb|constructor]]|reflexivity].
  - split; [exists a, b; auto|]. split; [constructor; [exact S|constructor; [exact Sb|constructor]]|reflexivity].
Qed.
End Up.
