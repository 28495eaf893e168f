(** Proofs about scripts that may fail anywhere: what a piece of script does, if it runs to its end, if it gives up, if a command fails, if a signal arrives. *)
From Coq Require Import String ZArith List Bool Lia.
From Verif Require Import Base Bash Quick QuickRun Sh.
Import ListNotations.
Open Scope Z_scope.

Section Goes.
Variable V : Type.
(** Commands whose failure the script bears, and commands whose failure it may report as status 1. *)
Variables may_fail as_1 : command -> Prop.
Definition fine (ev : event) : Prop := a_signal (snd ev) = None /\ (a_status (snd ev) = 0 \/ may_fail (fst ev)).
Definition broke (ev : event) (st : Z) : Prop :=
  a_signal (snd ev) = None /\ ~ may_fail (fst ev) /\ a_status (snd ev) <> 0 /\ (st = a_status (snd ev) \/ (as_1 (fst ev) /\ st = 1)).

(** [D]: what has run when the piece ends normally.  [G]: what has run when it gives up, with a status, though no command failed. *)
Definition Dn (A : Type) := V -> A -> history -> V -> Prop.
Definition Gn := V -> history -> Z -> V -> Prop.
Definition begins_so {A} (D : Dn A) (G : Gn) (v : V) (p : history) : Prop := exists q, (exists a v1, D v a (p ++ q) v1) \/ (exists st v1, G v (p ++ q) st v1).
Definition go {A} (m : act V A) (D : Dn A) (G : Gn) : Prop :=
  (forall v, begins_so D G v []) /\
  forall s,
    match m s with
    | Fin a s1 => exists h, s_hist s1 = s_hist s ++ h /\ Forall fine h /\ D (s_vars s) a h (s_vars s1)
    | Quit st s1 =>
        (exists h, s_hist s1 = s_hist s ++ h /\ Forall fine h /\ G (s_vars s) h st (s_vars s1)) \/
        (exists h ev, s_hist s1 = s_hist s ++ h ++ [ev] /\ Forall fine h /\ broke ev st /\ begins_so D G (s_vars s) (h ++ [ev]))
    | Hit st s1 => exists h ev, s_hist s1 = s_hist s ++ h ++ [ev] /\ Forall fine h /\ a_signal (snd ev) = Some st /\ begins_so D G (s_vars s) (h ++ [ev])
    | Spin s1 => True
    end.
Definition no_G : Gn := fun _ _ _ _ => False.
Definition Dseq {A B} (D1 : Dn A) (D2 : A -> Dn B) : Dn B := fun v b h v2 => exists a h1 v1 h2, h = h1 ++ h2 /\ D1 v a h1 v1 /\ D2 a v1 b h2 v2.
Definition Gseq {A} (D1 : Dn A) (G1 : Gn) (G2 : A -> Gn) : Gn := fun v h st v2 => G1 v h st v2 \/ exists a h1 v1 h2, h = h1 ++ h2 /\ D1 v a h1 v1 /\ G2 a v1 h2 st v2.

Lemma begins_conseq : forall A (D D' : Dn A) (G G' : Gn) v p, begins_so D G v p -> (forall a h v1, D v a h v1 -> D' v a h v1) -> (forall h st v1, G v h st v1 -> G' v h st v1) -> begins_so D' G' v p.
Proof. intros A D D' G G' v p (q & [(a & v1 & H)|(st & v1 & H)]) ID IG; exists q; [left|right]; eauto. Qed.
Lemma go_conseq : forall A (m : act V A) (D D' : Dn A) (G G' : Gn), go m D G -> (forall v a h v1, D v a h v1 -> D' v a h v1) -> (forall v h st v1, G v h st v1 -> G' v h st v1) -> go m D' G'.
Proof.
  intros A m D D' G G' [T H] ID IG. split; [intro v; eapply begins_conseq; [apply T|apply ID|apply IG]|]. intro s. specialize (H s). destruct (m s) as [a s1|st s1|st s1|s1].
  - destruct H as (h & E & F & X). exists h. auto.
  - destruct H as [(h & E & F & X)|(h & ev & E & F & B & X)]; [left; exists h; auto|right]. exists h, ev. split; [exact E|]. split; [exact F|]. split; [exact B|]. eapply begins_conseq; eauto.
  - destruct H as (h & ev & E & F & B & X). exists h, ev. split; [exact E|]. split; [exact F|]. split; [exact B|]. eapply begins_conseq; eauto.
  - exact I.
Qed.
Lemma begins_first : forall A B (D1 : Dn A) G1 (D2 : A -> Dn B) G2, (forall a v, begins_so (D2 a) (G2 a) v []) -> forall v p, begins_so D1 G1 v p -> begins_so (Dseq D1 D2) (Gseq D1 G1 G2) v p.
Proof.
  intros A B D1 G1 D2 G2 T v p (q & [(a & v1 & H)|(st & v1 & H)]).
  - destruct (T a v1) as (q2 & [(b & v2 & X)|(st & v2 & X)]); cbn [app] in X.
    + exists (q ++ q2). left. exists b, v2, a, (p ++ q), v1, q2. rewrite app_assoc. auto.
    + exists (q ++ q2). right. exists st, v2. right. exists a, (p ++ q), v1, q2. rewrite app_assoc. auto.
  - exists q. right. exists st, v1. left. exact H.
Qed.
Lemma begins_second : forall A B (D1 : Dn A) G1 (D2 : A -> Dn B) G2 v a h1 v1 p, D1 v a h1 v1 -> begins_so (D2 a) (G2 a) v1 p -> begins_so (Dseq D1 D2) (Gseq D1 G1 G2) v (h1 ++ p).
Proof.
  intros A B D1 G1 D2 G2 v a h1 v1 p H (q & [(b & v2 & X)|(st & v2 & X)]).
  - exists q. left. exists b, v2, a, h1, v1, (p ++ q). rewrite app_assoc. auto.
  - exists q. right. exists st, v2. right. exists a, h1, v1, (p ++ q). rewrite app_assoc. auto.
Qed.
Lemma go_thn : forall A B (m : act V A) (f : A -> act V B) D1 G1 D2 G2, go m D1 G1 -> (forall a, go (f a) (D2 a) (G2 a)) -> go (thn m f) (Dseq D1 D2) (Gseq D1 G1 G2).
Proof.
  intros A B m f D1 G1 D2 G2 [T1 H1] H2. assert (T2 : forall a v, begins_so (D2 a) (G2 a) v []) by (intros a v; apply (proj1 (H2 a))). split; [intro v; apply begins_first; auto|].
  intro s. unfold thn. specialize (H1 s). destruct (m s) as [a s1|st s1|st s1|s1].
  - destruct H1 as (h & E & F & X1). pose proof (proj2 (H2 a) s1) as X. destruct (f a s1) as [b s2|st s2|st s2|s2].
    + destruct X as (h2 & E2 & F2 & X2). exists (h ++ h2). rewrite E2, E, <- app_assoc. split; [reflexivity|]. split; [apply Forall_app; auto|]. exists a, h, (s_vars s1), h2. auto.
    + destruct X as [(h2 & E2 & F2 & X2)|(h2 & ev & E2 & F2 & Hb & X2)].
      * left. exists (h ++ h2). rewrite E2, E, <- app_assoc. split; [reflexivity|]. split; [apply Forall_app; auto|]. right. exists a, h, (s_vars s1), h2. auto.
      * right. exists (h ++ h2), ev. rewrite E2, E, <- !app_assoc. split; [reflexivity|]. split; [apply Forall_app; auto|]. split; [exact Hb|]. eapply begins_second; eauto.
    + destruct X as (h2 & ev & E2 & F2 & Hb & X2). exists (h ++ h2), ev. rewrite E2, E, <- !app_assoc. split; [reflexivity|]. split; [apply Forall_app; auto|]. split; [exact Hb|]. eapply begins_second; eauto.
    + exact I.
  - destruct H1 as [(h & E & F & X1)|(h & ev & E & F & Hb & X1)].
    + left. exists h. split; [exact E|]. split; [exact F|]. left. exact X1.
    + right. exists h, ev. split; [exact E|]. split; [exact F|]. split; [exact Hb|]. apply begins_first; auto.
  - destruct H1 as (h & ev & E & F & Hb & X1). exists h, ev. split; [exact E|]. split; [exact F|]. split; [exact Hb|]. apply begins_first; auto.
  - exact I.
Qed.
(** Pieces that do not give up. *)
Definition goes {A} (m : act V A) (D : Dn A) : Prop := go m D no_G.
Lemma goes_conseq : forall A (m : act V A) (D D' : Dn A), goes m D -> (forall v a h v1, D v a h v1 -> D' v a h v1) -> goes m D'.
Proof. intros A m D D' H I. eapply go_conseq; [exact H|exact I|auto]. Qed.
Lemma goes_thn : forall A B (m : act V A) (f : A -> act V B) D1 D2, goes m D1 -> (forall a, goes (f a) (D2 a)) -> goes (thn m f) (Dseq D1 D2).
Proof.
  intros A B m f D1 D2 H1 H2. eapply go_conseq; [apply go_thn; [exact H1|exact H2]|auto|]. intros v h st v1 [[]|(a & h1 & v2 & h2 & _ & _ & [])].
Qed.
Lemma go_pure : forall A (a : A), goes (pure a) (fun v b h v1 => b = a /\ h = [] /\ v1 = v).
Proof.
  intros A a. split; [intro v; exists []; left; exists a, v; auto|]. intro s. cbn. exists []. rewrite app_nil_r. split; [reflexivity|]. split; [constructor|auto].
Qed.
Lemma go_quit : forall A st, go (quit (A := A) st) (fun _ _ _ _ => False) (fun v h st1 v1 => h = [] /\ st1 = st /\ v1 = v).
Proof.
  intros A st. split; [intro v; exists []; right; exists st, v; auto|]. intro s. cbn. left. exists []. rewrite app_nil_r. split; [reflexivity|]. split; [constructor|auto].
Qed.
Lemma go_put : forall g : V -> V, goes (put g) (fun v _ h v1 => h = [] /\ v1 = g v).
Proof.
  intro g. split; [intro v; exists []; left; exists tt, (g v); auto|]. intro s. cbn. exists []. rewrite app_nil_r. split; [reflexivity|]. split; [constructor|auto].
Qed.
Lemma go_get : forall A (f : V -> act V A) (D : V -> Dn A) (G : V -> Gn), (forall v, go (f v) (D v) (G v)) -> go (get f) (fun v a h v1 => D v v a h v1) (fun v h st v1 => G v v h st v1).
Proof.
  intros A f D G H. split; [intro v; exact (proj1 (H v) v)|]. intro s. exact (proj2 (H (s_vars s)) s).
Qed.

Variable sys : system.
Definition good_answer : answer := mk_answer 0 [] None.
Lemma go_call : forall c, may_fail c -> goes (call sys c) (fun v a h v1 => h = [(c, a)] /\ v1 = v).
Proof.
  intros c X. split; [intro v; exists [(c, good_answer)]; left; exists good_answer, v; auto|]. intro s. unfold call. destruct (a_signal _) as [st|] eqn:S.
  - exists [], (c, sys (s_hist s) c). cbn [s_hist s_vars app]. split; [reflexivity|]. split; [constructor|]. split; [exact S|]. exists []. left. exists (sys (s_hist s) c), (s_vars s). auto.
  - exists [(c, sys (s_hist s) c)]. cbn [s_hist s_vars]. split; [reflexivity|]. split; [constructor; [split; [exact S|right; exact X]|constructor]|auto].
Qed.
Lemma go_ask : forall ws, may_fail (argv ws) -> goes (ask sys ws) (fun v out h v1 => exists a, h = [(argv ws, a)] /\ out = captured (a_output a) /\ v1 = v).
Proof.
  intros ws X. unfold ask. eapply goes_conseq; [apply goes_thn; [apply go_call; exact X|intro a; apply go_pure]|]. cbv beta. intros v a h v1 (r & h1 & v2 & h2 & -> & (-> & ->) & -> & -> & ->). exists r. auto.
Qed.
Lemma go_feed : forall ws, may_fail (argv ws) -> goes (feed sys ws) (fun v out h v1 => exists a, h = [(argv ws, a)] /\ out = a_output a /\ v1 = v).
Proof.
  intros ws X. unfold feed. eapply goes_conseq; [apply goes_thn; [apply go_call; exact X|intro a; apply go_pure]|]. cbv beta. intros v a h v1 (r & h1 & v2 & h2 & -> & (-> & ->) & -> & -> & ->). exists r. auto.
Qed.
Lemma go_holds : forall ws, may_fail (argv ws) -> goes (holds sys ws) (fun v b h v1 => exists a, h = [(argv ws, a)] /\ b = (a_status a =? 0) /\ v1 = v).
Proof.
  intros ws X. unfold holds. eapply goes_conseq; [apply goes_thn; [apply go_call; exact X|intro a; apply go_pure]|]. cbv beta. intros v a h v1 (r & h1 & v2 & h2 & -> & (-> & ->) & -> & -> & ->). exists r. auto.
Qed.
Lemma go_try : forall ws, may_fail (argv ws) -> goes (try sys ws) (fun v _ h v1 => exists a, h = [(argv ws, a)] /\ v1 = v).
Proof.
  intros ws X. unfold try. eapply goes_conseq; [apply goes_thn; [apply go_call; exact X|intro a; apply go_pure]|]. cbv beta. intros v a h v1 (r & h1 & v2 & h2 & -> & (-> & ->) & -> & -> & ->). exists r. auto.
Qed.
(** A command that must succeed, and its answer. *)
Lemma go_call_val : forall A c (k : answer -> Z) (f : answer -> A), ~ may_fail c -> (forall a, a_status a <> 0 -> k a = a_status a \/ (as_1 c /\ k a = 1)) ->
  goes (a <~ call sys c ;; if a_status a =? 0 then pure (f a) else quit (k a)) (fun v r h v1 => exists a, h = [(c, a)] /\ r = f a /\ v1 = v).
Proof.
  intros A c k f X K. split; [intro v; exists [(c, good_answer)]; left; exists (f good_answer), v, good_answer; auto|]. intro s. unfold thn, call. set (a := sys (s_hist s) c).
  assert (B : begins_so (fun v r h v1 => exists a, h = [(c, a)] /\ r = f a /\ v1 = v) no_G (s_vars s) [(c, a)]) by (exists []; left; exists (f a), (s_vars s), a; auto).
  destruct (a_signal a) as [st|] eqn:S.
  - exists [], (c, a). cbn [s_hist s_vars app]. split; [reflexivity|]. split; [constructor|]. split; [exact S|exact B].
  - destruct (Z.eqb_spec (a_status a) 0) as [E|E]; unfold pure, quit; cbn [s_hist s_vars].
    + exists [(c, a)]. split; [reflexivity|]. split; [constructor; [split; [exact S|left; exact E]|constructor]|]. exists a. auto.
    + right. exists [], (c, a). split; [reflexivity|]. split; [constructor|]. split; [|exact B]. split; [exact S|]. split; [exact X|]. split; [exact E|]. apply K, E.
Qed.
Lemma go_must_in : forall ws i, ~ may_fail (mk_cmd ws i) -> goes (must_in sys ws i) (fun v _ h v1 => exists a, h = [(mk_cmd ws i, a)] /\ v1 = v).
Proof. intros ws i X. eapply goes_conseq; [apply (go_call_val unit _ a_status (fun _ => tt)); [exact X|auto]|]. cbv beta. intros v a h v1 (b & -> & _ & ->). exists b. auto. Qed.
Lemma go_must : forall ws, ~ may_fail (argv ws) -> goes (must sys ws) (fun v _ h v1 => exists a, h = [(argv ws, a)] /\ v1 = v).
Proof. intros ws. apply go_must_in. Qed.
(** Loops. *)
Inductive Deach {A} (D : A -> V -> history -> V -> Prop) : list A -> V -> history -> V -> Prop :=
| de_nil : forall v, Deach D [] v [] v
| de_cons : forall x l v v1 v2 h h', D x v h v1 -> Deach D l v1 h' v2 -> Deach D (x :: l) v (h ++ h') v2.
Definition Geach {A} (D : A -> V -> history -> V -> Prop) (G : A -> Gn) (l : list A) : Gn := fun v h st v2 =>
  exists l1 x l2 h1 v1 h2, l = l1 ++ x :: l2 /\ h = h1 ++ h2 /\ Deach D l1 v h1 v1 /\ G x v1 h2 st v2.
Lemma go_each : forall A (f : A -> act V unit) D (G : A -> Gn) l, (forall x, In x l -> go (f x) (fun v _ h v1 => D x v h v1) (G x)) ->
  go (each f l) (fun v _ h v1 => Deach D l v h v1) (Geach D G l).
Proof.
  intros A f D G l. induction l as [|x l IH]; intro H; cbn [each].
  - eapply go_conseq; [apply go_pure| |intros v h st v1 []]. cbv beta. intros v a h v1 (_ & -> & ->). constructor.
  - eapply go_conseq; [apply go_thn; [apply H; left; reflexivity|intro; apply IH; intros y Hy; apply H; right; exact Hy]| |].
    + cbv beta. intros v a h v1 (r & h1 & v2 & h2 & -> & X & Y). econstructor; eassumption.
    + intros v h st v1 [X|(r & h1 & v2 & h2 & -> & X & (l1 & y & l2 & k1 & v3 & k2 & -> & -> & X1 & X2))].
      * exists [], x, l, [], v, h. split; [reflexivity|]. split; [reflexivity|]. split; [constructor|exact X].
      * exists (x :: l1), y, l2, (h1 ++ k1), v3, k2. split; [reflexivity|]. split; [rewrite app_assoc; reflexivity|]. split; [econstructor; eassumption|exact X2].
Qed.
Lemma goes_each : forall A (f : A -> act V unit) D l, (forall x, In x l -> goes (f x) (fun v _ h v1 => D x v h v1)) -> goes (each f l) (fun v _ h v1 => Deach D l v h v1).
Proof. intros A f D l H. eapply go_conseq; [apply (go_each A f D (fun _ => no_G)); exact H|auto|]. intros v h st v1 (l1 & x & l2 & h1 & v2 & h2 & _ & _ & _ & []). Qed.

(** ** Traps *)
(** A cleanup that starts with status [st0]. *)
Definition closed (D : Dn unit) (G : Gn) (v : V) (st0 : Z) (cl : history) (st : Z) : Prop :=
  (Forall fine cl /\ st = st0 /\ exists v1, D v tt cl v1) \/
  (Forall fine cl /\ exists v1, G v cl st v1) \/
  (exists h ev, cl = h ++ [ev] /\ Forall fine h /\ broke ev st /\ begins_so D G v cl) \/
  (exists h ev, cl = h ++ [ev] /\ Forall fine h /\ a_signal (snd ev) = Some st /\ begins_so D G v cl).
Lemma at_exit_closed : forall clean D G s st0 st H, go clean D G -> at_exit clean st0 s = (Some st, H) -> exists cl, H = s_hist s ++ cl /\ closed D G (s_vars s) st0 cl st.
Proof.
  intros clean D G s st0 st H [_ C] E. unfold at_exit in E. specialize (C s). destruct (clean s) as [[] s1|st1 s1|st1 s1|s1]; [| | |discriminate E]; injection E as <- <-.
  - destruct C as (h & -> & F & X). exists h. split; [reflexivity|]. left. eauto.
  - destruct C as [(h & -> & F & X)|(h & ev & -> & F & B & X)]; [exists h|exists (h ++ [ev])]; (split; [reflexivity|]); right; [left; eauto|right; left]. exists h, ev. auto.
  - destruct C as (h & ev & -> & F & B & X). exists (h ++ [ev]). split; [reflexivity|]. right. right. right. exists h, ev. auto.
Qed.
(** Ways a piece does not come to its end. *)
Definition stopped {A} (D : Dn A) (G : Gn) (v : V) (h : history) (st : Z) : Prop :=
  (Forall fine h /\ exists v1, G v h st v1) \/ (exists h1 ev, h = h1 ++ [ev] /\ Forall fine h1 /\ broke ev st /\ begins_so D G v h).
Definition hit {A} (D : Dn A) (G : Gn) (v : V) (h : history) (st : Z) : Prop := exists h1 ev, h = h1 ++ [ev] /\ Forall fine h1 /\ a_signal (snd ev) = Some st /\ begins_so D G v h.
Lemma region_cases : forall A (clean : act V unit) (body : act V A) k D G Dc Gc s st H, go body D G -> go clean Dc Gc -> region clean body k s = (Some st, H) ->
  (exists a s1 h, s_hist s1 = s_hist s ++ h /\ Forall fine h /\ D (s_vars s) a h (s_vars s1) /\ k a s1 = (Some st, H)) \/
  (exists h st0 v1 cl, H = s_hist s ++ h ++ cl /\ stopped D G (s_vars s) h st0 /\ closed Dc Gc v1 st0 cl st) \/
  (exists h st0 v1 v2 c1 c2 st1, H = s_hist s ++ h ++ c1 ++ c2 /\ hit D G (s_vars s) h st0 /\ closed Dc Gc v1 st0 c1 st1 /\ closed Dc Gc v2 st1 c2 st).
Proof.
  intros A clean body k D G Dc Gc s st H [_ B] C E. unfold region in E. specialize (B s). destruct (body s) as [a s1|st0 s1|st0 s1|s1]; [| | |discriminate E].
  - left. destruct B as (h & Eh & F & X). exists a, s1, h. auto.
  - right. left. destruct (at_exit_closed clean Dc Gc s1 st0 st H C E) as (cl & -> & X). destruct B as [(h & -> & F & Y)|(h & ev & -> & F & Hb & Y)].
    + exists h, st0, (s_vars s1), cl. rewrite <- app_assoc. split; [reflexivity|]. split; [left; eauto|exact X].
    + exists (h ++ [ev]), st0, (s_vars s1), cl. rewrite <- !app_assoc. split; [reflexivity|]. split; [right; exists h, ev; auto|exact X].
  - right. right. destruct B as (h & ev & Eh & F & Hs & Y).
    assert (Q : forall st1 s2 c1, s_hist s2 = s_hist s1 ++ c1 -> closed Dc Gc (s_vars s1) st0 c1 st1 -> at_exit clean st1 s2 = (Some st, H) ->
      exists h st0 v1 v2 c1 c2 st1, H = s_hist s ++ h ++ c1 ++ c2 /\ hit D G (s_vars s) h st0 /\ closed Dc Gc v1 st0 c1 st1 /\ closed Dc Gc v2 st1 c2 st).
    { intros st1 s2 c1 E2 X1 Ex. destruct (at_exit_closed clean Dc Gc s2 st1 st H C Ex) as (c2 & -> & X2). exists (h ++ [ev]), st0, (s_vars s1), (s_vars s2), c1, c2, st1.
      rewrite E2, Eh, <- !app_assoc. split; [reflexivity|]. split; [exists h, ev; auto|auto]. }
    pose proof (proj2 C s1) as W. destruct (clean s1) as [[] s2|st1 s2|st1 s2|s2]; [| | |discriminate E].
    + destruct W as (c1 & E2 & F2 & X). apply (Q st0 s2 c1 E2); [|exact E]. left. eauto.
    + destruct W as [(c1 & E2 & F2 & X)|(c1 & e1 & E2 & F2 & Hb & X)].
      * apply (Q st1 s2 c1 E2); [|exact E]. right. left. eauto.
      * apply (Q st1 s2 (c1 ++ [e1]) E2); [|exact E]. right. right. left. exists c1, e1. auto.
    + destruct W as (c1 & e1 & E2 & F2 & Hb & X). apply (Q st1 s2 (c1 ++ [e1]) E2); [|exact E]. right. right. right. exists c1, e1. auto.
Qed.
(** Without a trap a signal ends the script there. *)
Lemma no_trap_cases : forall A (body : act V A) k D G s st H, go body D G -> region (pure tt) body k s = (Some st, H) ->
  (exists a s1 h, s_hist s1 = s_hist s ++ h /\ Forall fine h /\ D (s_vars s) a h (s_vars s1) /\ k a s1 = (Some st, H)) \/
  (exists h, H = s_hist s ++ h /\ (stopped D G (s_vars s) h st \/ hit D G (s_vars s) h st)).
Proof.
  intros A body k D G s st H B E. destruct (region_cases A (pure tt) body k D G _ _ s st H B (go_pure unit tt) E) as [X|[X|X]]; [left; exact X| |].
  - right. destruct X as (h & st0 & v1 & cl & -> & S & C). exists h.
    assert (Q : cl = [] /\ st = st0).
    { destruct C as [(_ & -> & v2 & _ & -> & _)|[(_ & v2 & [])|[(h1 & ev & -> & _ & _ & q & [(a & v2 & _ & X & _)|(a & v2 & [])])|(h1 & ev & -> & _ & _ & q & [(a & v2 & _ & X & _)|(a & v2 & [])])]]].
      - auto.
      - exfalso. clear -X. destruct h1; discriminate X.
      - exfalso. clear -X. destruct h1; discriminate X. }
    destruct Q as [-> ->]. rewrite app_nil_r. auto.
  - right. destruct X as (h & st0 & v1 & v2 & c1 & c2 & st1 & -> & S & C1 & C2). exists h.
    assert (Q : forall v st0 cl st, closed (fun v b h v1 => b = tt /\ h = [] /\ v1 = v) no_G v st0 cl st -> cl = [] /\ st = st0).
    { clear. intros v st0 cl st [(_ & -> & v2 & _ & -> & _)|[(_ & v2 & [])|[(h1 & ev & -> & _ & _ & q & [(a & v2 & _ & X & _)|(a & v2 & [])])|(h1 & ev & -> & _ & _ & q & [(a & v2 & _ & X & _)|(a & v2 & [])])]]].
      - auto.
      - exfalso. destruct h1; discriminate X.
      - exfalso. destruct h1; discriminate X. }
    destruct (Q _ _ _ _ C1) as [-> ->]. destruct (Q _ _ _ _ C2) as [-> ->]. rewrite !app_nil_r. auto.
Qed.
End Goes.
Arguments closed {V}. Arguments stopped {V} may_fail as_1 {A}. Arguments hit {V} may_fail {A}. Arguments go {V} may_fail as_1 {A}. Arguments goes {V} may_fail as_1 {A}. Arguments begins_so {V A}. Arguments Deach {V A}. Arguments Geach {V A}. Arguments no_G {V}.
