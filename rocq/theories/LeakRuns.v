(** Programs of Leak.v of which every run from some intervals is defined, ends, and shows one and the same thing: put together from pieces,
    so that loops need not be run round by round. *)
From Coq Require Import String ZArith List Bool Lia.
From Verif Require Import Base Leak LeakProofs.
Import ListNotations.
Open Scope Z_scope.

(** Variables and arrays a program may change. *)
Fixpoint assigned (c : stmt) : list string :=
  match c with
  | Set_ _ x _ | Strlen x _ => [x]
  | Seq a b | If _ a b => (assigned a ++ assigned b)%list
  | While _ a => assigned a
  | _ => []
  end.

Lemma get_put_same : forall A (m : env A) x v, get (put m x v) x = Some v.
Proof.
  intros A m x v. induction m as [|[y w] m IH]; cbn [put get]; [rewrite String.eqb_refl; reflexivity|].
  destruct (String.eqb x y) eqn:E; cbn [get]; rewrite E; [reflexivity|exact IH].
Qed.
Lemma get_put_other : forall A (m : env A) x y v, x <> y -> get (put m x v) y = get m y.
Proof.
  intros A m x y v N. induction m as [|[z w] m IH]; cbn [put get].
  - destruct (String.eqb_spec y x); [congruence|reflexivity].
  - destruct (String.eqb_spec x z) as [->|Nz]; cbn [get]; [|rewrite IH; reflexivity]. destruct (String.eqb_spec y z); [congruence|reflexivity].
Qed.

Section Runs.
Variable sg : bool.
Variable fuel : nat.

Definition runs (A : astate) (c : stmt) (A1 : astate) : Prop :=
  exists T, forall s, within s A -> exists s1, exec sg fuel c s = Some (s1, None, T) /\ within s1 A1.
Definition decided (A : astate) (e : expr) (b : bool) : Prop :=
  exists T, forall s, within s A -> exists v, eval sg e s = Some (v, T) /\ negb (v =? 0) = b.

(** Inclusion. *)
Definition i_leq (i j : itv) : bool := (fst j <=? fst i) && (snd i <=? snd j).
Fixpoint all2 {A B} (f : A -> B -> bool) (l : list A) (m : list B) : bool :=
  match l, m with [], [] => true | x :: l', y :: m' => f x y && all2 f l' m' | _, _ => false end.
Definition leq (a b : astate) : bool :=
  all2 (fun p q => String.eqb (fst p) (fst q) && i_leq (snd p) (snd q)) (a_vars a) (a_vars b) &&
  all2 (fun p q => String.eqb (fst p) (fst q) && all2 i_leq (snd p) (snd q)) (a_arrays a) (a_arrays b).
Lemma i_leq_sound : forall v i j, i_leq i j = true -> inside v i -> inside v j.
Proof. intros v i j H Hv. unfold i_leq, inside in *. apply andb_true_iff in H. destruct H as [H1 H2]. apply Z.leb_le in H1, H2. lia. Qed.
Lemma i_leq_refl : forall i, i_leq i i = true.
Proof. intro i. unfold i_leq. rewrite !Z.leb_refl. reflexivity. Qed.
Lemma all2_F2 : forall A B C (R : A -> B -> Prop) (Q : A -> C -> Prop) (f : B -> C -> bool) l m n,
  (forall x y z, f y z = true -> R x y -> Q x z) -> all2 f m n = true -> Forall2 R l m -> Forall2 Q l n.
Proof.
  intros A B C R Q f l m n H E F. revert n E. induction F as [|x y l m Rxy F IH]; intros [|z n] E; cbn [all2] in E; try discriminate; constructor.
  - apply andb_true_iff in E. exact (H _ _ _ (proj1 E) Rxy).
  - apply andb_true_iff in E. exact (IH _ (proj2 E)).
Qed.
Lemma leq_sound : forall s a b, leq a b = true -> within s a -> within s b.
Proof.
  intros s a b H [W1 W2]. unfold leq in H. apply andb_true_iff in H. destruct H as [H1 H2]. split.
  - eapply all2_F2; [|exact H1|exact W1]. intros x y z E [K I]. cbn beta in E. apply andb_true_iff in E. destruct E as [E1 E2]. apply String.eqb_eq in E1. split; [congruence|exact (i_leq_sound _ _ _ E2 I)].
  - eapply all2_F2; [|exact H2|exact W2]. intros x y z E [K I]. cbn beta in E. apply andb_true_iff in E. destruct E as [E1 E2]. apply String.eqb_eq in E1. split; [congruence|].
    eapply all2_F2; [|exact E2|exact I]. intros v i j. apply i_leq_sound.
Qed.

Lemma runs_calc : forall A c A1, match a_exec sg fuel c A with Some (a, None, _) => leq a A1 | _ => false end = true -> runs A c A1.
Proof.
  intros A c A1 H. destruct (a_exec sg fuel c A) as [[[a [r|]] T]|] eqn:E; try discriminate. exists T. intros s W.
  destruct (a_exec_sound sg fuel c s A a None T W E) as (s1 & v & Es & W1 & Hv). destruct v as [v|]; [contradiction|]. exists s1. split; [exact Es|]. exact (leq_sound _ _ _ H W1).
Qed.
Lemma decided_calc : forall A e b, match a_eval sg e A with Some (i, _) => match truth i with Some c => Bool.eqb c b | None => false end | None => false end = true -> decided A e b.
Proof.
  intros A e b H. destruct (a_eval sg e A) as [[i T]|] eqn:E; [|discriminate]. destruct (truth i) as [c|] eqn:Et; [|discriminate]. apply eqb_prop in H. subst c.
  exists T. intros s W. destruct (a_eval_sound sg e s A i T W E) as (v & Ev & Hv). exists v. split; [exact Ev|exact (truth_sound _ _ _ Et Hv)].
Qed.
Lemma runs_seq : forall A B C c d, runs A c B -> runs B d C -> runs A (Seq c d) C.
Proof.
  intros A B C c d (T1 & H1) (T2 & H2). exists (T1 ++ T2)%list. intros s W. destruct (H1 s W) as (s1 & E1 & W1). destruct (H2 s1 W1) as (s2 & E2 & W2).
  exists s2. cbn [exec]. rewrite E1, E2. split; [reflexivity|exact W2].
Qed.
Lemma runs_skip : forall A, runs A Skip A.
Proof. intro A. exists []. intros s W. exists s. split; [reflexivity|exact W]. Qed.
Lemma runs_weaken : forall A A1 B B1 c, runs A c B -> leq A1 A = true -> leq B B1 = true -> runs A1 c B1.
Proof.
  intros A A1 B B1 c (T & H) L1 L2. exists T. intros s W. destruct (H s (leq_sound _ _ _ L1 W)) as (s1 & E & W1). exists s1. split; [exact E|exact (leq_sound _ _ _ L2 W1)].
Qed.
Lemma exec_app : forall l1 l2 s s1 T1 s2 T2, exec sg fuel (block l1) s = Some (s1, None, T1) -> exec sg fuel (block l2) s1 = Some (s2, None, T2) -> exec sg fuel (block (l1 ++ l2)) s = Some (s2, None, T1 ++ T2)%list.
Proof.
  intro l1. induction l1 as [|c l1 IH]; intros l2 s s1 T1 s2 T2 E1 E2; cbn [block fold_right app] in *.
  - cbn [exec] in E1. injection E1 as <- <-. exact E2.
  - cbn [exec] in E1 |- *. destruct (exec sg fuel c s) as [[[s3 [r|]] l]|]; try discriminate. change (fold_right Seq Skip l1) with (block l1) in E1. destruct (exec sg fuel (block l1) s3) as [[[s4 r4] l4]|] eqn:E3; [|discriminate].
    injection E1 as <- -> <-. change (fold_right Seq Skip (l1 ++ l2)) with (block (l1 ++ l2)). rewrite (IH _ _ _ _ _ _ E3 E2). rewrite app_assoc. reflexivity.
Qed.
Lemma runs_app : forall A B C l1 l2, runs A (block l1) B -> runs B (block l2) C -> runs A (block (l1 ++ l2)) C.
Proof.
  intros A B C l1 l2 (T1 & H1) (T2 & H2). exists (T1 ++ T2)%list. intros s W. destruct (H1 s W) as (s1 & E1 & W1). destruct (H2 s1 W1) as (s2 & E2 & W2). exists s2. split; [exact (exec_app _ _ _ _ _ _ _ E1 E2)|exact W2].
Qed.
(** Loops. *)
Definition rounds (n : nat) (A : astate) (e : expr) (c : stmt) (A1 : astate) : Prop :=
  exists T, forall m s, (n <= m)%nat -> within s A -> exists s1, loop (eval sg e) (exec sg fuel c) m s = Some (s1, None, T) /\ within s1 A1.
Lemma rounds_done : forall A e c, decided A e false -> rounds 1 A e c A.
Proof.
  intros A e c (T & H). exists (T ++ [SawBranch false])%list. intros m s L W. destruct m as [|m]; [lia|]. destruct (H s W) as (v & Ev & Hv). exists s. cbn [loop]. rewrite Ev.
  destruct (v =? 0); [|discriminate]. split; [reflexivity|exact W].
Qed.
Lemma rounds_more : forall n A B C e c, decided A e true -> runs A c B -> rounds n B e c C -> rounds (S n) A e c C.
Proof.
  intros n A B C e c (T & H) (T1 & H1) (T2 & H2). exists (T ++ [SawBranch true] ++ T1 ++ T2)%list. intros m s L W. destruct m as [|m]; [lia|]. destruct (H s W) as (v & Ev & Hv).
  destruct (H1 s W) as (s1 & E1 & W1). destruct (H2 m s1 ltac:(lia) W1) as (s2 & E2 & W2). exists s2. cbn [loop]. rewrite Ev. destruct (v =? 0); [discriminate|]. rewrite E1, E2. split; [reflexivity|exact W2].
Qed.
Lemma runs_while : forall n A e c A1, rounds n A e c A1 -> (n <= fuel)%nat -> runs A (While e c) A1.
Proof. intros n A e c A1 (T & H) L. exists T. intros s W. exact (H fuel s L W). Qed.
(** A loop counted down. *)
Lemma rounds_down : forall (B : nat -> astate) e c n, decided (B O) e false -> (forall k, (k < n)%nat -> decided (B (S k)) e true /\ runs (B (S k)) c (B k)) -> rounds (S n) (B n) e c (B O).
Proof.
  intros B e c n H0 H. induction n as [|n IH]; [apply rounds_done; exact H0|]. destruct (H n ltac:(lia)) as [H1 H2]. eapply rounds_more; [exact H1|exact H2|]. apply IH. intros k L. apply H. lia.
Qed.

(** What a program does not assign stays. *)
Lemma exec_frame : forall c s s1 r l x, exec sg fuel c s = Some (s1, r, l) -> ~ In x (assigned c) -> get (st_vars s1) x = get (st_vars s) x.
Proof.
  intro c. induction c as [|t y e|t b i e|c1 IH1 c2 IH2|e c1 IH1 c2 IH2|e c1 IH1|y b|e]; intros s s1 r l x E N; cbn [exec assigned] in *.
  - congruence.
  - destruct (eval sg e s) as [[v l1]|]; [|discriminate]. destruct (fits sg t v) as [z|]; [|discriminate]. injection E as <- <- <-. cbn [st_vars]. apply get_put_other. intro Hx. apply N. left. exact Hx.
  - destruct (eval sg i s) as [[n l1]|]; [|discriminate]. destruct (eval sg e s) as [[v l2]|]; [|discriminate]. destruct (get (st_arrays s) b) as [cs|]; [|discriminate]. destruct (andb _ _); [|discriminate]. injection E as <- <- <-. reflexivity.
  - rewrite in_app_iff in N. destruct (exec sg fuel c1 s) as [[[s2 r2] l2]|] eqn:E1; [|discriminate]. assert (G1 := IH1 _ _ _ _ x E1 ltac:(tauto)). destruct r2 as [q|]; [congruence|].
    destruct (exec sg fuel c2 s2) as [[[s3 r3] l3]|] eqn:E2; [|discriminate]. assert (G2 := IH2 _ _ _ _ x E2 ltac:(tauto)). congruence.
  - rewrite in_app_iff in N. destruct (eval sg e s) as [[v l1]|]; [|discriminate]. cbv zeta in E. destruct (negb (v =? 0)).
    + destruct (exec sg fuel c1 s) as [[[s2 r2] l2]|] eqn:E1; [|discriminate]. assert (G1 := IH1 _ _ _ _ x E1 ltac:(tauto)). congruence.
    + destruct (exec sg fuel c2 s) as [[[s2 r2] l2]|] eqn:E1; [|discriminate]. assert (G1 := IH2 _ _ _ _ x E1 ltac:(tauto)). congruence.
  - revert s l E. generalize fuel at 2. intro n. induction n as [|n IH]; intros s l E; cbn [loop] in E; [discriminate|]. destruct (eval sg e s) as [[v l1]|]; [|discriminate].
    destruct (v =? 0); [congruence|]. destruct (exec sg fuel c1 s) as [[[s2 r2] l2]|] eqn:E1; [|discriminate]. assert (G1 := IH1 _ _ _ _ x E1 N). destruct r2 as [q|]; [congruence|].
    destruct (loop (eval sg e) (exec sg fuel c1) n s2) as [[[s3 r3] l3]|] eqn:El; [|discriminate]. assert (s1 = s3) by congruence. assert (r = r3) by congruence. subst s3 r3. rewrite (IH s2 l3 El). exact G1.
  - destruct (get (st_arrays s) b) as [cs|]; [|discriminate]. destruct (strlen_of cs) as [n|]; [|discriminate]. injection E as <- <- <-. cbn [st_vars]. apply get_put_other. intro Hx. apply N. left. exact Hx.
  - destruct (eval sg e s) as [[v l1]|]; [|discriminate]. congruence.
Qed.
(** So what is known of such a variable stays known. *)
Definition know (a : astate) (x : string) (i : itv) : astate := mk_astate (put (a_vars a) x i) (a_arrays a).
Definition may (a : astate) (x : string) (i : itv) : Prop := exists j, get (a_vars a) x = Some j /\ i_leq i j = true.
Lemma agree_know : forall m am x i v, agree inside m am -> get m x = Some v -> inside v i -> agree inside m (put am x i).
Proof.
  intros m am x i v H. induction H as [|[y z] [y1 j] m am [E Hz] F IH]; cbn [get put]; [discriminate|]. cbn [fst snd] in *. subst y1. destruct (String.eqb x y); intros G Hv.
  - injection G as ->. constructor; [split; [reflexivity|exact Hv]|exact F].
  - constructor; [split; [reflexivity|exact Hz]|exact (IH G Hv)].
Qed.
Lemma agree_forget : forall m am x i j, agree inside m (put am x i) -> get am x = Some j -> i_leq i j = true -> agree inside m am.
Proof.
  intros m am x i j. revert m. induction am as [|[y k] am IH]; intros m H G L; cbn [get put] in *; [discriminate|]. destruct (String.eqb x y).
  - injection G as ->. inversion H as [|[y1 z] q m1 q1 [E Hz] F]; subst. constructor; [|exact F]. split; [exact E|]. cbn [snd] in *. exact (i_leq_sound _ _ _ L Hz).
  - inversion H as [|[y1 z] q m1 q1 [E Hz] F]; subst. constructor; [split; [exact E|exact Hz]|]. exact (IH _ F G L).
Qed.
Lemma agree_get_back : forall m am x i, agree inside m (put am x i) -> exists v, get m x = Some v /\ inside v i.
Proof. intros m am x i H. apply (agree_get _ _ inside m (put am x i) x i H). apply get_put_same. Qed.
Lemma runs_frame : forall A c A1 x i, runs A c A1 -> ~ In x (assigned c) -> may A x i -> runs (know A x i) c (know A1 x i).
Proof.
  intros A c A1 x i (T & H) N (j & Gj & Lj). exists T. intros s [W1 W2]. cbn [know a_vars a_arrays] in *. destruct (agree_get_back _ _ _ _ W1) as (v & Gv & Hv).
  assert (W : within s A) by (split; [exact (agree_forget _ _ _ _ _ W1 Gj Lj)|exact W2]). destruct (H s W) as (s1 & E & W3 & W4). exists s1. split; [exact E|].
  split; [|exact W4]. cbn [know a_vars]. apply agree_know with (v := v); [exact W3| |exact Hv]. rewrite (exec_frame _ _ _ _ _ x E N). exact Gv.
Qed.
(** Knowing less. *)
Lemma runs_forget : forall A c A1 x i, runs A c (know A1 x i) -> may A1 x i -> runs A c A1.
Proof.
  intros A c A1 x i (T & H) (j & Gj & Lj). exists T. intros s W. destruct (H s W) as (s1 & E & W1 & W2). exists s1. split; [exact E|]. split; [|exact W2]. exact (agree_forget _ _ _ _ _ W1 Gj Lj).
Qed.
End Runs.
