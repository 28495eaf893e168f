(** The programs of LeakCurve.v compute the functions of Curve.v: sequences of operations, loops, the whole. *)
From Coq Require Import String ZArith List Bool Lia.
From Verif Require Import Base Keys Curve Leak LeakProofs LeakRuns LeakValue LeakSym LeakNice LeakCurve LeakCurveOps.
Import ListNotations.
Open Scope string_scope.
Open Scope list_scope.
Open Scope Z_scope.

Section Value.
Variable sg : bool.
Notation vx := (v_exec sg 101).
(** ** Sequences *)
Definition op_vars (x : option string) (o : op) : bool := match op_var o, x with None, _ => true | Some y, Some x => String.eqb x y | Some _, None => false end.
Definition ops_sem (b : Z) (l : list op) (m : list fe) : list fe := fold_left (fun m o => op_sem b o m) l m.
Definition names_free (x : option string) (c : stmt) : bool := match x with Some x => negb (existsb (String.eqb x) (assigned c)) | None => true end.
Lemma free_var : forall x c s b s1, names_free x c = true -> is_var s x b -> vx c s = (s1, None) -> is_var s1 x b.
Proof.
  intros [x|] c s b s1 F V E; [|exact I]. cbn [is_var names_free] in *. pose proof (v_frame sg 101 c s x) as H. rewrite E in H. cbn [fst] in H. rewrite H; [exact V|]. intro K.
  apply negb_true_iff in F. assert (existsb (String.eqb x) (assigned c) = true); [|congruence]. apply existsb_exists. exists x. split; [exact K|apply String.eqb_refl].
Qed.
Definition checks (x : option string) (l : list op) : bool := forallb (fun o => check o && op_vars x o && names_free x (op_prog o)) l.
Theorem ops_sound : forall x l s b, checks x l = true -> good s -> is_var s x b -> 0 <= b < 256 ->
  exists s1, vx (block (map op_prog l)) s = (s1, None) /\ good s1 /\ mem s1 = ops_sem b l (mem s) /\ is_var s1 x b.
Proof.
  intros x l. induction l as [|o l IH]; intros s b C G V Hb.
  - exists s. repeat split; assumption.
  - cbn [checks forallb] in C. apply andb_true_iff in C. destruct C as [C C4]. apply andb_true_iff in C. destruct C as [C C3]. apply andb_true_iff in C. destruct C as [C1 C2].
    assert (V1 : is_var s (op_var o) b).
    { unfold op_vars in C2. destruct (op_var o) as [y|]; [|exact I]. destruct x as [x|]; [|discriminate]. apply String.eqb_eq in C2. rewrite <- C2. exact V. }
    destruct (op_sound sg o s b C1 G V1 Hb) as (s1 & E1 & G1 & M1). pose proof (free_var _ _ _ _ _ C3 V E1) as V2.
    destruct (IH s1 b C4 G1 V2 Hb) as (s2 & E2 & G2 & M2 & V3). exists s2. split.
    + cbn [map block fold_right v_exec]. rewrite E1. exact E2.
    + split; [exact G2|]. split; [|exact V3]. rewrite M2, M1. reflexivity.
Qed.

(** ** A step of the ladder *)
Definition add_ops (p q : nat) : list op :=
  [OZero 8 8; OCopy 8 p; OSum p (p + 1); ODiff (p + 1) 8; OCopy 9 (p + 2); OSum (p + 2) (p + 3); ODiff (p + 3) 9; OMul 13 (p + 2) (p + 1); OMul 14 p (p + 3); OCopy 9 13; OSum 13 14; ODiff 14 9;
   OSq (q + 2) 13; OSq 15 14; OMul (q + 3) 15 16; OSq 11 p; OSq 12 (p + 1); OMul q 11 12; ODiff 12 11; OScal 10 12; OSum 10 11; OMul (q + 1) 10 12].
Definition step_ops (p q : nat) (byt : string) : list op := OSwap p (p + 2) "bit0" byt :: add_ops p q ++ [OSwap q (q + 2) "bit" byt].
Definition pt (m : list fe) (i : nat) : point := Pt (m_ m i) (m_ m (S i)).
(** What a step does to the slots. *)
Definition stepped (p q : nat) (b : Z) (m m1 : list fe) : Prop :=
  let r := small_step (pt m p) (pt m (p + 2)) (m_ m 16) b in
  pt m1 p = fst (fst r) /\ pt m1 (p + 2) = snd (fst r) /\ pt m1 q = fst (snd r) /\ pt m1 (q + 2) = snd (snd r) /\ forall i, (16 <= i < 27)%nat -> m_ m1 i = m_ m i.
Lemma slots27 : forall m : list fe, length m = slots -> exists x0 x1 x2 x3 x4 x5 x6 x7 x8 x9 x10 x11 x12 x13 x14 x15 x16 x17 x18 x19 x20 x21 x22 x23 x24 x25 x26,
  m = [x0; x1; x2; x3; x4; x5; x6; x7; x8; x9; x10; x11; x12; x13; x14; x15; x16; x17; x18; x19; x20; x21; x22; x23; x24; x25; x26].
Proof. intros m H. unfold slots in H. do 27 (destruct m as [|? m]; [discriminate|]). destruct m; [|discriminate]. repeat eexists. Qed.
Ltac slots_of m H := destruct (slots27 m H) as (x0 & x1 & x2 & x3 & x4 & x5 & x6 & x7 & x8 & x9 & x10 & x11 & x12 & x13 & x14 & x15 & x16 & x17 & x18 & x19 & x20 & x21 & x22 & x23 & x24 & x25 & x26 & ->).
Ltac sim_slots := lazy -[fmul fsum fdifference fscalar Curve.fsquare_times swap_points Z.shiftr]; reflexivity.
Ltac step_slots :=
  let m := fresh in let b := fresh in let H := fresh in intros m b H; slots_of m H; unfold stepped; cbv zeta;
  split; [sim_slots|split; [sim_slots|split; [sim_slots|split; [sim_slots|]]]]; intros i [R1 R2]; do 27 (destruct i as [|i]; [first [sim_slots|exfalso; clear - R1; lia]|]); exfalso; clear - R2; lia.
Lemma add_0_4 : forall m b, length m = slots -> stepped 0 4 b m (ops_sem b (step_ops 0 4 "byt") m).
Proof. step_slots. Qed.
Lemma add_4_0 : forall m b, length m = slots -> stepped 4 0 b m (ops_sem b (step_ops 4 0 "byt1") m).
Proof. step_slots. Qed.
Lemma checks_0_4 : checks (Some "byt") (step_ops 0 4 "byt") = true.
Proof. vm_compute. reflexivity. Qed.
Lemma checks_4_0 : checks (Some "byt1") (step_ops 4 0 "byt1") = true.
Proof. vm_compute. reflexivity. Qed.

(** Grouping does not matter. *)
Fixpoint flat (c : stmt) : list stmt := match c with Seq a b => flat a ++ flat b | Skip => [] | _ => [c] end.
Lemma v_block_app : forall l1 l2 s, vx (block (l1 ++ l2)) s = match vx (block l1) s with (s1, Some r) => (s1, Some r) | (s1, None) => vx (block l2) s1 end.
Proof.
  intro l1. induction l1 as [|c l1 IH]; intros l2 s; cbn [block fold_right app v_exec]; [reflexivity|]. destruct (vx c s) as [s1 [r|]]; [reflexivity|]. exact (IH l2 s1).
Qed.
Lemma v_flat : forall c s, vx c s = vx (block (flat c)) s.
Proof.
  intro c. induction c as [|t y e|t b i e|c1 IH1 c2 IH2|e c1 IH1 c2 IH2|e c1 IH1|y b|e]; intro s; cbn [flat]; try (rewrite v_one; reflexivity); [reflexivity|].
  rewrite v_block_app. cbn [v_exec]. rewrite <- IH1. destruct (vx c1 s) as [s1 [r|]]; [reflexivity|]. apply IH2.
Qed.
Lemma v_same : forall c d, flat c = flat d -> forall s, vx c s = vx d s.
Proof. intros c d E s. rewrite (v_flat c), (v_flat d), E. reflexivity. Qed.
Lemma v_cons : forall c l s, vx (block (c :: l)) s = match vx c s with (s1, Some r) => (s1, Some r) | (s1, None) => vx (block l) s1 end.
Proof. reflexivity. Qed.
Lemma v_seq : forall a b s, vx (Seq a b) s = match vx a s with (s1, Some r) => (s1, Some r) | (s1, None) => vx b s1 end.
Proof. reflexivity. Qed.
Lemma v_set : forall t x e s, vx (Set_ t x e) s = (mk_state (put (st_vars s) x (v_fits t (value sg e s))) (st_arrays s), None).
Proof. reflexivity. Qed.
Lemma v_while : forall e c s, vx (While e c) s = v_loop (value sg e) (vx c) 101 s.
Proof. reflexivity. Qed.
Definition nq_ : ptr := ("pbuf", 0). Definition nqpq_ : ptr := ("pbuf", 10). Definition nq2_ : ptr := ("pbuf", 20). Definition nqpq2_ : ptr := ("pbuf", 30). Definition q_ : ptr := ("buf0", 0).
Lemma small_same : forall s, vx (small_step_ nq_ nqpq_ nq2_ nqpq2_ q_ "byt") s = vx (block (map op_prog (step_ops 0 4 "byt"))) s.
Proof. apply v_same. vm_compute. reflexivity. Qed.
Lemma small_same2 : forall s, vx (small_step_ nq2_ nqpq2_ nq_ nqpq_ q_ "byt1") s = vx (block (map op_prog (step_ops 4 0 "byt1"))) s.
Proof. apply v_same. vm_compute. reflexivity. Qed.
Definition lad (m : list fe) : ladder := Lad (pt m 0) (pt m 2) (pt m 4) (pt m 6).
Definition double : stmt := double_step_ nq_ nqpq_ nq2_ nqpq2_ q_ "byt".
Definition rest_same (m m1 : list fe) : Prop := forall i, (16 <= i < 27)%nat -> m_ m1 i = m_ m i.
Lemma double_v : forall s b, good s -> get (st_vars s) "byt" = Some b -> 0 <= b < 256 ->
  exists s1, vx double s = (s1, None) /\ good s1 /\ lad (mem s1) = double_step (lad (mem s)) (m_ (mem s) 16) b /\ rest_same (mem s) (mem s1).
Proof.
  intros s b G V Hb. unfold double, double_step_. rewrite v_cons, small_same.
  destruct (ops_sound (Some "byt") (step_ops 0 4 "byt") s b checks_0_4 G V Hb) as (s1 & E1 & G1 & M1 & V1). rewrite E1. cbn [is_var] in V1. rewrite v_cons, v_set.
  set (s1' := mk_state _ _). assert (V2 : get (st_vars s1') "byt1" = Some (u8 (Z.shiftl b 1))).
  { unfold s1'. cbn [st_vars]. rewrite get_put_same. cbn [value v v_fits v_exact]. unfold lookup_. rewrite V1. reflexivity. }
  assert (G2 : good s1') by (intros a d Hd; exact (G1 a d Hd)). assert (M2 : mem s1' = mem s1) by reflexivity. clearbody s1'. rewrite v_one, small_same2.
  assert (B2 : 0 <= u8 (Z.shiftl b 1) < 256) by (unfold u8; apply Z.mod_pos_bound; lia).
  destruct (ops_sound (Some "byt1") (step_ops 4 0 "byt1") s1' _ checks_4_0 G2 V2 B2) as (s2 & E2 & G3 & M3 & _). rewrite E2. exists s2. split; [reflexivity|]. split; [exact G3|].
  pose proof (add_0_4 (mem s) b (mem_length s G)) as P1. rewrite <- M1 in P1. rewrite M2 in M3. pose proof (add_4_0 (mem s1) (u8 (Z.shiftl b 1)) (mem_length s1 G1)) as P2. rewrite <- M3 in P2.
  destruct P1 as (A1 & A2 & A3 & A4 & A5). destruct P2 as (B1 & B3 & B4 & B5 & B6). cbn [Nat.add] in *. split.
  - unfold double_step, lad. cbn [nq nqpq nq2 nqpq2]. rewrite (A5 16%nat) in B1, B3, B4, B5 by lia. rewrite A3, A4 in B1, B3, B4, B5. rewrite B1, B3, B4, B5.
    destruct (small_step (pt (mem s) 0) (pt (mem s) 2) (m_ (mem s) 16) b) as [[r1 r2] r3]. cbn [fst snd]. destruct (small_step (fst r3) (snd r3) (m_ (mem s) 16) (u8 (Z.shiftl b 1))) as [[r4 r5] r6]. reflexivity.
  - intros i Hi. rewrite (B6 i Hi). exact (A5 i Hi).
Qed.

(** ** The loops *)
Lemma keeps_var : forall c s s1 x, existsb (String.eqb x) (assigned c) = false -> vx c s = (s1, None) -> get (st_vars s1) x = get (st_vars s) x.
Proof.
  intros c s s1 x F E. pose proof (v_frame sg 101 c s x) as H. rewrite E in H. apply H. intro K. assert (existsb (String.eqb x) (assigned c) = true); [|congruence]. apply existsb_exists. exists x. split; [exact K|apply String.eqb_refl].
Qed.
Lemma keeps_array : forall c s s1 x, existsb (String.eqb x) (written c) = false -> vx c s = (s1, None) -> get (st_arrays s1) x = get (st_arrays s) x.
Proof.
  intros c s s1 x F E. pose proof (v_frame_arrays sg 101 c s x) as H. rewrite E in H. apply H. intro K. assert (existsb (String.eqb x) (written c) = true); [|congruence]. apply existsb_exists. exists x. split; [exact K|apply String.eqb_refl].
Qed.
Definition small_body_ : stmt := block [double; Set_ U8 "byt" (Bin I32 Shl (v "byt") (Lit 2))].
Definition dec_ (x : string) : stmt := Set_ U32 x (Bin U32 Sub (Var x) (Lit 1)).
Definition cond_ (x : string) : expr := Bin U32 Ne (Var x) (Lit 0).
Lemma cond_val : forall x s n, get (st_vars s) x = Some n -> 0 <= n < 2 ^ 32 -> value sg (cond_ x) s = (if n =? 0 then 0 else 1).
Proof. intros x s n V H. cbn [cond_ value v_fits v_exact stored]. unfold lookup_. rewrite V. unfold u32. rewrite (Z.mod_small n) by exact H. change (0 mod 2 ^ 32) with 0. destruct (n =? 0); reflexivity. Qed.
Lemma dec_v : forall x s n, get (st_vars s) x = Some n -> 0 < n < 2 ^ 32 -> vx (dec_ x) s = (mk_state (put (st_vars s) x (n - 1)) (st_arrays s), None).
Proof.
  intros x s n V H. cbn [dec_ v_exec value v_fits v_exact stored]. unfold lookup_. rewrite V. unfold u32. rewrite (Z.mod_small n) by lia. change (1 mod 2 ^ 32) with 1. rewrite !(Z.mod_small (n - 1)) by lia. reflexivity.
Qed.
Lemma good_vars : forall s vs, good s -> good (mk_state vs (st_arrays s)).
Proof. intros s vs G a d H. exact (G a d H). Qed.
Lemma small_loop_v : forall n k s b, (n < k)%nat -> Z.of_nat n < 2 ^ 32 -> good s -> get (st_vars s) "byt" = Some b -> 0 <= b < 256 -> get (st_vars s) "sli" = Some (Z.of_nat n) ->
  exists s1, v_loop (value sg (cond_ "sli")) (vx (Seq (dec_ "sli") small_body_)) k s = (s1, None) /\ good s1 /\ lad (mem s1) = small_loop (lad (mem s)) (m_ (mem s) 16) b n /\ rest_same (mem s) (mem s1).
Proof.
  intro n. induction n as [|n IH]; intros k s b Hk Hn G V Hb W; (destruct k as [|k]; [lia|]); cbn [v_loop]; rewrite (cond_val _ _ _ W) by lia.
  - exists s. repeat split; assumption.
  - replace (Z.of_nat (S n) =? 0) with false by (symmetry; apply Z.eqb_neq; lia). cbv iota. change (1 =? 0) with false. cbv iota. rewrite v_seq. rewrite (dec_v _ _ _ W) by lia.
    set (s0 := mk_state _ _). assert (G0 : good s0) by (apply good_vars; exact G). assert (V0 : get (st_vars s0) "byt" = Some b) by (unfold s0; cbn [st_vars]; rewrite get_put_other by discriminate; exact V).
    assert (W0 : get (st_vars s0) "sli" = Some (Z.of_nat n)) by (unfold s0; cbn [st_vars]; rewrite get_put_same; f_equal; lia). assert (M0 : mem s0 = mem s) by reflexivity. clearbody s0.
    destruct (double_v s0 b G0 V0 Hb) as (s1 & E1 & G1 & L1 & R1). unfold small_body_ at 1. rewrite v_cons, E1, v_one, v_set.
    pose proof (keeps_var double s0 s1 "byt" ltac:(vm_compute; reflexivity) E1) as K1. rewrite V0 in K1. pose proof (keeps_var double s0 s1 "sli" ltac:(vm_compute; reflexivity) E1) as K2. rewrite W0 in K2.
    set (s2 := mk_state _ _). assert (G2 : good s2) by (apply good_vars; exact G1). assert (M2 : mem s2 = mem s1) by reflexivity.
    assert (V2 : get (st_vars s2) "byt" = Some (u8 (Z.shiftl b 2))) by (unfold s2; cbn [st_vars]; rewrite get_put_same; cbn [value v v_fits v_exact]; unfold lookup_; rewrite K1; reflexivity).
    assert (W2 : get (st_vars s2) "sli" = Some (Z.of_nat n)) by (unfold s2; cbn [st_vars]; rewrite get_put_other by discriminate; exact K2). clearbody s2.
    destruct (IH k s2 (u8 (Z.shiftl b 2)) ltac:(lia) ltac:(lia) G2 V2 ltac:(unfold u8; apply Z.mod_pos_bound; lia) W2) as (s3 & E3 & G3 & L3 & R3). exists s3. split; [exact E3|]. split; [exact G3|]. split.
    + rewrite L3, M2, L1, M0. cbn [small_loop]. rewrite (R1 16%nat) by lia. rewrite M0. reflexivity.
    + intros i Hi. rewrite (R3 i Hi), M2, (R1 i Hi), M0. reflexivity.
Qed.
Definition small : stmt := small_loop_ nq_ nqpq_ nq2_ nqpq2_ q_.
Lemma small_v : forall s b, good s -> get (st_vars s) "byt" = Some b -> 0 <= b < 256 -> get (st_vars s) "sli" = Some 4 ->
  exists s1, vx small s = (s1, None) /\ good s1 /\ lad (mem s1) = small_loop (lad (mem s)) (m_ (mem s) 16) b 4 /\ rest_same (mem s) (mem s1).
Proof.
  intros s b G V Hb W. destruct (small_loop_v 4 101 s b ltac:(lia) ltac:(lia) G V Hb W) as (s1 & E & G1 & L & R).
  unfold small, small_loop_, while_dec. fold double. fold small_body_. fold (dec_ "sli"). fold (cond_ "sli"). rewrite v_seq, v_while, E. unfold dec_. rewrite v_set. eexists. split; [reflexivity|]. split; [apply good_vars; exact G1|]. split; [exact L|exact R].
Qed.
Definition round_ : stmt := block [Set_ U8 "byte" (ld_ U8 ("e", 0) (v "bli")); Set_ U8 "byt" (v "byte"); Set_ U32 "sli" (Lit 4); small].
Lemma big_loop_v : forall n k s e, (n < k)%nat -> (n <= 32)%nat -> good s -> get (st_arrays s) "e" = Some e -> length e = 32%nat -> Forall (fun c => 0 <= c < 256) e -> get (st_vars s) "bli" = Some (Z.of_nat n) ->
  exists s1, v_loop (value sg (cond_ "bli")) (vx (Seq (dec_ "bli") round_)) k s = (s1, None) /\ good s1 /\ lad (mem s1) = big_loop e (lad (mem s)) (m_ (mem s) 16) n /\ rest_same (mem s) (mem s1).
Proof.
  intro n. induction n as [|n IH]; intros k s e Hk Hn G V Le Hb W; (destruct k as [|k]; [lia|]); cbn [v_loop]; rewrite (cond_val _ _ _ W) by lia.
  - exists s. repeat split; assumption.
  - replace (Z.of_nat (S n) =? 0) with false by (symmetry; apply Z.eqb_neq; lia). cbv iota. change (1 =? 0) with false. cbv iota. rewrite v_seq. rewrite (dec_v _ _ _ W) by lia.
    set (s0 := mk_state _ _). assert (G0 : good s0) by (apply good_vars; exact G). assert (V0 : get (st_arrays s0) "e" = Some e) by exact V.
    assert (W0 : get (st_vars s0) "bli" = Some (Z.of_nat n)) by (unfold s0; cbn [st_vars]; rewrite get_put_same; f_equal; lia). assert (M0 : mem s0 = mem s) by reflexivity. clearbody s0.
    assert (Bn : 0 <= nth n e 0 < 256) by (rewrite Forall_forall in Hb; apply Hb; apply nth_In; lia).
    assert (E0 : vx round_ s0 = vx small (mk_state (put (put (put (st_vars s0) "byte" (nth n e 0)) "byt" (nth n e 0)) "sli" 4) (st_arrays s0))).
    { unfold round_. rewrite v_cons, v_set, v_cons, v_set, v_cons, v_set, v_one. cbn [value ld_ v fst snd v_fits v_exact stored loaded st_vars st_arrays]. unfold lookup_. rewrite W0, V0.
      assert (Z1 : u64 (u64 0 + u64 (Z.of_nat n)) = Z.of_nat n) by (unfold u64; change (0 mod 2 ^ 64) with 0; rewrite (Z.mod_small (Z.of_nat n)) by lia; apply Z.mod_small; lia). rewrite Z1, Nat2Z.id. rewrite get_put_same.
      assert (Z2 : u8 (nth n e 0) = nth n e 0) by (unfold u8; apply Z.mod_small; lia). rewrite !Z2. reflexivity. }
    rewrite E0. set (s1 := mk_state _ _). assert (G1 : good s1) by (apply good_vars; exact G0). assert (M1 : mem s1 = mem s0) by reflexivity.
    assert (V1 : get (st_vars s1) "byt" = Some (nth n e 0)) by (unfold s1; cbn [st_vars]; rewrite get_put_other by discriminate; apply get_put_same).
    assert (W1 : get (st_vars s1) "sli" = Some 4) by (unfold s1; cbn [st_vars]; apply get_put_same).
    assert (A1 : get (st_arrays s1) "e" = Some e) by exact V0.
    assert (I1 : get (st_vars s1) "bli" = Some (Z.of_nat n)) by (unfold s1; cbn [st_vars]; rewrite !get_put_other by discriminate; exact W0). clearbody s1.
    destruct (small_v s1 (nth n e 0) G1 V1 Bn W1) as (s2 & E2 & G2 & L2 & R2). rewrite E2.
    pose proof (keeps_var small s1 s2 "bli" ltac:(vm_compute; reflexivity) E2) as K1. rewrite I1 in K1. pose proof (keeps_array small s1 s2 "e" ltac:(vm_compute; reflexivity) E2) as K2. rewrite A1 in K2.
    destruct (IH k s2 e ltac:(lia) ltac:(lia) G2 K2 Le Hb K1) as (s3 & E3 & G3 & L3 & R3). exists s3. split; [exact E3|]. split; [exact G3|]. split.
    + rewrite L3, L2, (R2 16%nat), M1, M0 by lia. reflexivity.
    + intros i Hi. rewrite (R3 i Hi), (R2 i Hi), M1, M0. reflexivity.
Qed.
End Value.
