(** The programs of LeakCurve.v compute the functions of Curve.v: bytes in and out, the reciprocal, the whole. *)
From Coq Require Import String ZArith List Bool Lia.
From Verif Require Import Base NlSpec Keys Curve Leak LeakProofs LeakRuns LeakValue LeakSym LeakNice LeakCurve LeakCurveOps LeakCurveValue.
Import ListNotations.
Open Scope string_scope.
Open Scope list_scope.
Open Scope Z_scope.

(** ** Programs on two arrays *)
Definition two (a b : string) (n1 n2 : nat) : sstate := mk_sstate [] [(a, ins 0 n1); (b, ins n1 n2)].
Definition rho2 (la lb : list Z) (n : nat) : Z := nth n (la ++ lb) 0.
Lemma two_sim : forall sg s a b la lb, a <> b -> get (st_arrays s) a = Some la -> get (st_arrays s) b = Some lb -> sim sg (rho2 la lb) s (two a b (length la) (length lb)).
Proof.
  intros sg s a b la lb N Ea Eb. split; [|intros x t H; discriminate]. intros x l H. cbn [two s_arrays get] in H. destruct (String.eqb_spec x a) as [->|Na].
  - injection H as <-. rewrite Ea. f_equal. unfold ins. rewrite map_map. symmetry. apply map_window. intros i Hi. cbn [den plus]. unfold rho2. apply app_nth1. exact Hi.
  - destruct (String.eqb_spec x b) as [->|Nb]; [|discriminate]. injection H as <-. rewrite Eb. f_equal. unfold ins. rewrite map_map. symmetry. apply map_window. intros i Hi. cbn [den]. unfold rho2. rewrite app_nth2_plus. reflexivity.
Qed.
Lemma two_run : forall sg s c a b la lb n1 n2 ts d, a <> b -> get (st_arrays s) a = Some la -> get (st_arrays s) b = Some lb -> length la = n1 -> length lb = n2 ->
  match s_exec 101 c (two a b n1 n2) with Some (S1, None) => match get (s_arrays S1) d with Some l => terms_eqb l ts | None => false end | _ => false end = true ->
  exists s1, v_exec sg 101 c s = (s1, None) /\ get (st_arrays s1) d = Some (map (den sg (rho2 la lb)) ts).
Proof.
  intros sg s c a b la lb n1 n2 ts d N Ea Eb H1 H2 H. subst n1 n2. destruct (s_exec 101 c _) as [[S1 [r|]]|] eqn:E; try discriminate. destruct (get (s_arrays S1) d) as [l|] eqn:El; [|discriminate]. apply terms_eqb_sound in H. subst l.
  destruct (s_exec_sim sg 101 _ _ _ _ _ _ (two_sim sg s a b la lb N Ea Eb) E) as (s1 & R & M). exists s1. split; [exact R|]. exact (proj1 M _ _ El).
Qed.
Definition all_bits (k : Z) (n : nat) : Z := k.
Lemma nice_map : forall sg r w ts, (forall n, 0 <= w n -> 0 <= r n < 2 ^ w n) -> map (den sg r) ts = map (nden sg r) (map (simp w) ts).
Proof. intros sg r w ts H. rewrite map_map. apply map_ext. intro a. rewrite nden_simp. symmetry. apply nice_den. exact H. Qed.

(** ** fexpand *)
Definition t_expand : list term := Eval vm_compute in cells_of (s_exec 101 (fexpand_ ("buf0", 0) ("basepoint", 0)) (two "basepoint" "buf0" 32 10)) "buf0".
(** The first thirty-two inputs have 8 bits, the others 64. *)
Definition win32 (n : nat) : Z := if (n <? 32)%nat then 8 else 64.
Lemma rho2_range : forall la lb, length la = 32%nat -> Forall (fun c => 0 <= c < 2 ^ 8) la -> Forall (fun c => 0 <= c < 2 ^ 64) lb -> forall n, 0 <= win32 n -> 0 <= rho2 la lb n < 2 ^ win32 n.
Proof.
  intros la lb L Fa Fb n _. unfold win32, rho2. destruct (Nat.ltb_spec n 32) as [H|H].
  - rewrite app_nth1 by lia. rewrite Forall_forall in Fa. apply Fa. apply nth_In. lia.
  - rewrite app_nth2 by lia. destruct (Nat.ltb_spec (n - length la) (length lb)) as [K|K]; [rewrite Forall_forall in Fb; apply Fb; apply nth_In; exact K|]. rewrite nth_overflow by exact K. lia.
Qed.
Lemma lor_add : forall a b k, 0 <= k <= 56 -> 0 <= a < 2 ^ k -> 0 <= b < 256 -> Z.lor a (Z.shiftl b k mod 2 ^ 64) = a + 2 ^ k * b.
Proof.
  intros a b k Hk Ha Hb. rewrite Z.shiftl_mul_pow2 by lia.
  assert (P : 2 ^ k * 256 <= 2 ^ 64) by (change 256 with (2 ^ 8); rewrite <- Z.pow_add_r by lia; apply Z.pow_le_mono_r; lia).
  pose proof (Z.pow_pos_nonneg 2 k ltac:(lia) ltac:(lia)) as Q. rewrite Z.mod_small by nia.
  rewrite <- Z.lxor_lor.
  - rewrite <- Z.add_nocarry_lxor; [lia|]. apply Z.bits_inj'. intros n Hn. rewrite Z.land_spec, Z.bits_0. destruct (Z.lt_ge_cases n k) as [L|G].
    + rewrite Z.mul_pow2_bits_low by lia. apply andb_false_r.
    + rewrite <- (Z.mod_small a (2 ^ k)) by lia. rewrite Z.mod_pow2_bits_high by lia. reflexivity.
  - apply Z.bits_inj'. intros n Hn. rewrite Z.land_spec, Z.bits_0. destruct (Z.lt_ge_cases n k) as [L|G].
    + rewrite Z.mul_pow2_bits_low by lia. apply andb_false_r.
    + rewrite <- (Z.mod_small a (2 ^ k)) by lia. rewrite Z.mod_pow2_bits_high by lia. reflexivity.
Qed.
Lemma le_chain : forall b0 b1 b2 b3 b4 b5 b6 b7, 0 <= b0 < 256 -> 0 <= b1 < 256 -> 0 <= b2 < 256 -> 0 <= b3 < 256 -> 0 <= b4 < 256 -> 0 <= b5 < 256 -> 0 <= b6 < 256 -> 0 <= b7 < 256 ->
  Z.lor (Z.lor (Z.lor (Z.lor (Z.lor (Z.lor (Z.lor b0 (Z.shiftl b1 8 mod 2 ^ 64)) (Z.shiftl b2 16 mod 2 ^ 64)) (Z.shiftl b3 24 mod 2 ^ 64)) (Z.shiftl b4 32 mod 2 ^ 64)) (Z.shiftl b5 40 mod 2 ^ 64)) (Z.shiftl b6 48 mod 2 ^ 64)) (Z.shiftl b7 56 mod 2 ^ 64)
  = le_val [b0; b1; b2; b3; b4; b5; b6; b7].
Proof.
  intros b0 b1 b2 b3 b4 b5 b6 b7 H0 H1 H2 H3 H4 H5 H6 H7. cbn [le_val].
  rewrite (lor_add b0 b1 8), (lor_add _ b2 16), (lor_add _ b3 24), (lor_add _ b4 32), (lor_add _ b5 40), (lor_add _ b6 48), (lor_add _ b7 56) by lia. lia.
Qed.
Lemma bytes_32 : forall l : list Z, length l = 32%nat -> exists a0 a1 a2 a3 a4 a5 a6 a7 a8 a9 a10 a11 a12 a13 a14 a15 a16 a17 a18 a19 a20 a21 a22 a23 a24 a25 a26 a27 a28 a29 a30 a31,
  l = [a0; a1; a2; a3; a4; a5; a6; a7; a8; a9; a10; a11; a12; a13; a14; a15; a16; a17; a18; a19; a20; a21; a22; a23; a24; a25; a26; a27; a28; a29; a30; a31].
Proof. intros l H. do 32 (destruct l as [|? l]; [discriminate|]). destruct l; [|discriminate]. repeat eexists. Qed.
Lemma t_expand_ok : forall sg la lb, length la = 32%nat -> length lb = 10%nat -> Forall (fun c => 0 <= c < 2 ^ 8) la -> Forall (fun c => 0 <= c < 2 ^ 64) lb ->
  map (den sg (rho2 la lb)) t_expand = limbs (fexpand la) ++ skipn 5 lb.
Proof.
  intros sg la lb La Lb Fa Fb. rewrite (nice_map sg _ win32) by (apply rho2_range; assumption).
  match goal with |- map _ ?x = _ => let y := eval vm_compute in x in change x with y end. cbn [map].
  destruct (bytes_32 la La) as (a0 & a1 & a2 & a3 & a4 & a5 & a6 & a7 & a8 & a9 & a10 & a11 & a12 & a13 & a14 & a15 & a16 & a17 & a18 & a19 & a20 & a21 & a22 & a23 & a24 & a25 & a26 & a27 & a28 & a29 & a30 & a31 & ->).
  do 10 (destruct lb as [|? lb]; [discriminate|]). destruct lb; [|discriminate].
  cbv [nden v_exact v_fits stored u64 rho2 app nth limbs f0 f1 f2 f3 f4 fexpand get_le64 firstn skipn MASK].
  change (2 ^ 8) with 256 in Fa. repeat match goal with F : Forall _ (_ :: _) |- _ => let R := fresh "R" in pose proof (Forall_inv F) as R; cbv beta in R; apply Forall_inv_tail in F end.
  rewrite !le_chain by assumption. reflexivity.
Qed.

(** ** The copy of the secret, clamped *)
Definition clamp_prog : stmt := block [zero U8 ("e", 0) 32; copy U8 ("e", 0) ("secret", 0) 32; clamp_secret_ ("e", 0)].
Definition t_clamp : list term := Eval vm_compute in cells_of (s_exec 101 clamp_prog (two "secret" "e" 32 32)) "e".
Lemma t_clamp_ok : forall sg la lb, length la = 32%nat -> length lb = 32%nat -> Forall (fun c => 0 <= c < 2 ^ 8) la -> Forall (fun c => 0 <= c < 2 ^ 8) lb ->
  map (den sg (rho2 la lb)) t_clamp = clamp_secret la.
Proof.
  intros sg la lb La Lb Fa Fb. rewrite (nice_map sg _ win32).
  2:{ apply rho2_range; [exact La|exact Fa|]. apply (Forall_impl _ (P := fun c => 0 <= c < 2 ^ 8)); [|exact Fb]. intros c Hc. cbv beta in *. lia. }
  match goal with |- map _ ?x = _ => let y := eval vm_compute in x in change x with y end. cbn [map].
  destruct (bytes_32 la La) as (a0 & a1 & a2 & a3 & a4 & a5 & a6 & a7 & a8 & a9 & a10 & a11 & a12 & a13 & a14 & a15 & a16 & a17 & a18 & a19 & a20 & a21 & a22 & a23 & a24 & a25 & a26 & a27 & a28 & a29 & a30 & a31 & ->).
  cbv [nden v_exact v_fits stored rho2 app nth clamp_secret removelast last]. reflexivity.
Qed.

(** ** The result *)
Definition t_store (pub : string) : list term := cells_of (s_exec 101 (fcontract_store_ (pub, 0) ("zbuf", 5)) (two pub "zbuf" 32 10)) pub.
Definition t_stored : list term := Eval vm_compute in t_store "secret".
Lemma div_shift : forall x k, 0 <= k -> Z.shiftr x (8 * k) = x / 256 ^ k.
Proof. intros x k H. rewrite Z.shiftr_div_pow2 by lia. rewrite Z.pow_mul_r by lia. reflexivity. Qed.
Lemma le8 : forall x, le 8 x = map (fun k => Z.shiftr x k mod 256) [0; 8; 16; 24; 32; 40; 48; 56].
Proof.
  intro x. cbn [le map].
  rewrite !Z.div_div by lia. cbn [Z.mul Pos.mul Pos.add Pos.succ]. rewrite !Z.shiftr_div_pow2 by lia. cbn [Z.pow Z.pow_pos Pos.iter Z.mul Pos.mul Pos.add Pos.succ]. rewrite Z.div_1_r. reflexivity.
Qed.
Lemma le8_64 : forall x, 0 <= x < 2 ^ 64 -> le 8 x = map (fun k => Z.shiftr x k mod 2 ^ 8) [0; 8; 16; 24; 32; 40; 48] ++ [Z.shiftr x 56].
Proof.
  intros x H. rewrite le8. cbn [map app]. do 7 f_equal. rewrite (Z.mod_small (Z.shiftr x 56)); [reflexivity|]. rewrite Z.shiftr_div_pow2 by lia. split; [apply Z.div_pos; lia|]. apply Z.div_lt_upper_bound; lia.
Qed.
Lemma limb_word : forall a b i j, 0 <= b < 2 ^ 64 -> 0 <= j -> 0 <= Z.lor (u64 (Z.shiftl a i)) (Z.shiftr b j) < 2 ^ 64.
Proof.
  intros a b i j H Hj. pose proof (shr_le b j ltac:(lia) Hj) as S. pose proof (proj1 (lor_range (u64 (Z.shiftl a i)) (Z.shiftr b j) 64 64 ltac:(lia) ltac:(lia) ltac:(unfold u64; apply Z.mod_pos_bound; lia) ltac:(lia))) as L. rewrite Z.max_id in L. exact L.
Qed.
Lemma t_stored_ok : forall sg la lb x y, length la = 32%nat -> lb = limbs x ++ limbs y -> Forall (fun c => 0 <= c < 2 ^ 8) la -> Forall (fun c => 0 <= c < 2 ^ 64) lb ->
  map (den sg (rho2 la lb)) t_stored = store_limbs y.
Proof.
  intros sg la lb x y La -> Fa Fb. rewrite (nice_map sg _ win32) by (apply rho2_range; assumption).
  match goal with |- map _ ?x = _ => let y := eval vm_compute in x in change x with y end.
  destruct (bytes_32 la La) as (a0 & a1 & a2 & a3 & a4 & a5 & a6 & a7 & a8 & a9 & a10 & a11 & a12 & a13 & a14 & a15 & a16 & a17 & a18 & a19 & a20 & a21 & a22 & a23 & a24 & a25 & a26 & a27 & a28 & a29 & a30 & a31 & ->).
  destruct x as [x0 x1 x2 x3 x4]. destruct y as [y0 y1 y2 y3 y4]. unfold store_limbs. unfold limbs in *. cbn [app f0 f1 f2 f3 f4] in *.
  repeat match goal with F : Forall _ (_ :: _) |- _ => let R := fresh "R" in pose proof (Forall_inv F) as R; cbv beta in R; apply Forall_inv_tail in F end.
  assert (Q : 0 <= Z.lor (u64 (Z.shiftl y1 51)) y0 < 2 ^ 64) by (rewrite <- (Z.shiftr_0_r y0); apply limb_word; [assumption|lia]).
  rewrite (le8_64 _ Q). rewrite !le8_64 by (apply limb_word; [assumption|lia]).
  cbv [nden v_exact v_fits stored u64 u8 rho2 app nth limbs f0 f1 f2 f3 f4 map]. reflexivity.
Qed.

(** ** Squaring repeatedly, the reciprocal *)
Section Value.
Variable sg : bool.
Notation vx := (v_exec sg 101).
Definition upd (m : list fe) (i : nat) (x : fe) : list fe := map (fun j => if Nat.eqb j i then x else m_ m j) (List.seq 0 slots).
Lemma upd_nth : forall m i x j, (j < slots)%nat -> m_ (upd m i x) j = if Nat.eqb j i then x else m_ m j.
Proof.
  intros m i x j H. unfold upd. unfold m_ at 1. rewrite (nth_indep _ zero_fe (if Nat.eqb 0 i then x else m_ m 0)) by (rewrite map_length, seq_length; exact H).
  change (if Nat.eqb 0 i then x else m_ m 0) with ((fun j => if Nat.eqb j i then x else m_ m j) 0%nat). rewrite map_nth, seq_nth by exact H. reflexivity.
Qed.
Lemma upd_upd : forall m i x y, upd (upd m i x) i y = upd m i y.
Proof. intros m i x y. apply map_ext_in. intros j Hj. apply in_seq in Hj. rewrite upd_nth by lia. destruct (Nat.eqb j i); reflexivity. Qed.
Lemma sem_copy : forall b o a m, op_sem b (OCopy o a) m = upd m o (m_ m a).
Proof. intros b o a m. apply map_ext. intro j. cbn [op_eff assoc]. destruct (Nat.eqb j o); reflexivity. Qed.
Lemma sem_sq1 : forall b o m, op_sem b (OSq1 o) m = upd m o (fsquare (m_ m o)).
Proof. intros b o m. apply map_ext. intro j. cbn [op_eff assoc]. destruct (Nat.eqb j o); reflexivity. Qed.
Definition sq_body (o : nat) : stmt := Seq (fsquare_ ("fst", 0) (where_ o)) (Set_ U32 "fsi" (Bin U32 Add (v "fsi") (Lit 1))).
Definition sq_ready (o : nat) : bool := check (OSq1 o) && negb (existsb (String.eqb "fsi") (assigned (op_prog (OSq1 o)))) && (o <? slots)%nat.
Lemma op_none : forall o s, op_var o = None -> check o = true -> good s -> exists s1, vx (op_prog o) s = (s1, None) /\ good s1 /\ mem s1 = op_sem 0 o (mem s).
Proof. intros o s N C G. apply op_sound; [exact C|exact G|rewrite N; exact I|lia]. Qed.
Fixpoint iterate (f : fe -> fe) (n : nat) (x : fe) : fe := match n with O => x | S k => iterate f k (f x) end.
Lemma iterate_comm : forall f n x, iterate f n (f x) = f (iterate f n x).
Proof. intros f n. induction n as [|n IH]; intro x; cbn [iterate]; [reflexivity|apply IH]. Qed.
Lemma iterate_times : forall (f : fe -> fe) (t : fe -> nat -> fe), (forall x, t x O = f x) -> (forall x n, t x (S n) = f (t x n)) -> forall n x, iterate f n (f x) = t x n.
Proof. intros f t H0 H1 n. induction n as [|n IH]; intro x; cbn [iterate]; [symmetry; apply H0|]. rewrite H1, <- IH. apply iterate_comm. Qed.
Definition squares : nat -> fe -> fe := iterate fsquare.
Lemma times_0 : forall x, Curve.fsquare_times x 0 = fsquare x.
Proof. intro x. exact (eq_refl (fsquare x)). Qed.
Lemma times_S : forall x n, Curve.fsquare_times x (S n) = fsquare (Curve.fsquare_times x n).
Proof. intros x n. exact (eq_refl (fsquare (Curve.fsquare_times x n))). Qed.
Definition squares_times : forall n x, squares n (fsquare x) = Curve.fsquare_times x n := iterate_times fsquare Curve.fsquare_times times_0 times_S.
Lemma squares_0 : forall x, squares 0 x = x.
Proof. intro x. exact (eq_refl x). Qed.
Lemma squares_S : forall n x, squares (S n) x = squares n (fsquare x).
Proof. intros n x. exact (eq_refl (squares n (fsquare x))). Qed.
Lemma sq_one : forall o s, sq_ready o = true -> good s -> exists s1, vx (fsquare_ ("fst", 0) (where_ o)) s = (s1, None) /\ good s1 /\ mem s1 = upd (mem s) o (fsquare (m_ (mem s) o)) /\ get (st_vars s1) "fsi" = get (st_vars s) "fsi".
Proof.
  intros o s R G. unfold sq_ready in R. apply andb_true_iff in R. destruct R as [R _]. apply andb_true_iff in R. destruct R as [R1 R2]. apply negb_true_iff in R2.
  destruct (op_none (OSq1 o) s eq_refl R1 G) as (s1 & E & G1 & M). exists s1. split; [exact E|]. split; [exact G1|]. split; [rewrite M; apply sem_sq1|]. exact (keeps_var sg _ _ _ _ R2 E).
Qed.
Lemma upd_same : forall m o, length m = slots -> upd m o (m_ m o) = m.
Proof.
  intros m o H. assert (E : upd m o (m_ m o) = map (m_ m) (List.seq 0 slots)) by (apply map_ext; intro j; destruct (Nat.eqb_spec j o) as [->|N]; reflexivity). rewrite E.
  apply (nth_ext _ _ zero_fe zero_fe); [rewrite map_length, seq_length; symmetry; exact H|]. intros n Hn. rewrite map_length, seq_length in Hn.
  rewrite (nth_indep _ zero_fe (m_ m 0)) by (rewrite map_length, seq_length; exact Hn). rewrite map_nth, seq_nth by exact Hn. reflexivity.
Qed.
Lemma lt_val : forall s i c, get (st_vars s) "fsi" = Some i -> 0 <= i < 2 ^ 32 -> 0 <= c < 2 ^ 32 -> value sg (Bin U32 Lt (v "fsi") (Lit c)) s = if i <? c then 1 else 0.
Proof. intros s i c V Hi Hc. cbn [value v v_fits v_exact stored]. unfold lookup_. rewrite V. unfold u32. rewrite !Z.mod_small with (a := i), !Z.mod_small with (a := c) by assumption. destruct (i <? c); reflexivity. Qed.
Lemma sq_loop : forall o n i k s, sq_ready o = true -> 0 <= i -> i + Z.of_nat n < 2 ^ 20 -> (n < k)%nat -> good s -> get (st_vars s) "fsi" = Some i ->
  exists s1, v_loop (value sg (Bin U32 Lt (v "fsi") (Lit (i + Z.of_nat n)))) (vx (sq_body o)) k s = (s1, None) /\ good s1 /\ mem s1 = upd (mem s) o (squares n (m_ (mem s) o)).
Proof.
  intros o n. induction n as [|n IH]; intros i k s R Hi Hn Hk G V; (destruct k as [|k]; [lia|]); cbn [v_loop]; rewrite (lt_val s i _ V) by lia.
  - replace (i <? i + Z.of_nat 0) with false by (symmetry; apply Z.ltb_ge; lia). change (0 =? 0) with true. cbv iota. exists s. split; [reflexivity|]. split; [exact G|]. rewrite squares_0. symmetry. apply upd_same. apply mem_length. exact G.
  - replace (i <? i + Z.of_nat (S n)) with true by (symmetry; apply Z.ltb_lt; lia). change (1 =? 0) with false. cbv iota. unfold sq_body at 1. rewrite v_seq. destruct (sq_one o s R G) as (s1 & E1 & G1 & M1 & K1). rewrite E1, v_set. rewrite V in K1.
    set (s2 := mk_state _ _). assert (G2 : good s2) by (apply good_vars; exact G1). assert (M2 : mem s2 = mem s1) by reflexivity.
    assert (V2 : get (st_vars s2) "fsi" = Some (i + 1)).
    { unfold s2. cbn [st_vars]. rewrite get_put_same. cbn [value v v_fits v_exact stored]. unfold lookup_. rewrite K1. unfold u32. rewrite (Z.mod_small i) by lia. change (1 mod 2 ^ 32) with 1. rewrite !(Z.mod_small (i + 1)) by lia. reflexivity. }
    clearbody s2. destruct (IH (i + 1) k s2 R ltac:(lia) ltac:(lia) ltac:(lia) G2 V2) as (s3 & E3 & G3 & M3). replace (i + Z.of_nat (S n)) with (i + 1 + Z.of_nat n) by lia. exists s3. split; [exact E3|]. split; [exact G3|].
    rewrite M3, M2, M1, upd_upd, upd_nth by (unfold sq_ready in R; apply andb_true_iff in R; apply Nat.ltb_lt; apply R). rewrite Nat.eqb_refl, squares_S. reflexivity.
Qed.
Lemma times_inplace_v : forall o n s, sq_ready o = true -> (n < 100)%nat -> good s ->
  exists s1, vx (fsquare_times_inplace (where_ o) (1 + Z.of_nat n)) s = (s1, None) /\ good s1 /\ mem s1 = upd (mem s) o (Curve.fsquare_times (m_ (mem s) o) n).
Proof.
  intros o n s R Hn G. unfold fsquare_times_inplace, fsquare_times_. destruct (sq_one o s R G) as (s1 & E1 & G1 & M1 & _). rewrite v_cons, E1, v_cons, v_set, v_one, v_while.
  set (s2 := mk_state _ _). assert (G2 : good s2) by (apply good_vars; exact G1). assert (M2 : mem s2 = mem s1) by reflexivity. assert (V2 : get (st_vars s2) "fsi" = Some 1) by (unfold s2; cbn [st_vars]; rewrite get_put_same; reflexivity). clearbody s2.
  destruct (sq_loop o n 1 101 s2 R ltac:(lia) ltac:(lia) ltac:(lia) G2 V2) as (s3 & E3 & G3 & M3). exists s3. split; [exact E3|]. split; [exact G3|].
  rewrite M3, M2, M1, upd_upd, upd_nth by (unfold sq_ready in R; apply andb_true_iff in R; apply Nat.ltb_lt; apply R). rewrite Nat.eqb_refl, squares_times. reflexivity.
Qed.
Lemma times_v : forall o a n s, sq_ready o = true -> check (OCopy o a) = true -> (n < 100)%nat -> good s ->
  exists s1, vx (fsquare_times (where_ o) (where_ a) (1 + Z.of_nat n)) s = (s1, None) /\ good s1 /\ mem s1 = upd (mem s) o (Curve.fsquare_times (m_ (mem s) a) n).
Proof.
  intros o a n s R C Hn G. unfold fsquare_times. destruct (op_none (OCopy o a) s eq_refl C G) as (s1 & E1 & G1 & M1). cbn [op_prog] in E1. rewrite v_cons, E1, v_one.
  destruct (times_inplace_v o n s1 R Hn G1) as (s2 & E2 & G2 & M2). exists s2. split; [exact E2|]. split; [exact G2|]. rewrite M2, M1, sem_copy, upd_upd, upd_nth by (unfold sq_ready in R; apply andb_true_iff in R; apply Nat.ltb_lt; apply R). rewrite Nat.eqb_refl. reflexivity.
Qed.

(** Operations and repeated squarings in sequence. *)
Inductive xop := XOp (o : op) | XSq (o a : nat) (n : nat) | XSqI (o n : nat).
Definition x_prog (x : xop) : stmt := match x with XOp o => op_prog o | XSq o a n => fsquare_times (where_ o) (where_ a) (1 + Z.of_nat n) | XSqI o n => fsquare_times_inplace (where_ o) (1 + Z.of_nat n) end.
Definition x_sem (x : xop) (m : list fe) : list fe :=
  match x with XOp o => op_sem 0 o m | XSq o a n => upd m o (Curve.fsquare_times (m_ m a) n) | XSqI o n => upd m o (Curve.fsquare_times (m_ m o) n) end.
Definition x_check (x : xop) : bool :=
  match x with
  | XOp o => check o && match op_var o with None => true | _ => false end
  | XSq o a n => sq_ready o && check (OCopy o a) && (n <? 100)%nat
  | XSqI o n => sq_ready o && (n <? 100)%nat
  end.
Lemma x_sound : forall x s, x_check x = true -> good s -> exists s1, vx (x_prog x) s = (s1, None) /\ good s1 /\ mem s1 = x_sem x (mem s).
Proof.
  intros [o|o a n|o n] s C G; cbn [x_check x_prog x_sem] in *; apply andb_true_iff in C; destruct C as [C1 C2].
  - apply op_none; [destruct (op_var o); [discriminate|reflexivity]|exact C1|exact G].
  - apply andb_true_iff in C1. destruct C1 as [C0 C1]. apply times_v; try assumption. apply Nat.ltb_lt. assumption.
  - apply times_inplace_v; try assumption. apply Nat.ltb_lt. assumption.
Qed.
Lemma xs_sound : forall l s, forallb x_check l = true -> good s -> exists s1, vx (block (map x_prog l)) s = (s1, None) /\ good s1 /\ mem s1 = fold_left (fun m x => x_sem x m) l (mem s).
Proof.
  intro l. induction l as [|x l IH]; intros s C G; [exists s; repeat split; assumption|]. cbn [forallb] in C. apply andb_true_iff in C. destruct C as [C1 C2]. destruct (x_sound x s C1 G) as (s1 & E1 & G1 & M1). destruct (IH s1 C2 G1) as (s2 & E2 & G2 & M2).
  exists s2. cbn [map fold_left]. rewrite v_cons, E1. split; [exact E2|]. split; [exact G2|]. rewrite M2, M1. reflexivity.
Qed.
(** From the point in "buf" to the number in "zbuf" that is stored: 18 and 19 are X and Z, 21 and 22 the halves of "zbuf", 23 to 26 those of "rbuf". *)
Definition affine_ops : list xop :=
  [XOp (OZero 21 2);
   XOp (OZero 23 4); XSq 23 19 0; XSq 24 23 1; XOp (OMul 25 24 19); XOp (OMul 23 25 23); XSq 24 23 0; XOp (OMul 25 24 25); XSq 24 25 4; XOp (OMul 25 24 25); XSq 24 25 9; XOp (OMul 26 24 25); XSq 24 26 19; XOp (OMul 24 24 26); XSqI 24 9;
   XOp (OMul 25 24 25); XSq 24 25 49; XOp (OMul 26 24 25); XSq 24 26 99; XOp (OMul 24 24 26); XSqI 24 49; XOp (OMul 24 24 25); XSqI 24 4; XOp (OMul 21 24 23);
   XOp (OMul 22 18 21);
   XOp (OCarry1 22); XOp (OCarry2 22); XOp (OTrim 22)].
Lemma affine_same : forall out s, vx (scalar_of_point_ out ("buf", 0)) s = vx (block (map x_prog affine_ops ++ [fcontract_store_ out ("zbuf", 5)])) s.
Proof. intros out. apply v_same. vm_compute. reflexivity. Qed.
Lemma affine_check : forallb x_check affine_ops = true.
Proof. vm_compute. reflexivity. Qed.
Lemma affine_sem : forall m, length m = slots -> m_ (fold_left (fun m x => x_sem x m) affine_ops m) 22 = trim (second_carry_full (first_carry_full (fmul (m_ m 18) (crecip (m_ m 19))))).
Proof.
  intros m H. destruct (slots27 m H) as (x0 & x1 & x2 & x3 & x4 & x5 & x6 & x7 & x8 & x9 & x10 & x11 & x12 & x13 & x14 & x15 & x16 & x17 & x18 & x19 & x20 & x21 & x22 & x23 & x24 & x25 & x26 & ->).
  unfold crecip. lazy -[fmul Curve.fsquare_times first_carry_full second_carry_full trim]. reflexivity.
Qed.
End Value.
