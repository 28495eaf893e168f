(** Bytes to limbs and back, constant-time masks and swaps. *)
From Coq Require Import ZArith List Bool Lia.
From Verif Require Import Base NlSpec CurveSpec Curve CurveField.
Import ListNotations.
Open Scope Z_scope.

(** ** Bits *)
Lemma range_bits : forall n x, 0 <= n -> (0 <= x < 2 ^ n <-> 0 <= x /\ forall i, n <= i -> Z.testbit x i = false).
Proof.
  intros n x Hn. split.
  - intros [H0 H1]. split; [assumption|]. intros i Hi. rewrite <- (Z.mod_small x (2 ^ n)) by lia. apply Z.mod_pow2_bits_high. lia.
  - intros [H0 H]. split; [assumption|]. replace x with (x mod 2 ^ n); [apply Z.mod_pos_bound, Z.pow_pos_nonneg; lia|].
    apply Z.bits_inj'. intros i Hi. destruct (Z_lt_le_dec i n); [apply Z.mod_pow2_bits_low; assumption|]. rewrite Z.mod_pow2_bits_high by lia. symmetry. apply H. assumption.
Qed.
Lemma lxor_range : forall n a b, 0 <= n -> 0 <= a < 2 ^ n -> 0 <= b < 2 ^ n -> 0 <= Z.lxor a b < 2 ^ n.
Proof.
  intros n a b Hn Ha Hb. apply range_bits in Ha, Hb; try assumption. apply range_bits; [assumption|]. split; [apply Z.lxor_nonneg; tauto|].
  intros i Hi. rewrite Z.lxor_spec. rewrite (proj2 Ha i Hi), (proj2 Hb i Hi). reflexivity.
Qed.
Lemma lor_range : forall n a b, 0 <= n -> 0 <= a < 2 ^ n -> 0 <= b < 2 ^ n -> 0 <= Z.lor a b < 2 ^ n.
Proof.
  intros n a b Hn Ha Hb. apply range_bits in Ha, Hb; try assumption. apply range_bits; [assumption|]. split; [apply Z.lor_nonneg; tauto|].
  intros i Hi. rewrite Z.lor_spec. rewrite (proj2 Ha i Hi), (proj2 Hb i Hi). reflexivity.
Qed.
Lemma shr63 : forall v, 0 <= v < 2 ^ 64 -> Z.shiftr v 63 = Z.b2z (Z.testbit v 63).
Proof.
  intros v Hv. rewrite Z.testbit_spec' by lia. rewrite Z.shiftr_div_pow2 by lia. symmetry. apply Z.mod_small.
  split; [apply Z.div_pos; lia|apply Z.div_lt_upper_bound; lia].
Qed.
Lemma bit63 : forall v, 0 <= v < 2 ^ 64 -> Z.testbit v 63 = (2 ^ 63 <=? v).
Proof.
  intros v Hv. pose proof (Z.testbit_spec' v 63 ltac:(lia)) as H. destruct (Z.leb_spec (2 ^ 63) v) as [L|L].
  - replace (v / 2 ^ 63) with 1 in H; [destruct (Z.testbit v 63); [reflexivity|discriminate]|].
    apply Z.div_unique with (v - 2 ^ 63); lia.
  - rewrite Z.div_small in H by lia. destruct (Z.testbit v 63); [discriminate|reflexivity].
Qed.

Lemma u64_eq_mask_spec : forall a b, 0 <= a < 2 ^ 64 -> 0 <= b < 2 ^ 64 -> u64_eq_mask a b = if a =? b then 2 ^ 64 - 1 else 0.
Proof.
  intros a b Ha Hb. unfold u64_eq_mask. cbv zeta. destruct (Z.eqb_spec a b) as [->|N].
  - rewrite Z.lxor_nilpotent. reflexivity.
  - pose proof (lxor_range 64 a b ltac:(lia) Ha Hb) as Hx. assert (Nx : Z.lxor a b <> 0) by (rewrite Z.lxor_eq_0_iff; assumption).
    set (x := Z.lxor a b) in *. clearbody x. replace (u64 (2 ^ 64 - 1 - x + 1)) with (2 ^ 64 - x) by (symmetry; unfold u64; rewrite Z.mod_small; lia).
    rewrite shr63 by (apply lor_range; lia). rewrite Z.lor_spec, !bit63 by lia.
    replace ((2 ^ 63 <=? x) || (2 ^ 63 <=? 2 ^ 64 - x)) with true; [reflexivity|]. symmetry. apply orb_true_iff.
    destruct (Z_le_gt_dec (2 ^ 63) x); [left|right]; apply Z.leb_le; lia.
Qed.
Lemma u64_gte_mask_spec : forall a b, 0 <= a < 2 ^ 64 -> 0 <= b < 2 ^ 64 -> u64_gte_mask a b = if b <=? a then 2 ^ 64 - 1 else 0.
Proof.
  intros a b Ha Hb. unfold u64_gte_mask. cbv zeta.
  assert (Hs : 0 <= u64 (a - b) < 2 ^ 64) by (unfold u64; apply Z.mod_pos_bound; lia).
  rewrite shr63 by (repeat (first [apply lxor_range|apply lor_range]); lia). rewrite Z.lxor_spec, Z.lor_spec, !Z.lxor_spec, !bit63 by assumption.
  assert (Es : u64 (a - b) = if b <=? a then a - b else a - b + 2 ^ 64).
  { unfold u64. destruct (Z.leb_spec b a); [apply Z.mod_small; lia|]. rewrite <- (Z.mod_add _ 1) by lia. apply Z.mod_small. lia. }
  rewrite Es. clear Es Hs.
  destruct (Z.leb_spec b a); destruct (Z.leb_spec (2 ^ 63) a); destruct (Z.leb_spec (2 ^ 63) b); cbn [xorb orb]; try lia.
  1,2,3,4,5,6: try (rewrite (proj2 (Z.leb_gt _ _)) by lia); try (rewrite (proj2 (Z.leb_le _ _)) by lia); try reflexivity.
  all: try (destruct (_ <=? _); reflexivity).
Qed.

(** ** Conditional swap *)
Lemma swap_step_spec : forall (c : bool) a b, 0 <= a < 2 ^ 64 -> 0 <= b < 2 ^ 64 -> swap_step (u64 (0 - Z.b2z c)) a b = if c then (b, a) else (a, b).
Proof.
  intros c a b Ha Hb. unfold swap_step. destruct c; cbn [Z.b2z].
  - change (u64 (0 - 1)) with (Z.ones 64). rewrite Z.land_comm, Z.land_ones by lia. rewrite Z.mod_small by (apply lxor_range; lia).
    f_equal; [|rewrite (Z.lxor_comm a b)]; rewrite <- Z.lxor_assoc, Z.lxor_nilpotent, Z.lxor_0_l; reflexivity.
  - change (u64 (0 - 0)) with 0. rewrite Z.land_0_l, !Z.lxor_0_r. reflexivity.
Qed.
Definition below2 (A : Z) (p : point) : Prop := below A (px p) /\ below A (pz p).
Lemma swap_points_spec : forall (c : bool) a b, below2 (2 ^ 64) a -> below2 (2 ^ 64) b -> swap_points a b (Z.b2z c) = if c then (b, a) else (a, b).
Proof.
  intros c [[a0 a1 a2 a3 a4] [a5 a6 a7 a8 a9]] [[b0 b1 b2 b3 b4] [b5 b6 b7 b8 b9]] [(A0 & A1 & A2 & A3 & A4) (A5 & A6 & A7 & A8 & A9)] [(B0 & B1 & B2 & B3 & B4) (B5 & B6 & B7 & B8 & B9)].
  cbn [px pz f0 f1 f2 f3 f4] in *. unfold swap_points, swap5. cbv zeta. cbn [px pz f0 f1 f2 f3 f4]. rewrite !swap_step_spec by assumption. destruct c; reflexivity.
Qed.

(** ** Bytes to limbs *)
Lemma div_mod_pow : forall n a b c, 0 <= a -> 0 <= b -> 0 <= c -> b + c <= a -> (n mod 2 ^ a / 2 ^ b) mod 2 ^ c = (n / 2 ^ b) mod 2 ^ c.
Proof.
  intros n a b c Ha Hb Hc H. apply Z.bits_inj'. intros i Hi. destruct (Z_lt_le_dec i c).
  - rewrite !Z.mod_pow2_bits_low by assumption. rewrite !Z.div_pow2_bits by lia. apply Z.mod_pow2_bits_low. lia.
  - rewrite !Z.mod_pow2_bits_high by lia. reflexivity.
Qed.
Lemma le_val_app' : forall a b, le_val (a ++ b) = le_val a + 256 ^ Z.of_nat (length a) * le_val b.
Proof.
  induction a as [|x a IH]; intro b; [cbn [app le_val length]; change (Z.of_nat 0) with 0; rewrite Z.pow_0_r; lia|].
  cbn [app le_val length]. rewrite IH, Nat2Z.inj_succ, Z.pow_succ_r by lia. ring.
Qed.
Lemma le_val_range : forall l, Forall is_byte l -> 0 <= le_val l < 256 ^ Z.of_nat (length l).
Proof.
  induction l as [|b l IH]; intro H; [cbn; lia|]. inversion H as [|x y Hb Hl]; subst. specialize (IH Hl). unfold is_byte in Hb.
  cbn [le_val length]. rewrite Nat2Z.inj_succ, Z.pow_succ_r by lia. lia.
Qed.
Lemma Forall_firstn' : forall (P : Z -> Prop) n l, Forall P l -> Forall P (firstn n l).
Proof. intros P n l H. apply Forall_forall. intros x Hx. rewrite Forall_forall in H. apply H. rewrite <- (firstn_skipn n l). apply in_or_app. left. exact Hx. Qed.
Lemma Forall_skipn' : forall (P : Z -> Prop) n l, Forall P l -> Forall P (skipn n l).
Proof. intros P n l H. apply Forall_forall. intros x Hx. rewrite Forall_forall in H. apply H. rewrite <- (firstn_skipn n l). apply in_or_app. right. exact Hx. Qed.

Lemma get_le64_spec : forall b off, Forall is_byte b -> length b = 32%nat -> (off + 8 <= 32)%nat -> get_le64 b off = (le_val b / 2 ^ (8 * Z.of_nat off)) mod 2 ^ 64.
Proof.
  intros b off Hb Lb Ho. unfold get_le64.
  assert (E : b = firstn off b ++ firstn 8 (skipn off b) ++ skipn 8 (skipn off b)) by (rewrite !firstn_skipn; reflexivity).
  assert (L1 : length (firstn off b) = off) by (rewrite firstn_length; lia).
  assert (L2 : length (firstn 8 (skipn off b)) = 8%nat) by (rewrite firstn_length, skipn_length; lia).
  pose proof (le_val_range _ (Forall_firstn' _ off b Hb)) as R1. pose proof (le_val_range _ (Forall_firstn' _ 8 _ (Forall_skipn' _ off b Hb))) as R2.
  rewrite L1 in R1. rewrite L2 in R2. rewrite E at 2. rewrite !le_val_app', L1, L2.
  change 256 with (2 ^ 8) in *. rewrite <- !Z.pow_mul_r in * by lia. change (8 * Z.of_nat 8) with 64 in *.
  set (x := le_val (firstn off b)) in *. set (y := le_val (firstn 8 (skipn off b))) in *. clearbody x y. set (z := le_val _). clearbody z.
  assert (P : 0 < 2 ^ (8 * Z.of_nat off)) by (apply Z.pow_pos_nonneg; lia). set (p := 2 ^ (8 * Z.of_nat off)) in *. clearbody p.
  rewrite Z.mul_comm, Z.div_add by lia. rewrite Z.div_small by lia. rewrite Z.add_0_l. rewrite Z.mul_comm, Z.mod_add by lia. symmetry. apply Z.mod_small. lia.
Qed.

Lemma limbs_255 : forall n, n mod 2 ^ 51 + 2 ^ 51 * (n / 2 ^ 51 mod 2 ^ 51) + 2 ^ 102 * (n / 2 ^ 102 mod 2 ^ 51) + 2 ^ 153 * (n / 2 ^ 153 mod 2 ^ 51) + 2 ^ 204 * (n / 2 ^ 204 mod 2 ^ 51) = n mod 2 ^ 255.
Proof.
  intro n. change (2 ^ 255) with (2 ^ 51 * (2 ^ 51 * (2 ^ 51 * (2 ^ 51 * 2 ^ 51)))). rewrite (Z.rem_mul_r n (2 ^ 51)) by lia.
  rewrite (Z.rem_mul_r (n / 2 ^ 51) (2 ^ 51)) by lia. rewrite (Z.rem_mul_r (n / 2 ^ 51 / 2 ^ 51) (2 ^ 51)) by lia. rewrite (Z.rem_mul_r (n / 2 ^ 51 / 2 ^ 51 / 2 ^ 51) (2 ^ 51)) by lia.
  rewrite !Z.div_div by lia. change (2 ^ 51 * 2 ^ 51) with (2 ^ 102). change (2 ^ 51 * 2 ^ 102) with (2 ^ 153). change (2 ^ 102 * 2 ^ 51) with (2 ^ 153). change (2 ^ 153 * 2 ^ 51) with (2 ^ 204). change (2 ^ 51 * 2 ^ 153) with (2 ^ 204). ring.
Qed.

Lemma fexpand_spec : forall b, Forall is_byte b -> length b = 32%nat -> val (fexpand b) = le_val b mod 2 ^ 255 /\ below (2 ^ 51) (fexpand b).
Proof.
  intros b Hb Lb. unfold fexpand. rewrite !land_mask, !Z.shiftr_div_pow2, !get_le64_spec by (try assumption; lia).
  rewrite !div_mod_pow by lia. 
  change (8 * Z.of_nat 0) with 0. change (8 * Z.of_nat 6) with 48. change (8 * Z.of_nat 12) with 96. change (8 * Z.of_nat 19) with 152. change (8 * Z.of_nat 24) with 192.
  rewrite (Z.pow_0_r 2), Z.div_1_r. rewrite !Z.div_div by lia. rewrite <- !Z.pow_add_r by lia.
  replace ((le_val b mod 2 ^ 64) mod 2 ^ 51) with (le_val b mod 2 ^ 51) by (apply Znumtheory.Zmod_div_mod; [lia|lia|]; exists (2 ^ 13); reflexivity).
  split; [unfold val; cbn [f0 f1 f2 f3 f4]; change (48 + 3) with 51; change (96 + 6) with 102; change (152 + 1) with 153; change (192 + 12) with 204; apply limbs_255|].
  unfold below. cbn [f0 f1 f2 f3 f4]. repeat split; apply Z.mod_pos_bound; reflexivity.
Qed.

(** ** Limbs to bytes *)
Ltac div51 x := 
  let q := fresh "q" in let m := fresh "m" in let E := fresh "E" in let R := fresh "R" in
  assert (E : x = P51 * (x / P51) + x mod P51) by (apply Z.div_mod; discriminate);
  assert (R : 0 <= x mod P51 < P51) by (apply Z.mod_pos_bound; reflexivity);
  set (q := x / P51) in *; set (m := x mod P51) in *; clearbody q m.

(** The first two passes: all limbs reduced, the value is kept modulo p. *)
Lemma carries_spec : forall i, below RED i -> let r := second_carry_full (first_carry_full i) in eqp (val r) (val i) /\ below (2 ^ 51) r.
Proof.
  intros [a0 a1 a2 a3 a4] (A0 & A1 & A2 & A3 & A4). cbn [f0 f1 f2 f3 f4] in *. unfold RED in *. change (2 ^ 51 + 2 ^ 13) with (P51 + 8192) in *.
  unfold second_carry_full, first_carry_full, carry_0_to_1, modulo_carry_top, carry_pass. cbn [f0 f1 f2 f3 f4].
  rewrite !land_mask, !shr51. change (2 ^ 51) with P51.
  assert (I : forall x, 0 <= x < P64 -> u64 x = x) by (intros; apply u64_id; assumption).
  div51 a0. assert (0 <= q <= 1) by (unfold P51 in *; lia). rewrite (I (a1 + q)) by (unfold P64, P51 in *; lia).
  div51 (a1 + q). assert (0 <= q0 <= 1) by (unfold P51 in *; lia). rewrite (I (a2 + q0)) by (unfold P64, P51 in *; lia).
  div51 (a2 + q0). assert (0 <= q1 <= 1) by (unfold P51 in *; lia). rewrite (I (a3 + q1)) by (unfold P64, P51 in *; lia).
  div51 (a3 + q1). assert (0 <= q2 <= 1) by (unfold P51 in *; lia). rewrite (I (a4 + q2)) by (unfold P64, P51 in *; lia).
  div51 (a4 + q2). assert (0 <= q3 <= 1) by (unfold P51 in *; lia).
  rewrite (I (19 * q3)) by (unfold P64, P51 in *; lia). rewrite (I (m + 19 * q3)) by (unfold P64, P51 in *; lia).
  div51 (m + 19 * q3). assert (0 <= q4 <= 1) by (unfold P51 in *; lia). rewrite (I (m0 + q4)) by (unfold P64, P51 in *; lia).
  div51 (m0 + q4). assert (0 <= q5 <= 1) by (unfold P51 in *; lia). rewrite (I (m1 + q5)) by (unfold P64, P51 in *; lia).
  div51 (m1 + q5). assert (0 <= q6 <= 1) by (unfold P51 in *; lia). rewrite (I (m2 + q6)) by (unfold P64, P51 in *; lia).
  div51 (m2 + q6). assert (0 <= q7 <= 1) by (unfold P51 in *; lia). rewrite (I (m3 + q7)) by (unfold P64, P51 in *; lia).
  div51 (m3 + q7). assert (0 <= q8 <= 1) by (unfold P51 in *; lia).
  rewrite (I (19 * q8)) by (unfold P64, P51 in *; lia). rewrite (I (m4 + 19 * q8)) by (unfold P64, P51 in *; lia).
  div51 (m4 + 19 * q8). assert (Q9 : q9 = 0) by (unfold P51 in *; lia). 
  rewrite (I (m5 + q9)) by (unfold P64, P51 in *; lia).
  cbv zeta. split; [|unfold below; cbn [f0 f1 f2 f3 f4]; change (2 ^ 51) with P51; subst q9; lia].
  apply (eqp_of_sub _ _ (- q3 - q8)). unfold val. cbn [f0 f1 f2 f3 f4]. change (2 ^ 102) with (P51 * P51). change (2 ^ 153) with (P51 * P51 * P51). change (2 ^ 204) with (P51 * P51 * P51 * P51).
  change p25519 with (P51 * P51 * P51 * P51 * P51 - 19). change (2 ^ 51) with P51. unfold P51 in *. lia.
Qed.

Lemma trim_spec : forall i, below (2 ^ 51) i -> val (trim i) = val i mod p25519 /\ below (2 ^ 51) (trim i).
Proof.
  intros [a0 a1 a2 a3 a4] (A0 & A1 & A2 & A3 & A4). cbn [f0 f1 f2 f3 f4] in *. unfold trim. cbn [f0 f1 f2 f3 f4]. cbv zeta.
  rewrite u64_gte_mask_spec, !u64_eq_mask_spec by lia.
  assert (K : forall (a b : bool), Z.land (if a then 2 ^ 64 - 1 else 0) (if b then 2 ^ 64 - 1 else 0) = if a && b then 2 ^ 64 - 1 else 0) by (intros [] []; reflexivity).
  rewrite !K. clear K.
  set (c := _ && _). destruct c eqn:C; unfold c in C; clear c.
  - apply andb_true_iff in C as [C E4]. apply andb_true_iff in C as [C E3]. apply andb_true_iff in C as [C E2]. apply andb_true_iff in C as [C E1].
    apply Z.eqb_eq in E1, E2, E3, E4. apply Z.leb_le in C. subst a1 a2 a3 a4.
    change (Z.land 2251799813685229 (2 ^ 64 - 1)) with 2251799813685229. change (Z.land 2251799813685247 (2 ^ 64 - 1)) with 2251799813685247.
    rewrite !u64_id by lia. unfold val, below. cbn [f0 f1 f2 f3 f4]. split; [|lia].
    apply Z.mod_unique with 1; [left; change p25519 with 57896044618658097711785492504343953926634992332820282019728792003956564819949; lia|].
    change p25519 with 57896044618658097711785492504343953926634992332820282019728792003956564819949. lia.
  - rewrite !Z.land_0_r, !Z.sub_0_r, !u64_id by lia. unfold val, below. cbn [f0 f1 f2 f3 f4]. split; [|lia].
    symmetry. apply Z.mod_small. change p25519 with 57896044618658097711785492504343953926634992332820282019728792003956564819949.
    split; [lia|]. 
    assert (O : a0 < 2251799813685229 \/ a1 <> 2251799813685247 \/ a2 <> 2251799813685247 \/ a3 <> 2251799813685247 \/ a4 <> 2251799813685247).
    { destruct (Z.leb_spec 2251799813685229 a0); [|left; assumption]. destruct (Z.eqb_spec a1 2251799813685247); [|right; left; assumption].
      destruct (Z.eqb_spec a2 2251799813685247); [|right; right; left; assumption]. destruct (Z.eqb_spec a3 2251799813685247); [|right; right; right; left; assumption].
      destruct (Z.eqb_spec a4 2251799813685247); [discriminate|right; right; right; right; assumption]. }
    clear C. lia.
Qed.

Lemma lor_add : forall n x y, 0 <= n -> 0 <= y < 2 ^ n -> Z.lor (2 ^ n * x) y = 2 ^ n * x + y.
Proof.
  intros n x y Hn Hy. rewrite Z.add_nocarry_lxor, Z.lxor_lor; try reflexivity.
  all: apply Z.bits_inj'; intros i Hi; rewrite Z.land_spec, Z.bits_0; destruct (Z_lt_le_dec i n) as [L|L];
    [rewrite Z.mul_comm, Z.mul_pow2_bits_low by assumption; reflexivity|].
  all: apply range_bits in Hy; [|assumption]; rewrite (proj2 Hy i L); apply andb_false_r.
Qed.
Lemma u64_shl : forall x k, 0 <= x -> 0 <= k <= 64 -> u64 (Z.shiftl x k) = 2 ^ k * (x mod 2 ^ (64 - k)).
Proof.
  intros x k Hx Hk. unfold u64. rewrite Z.shiftl_mul_pow2 by lia. replace 64 with (k + (64 - k)) at 1 by lia. rewrite Z.pow_add_r by lia.
  rewrite Z.mul_comm. apply Z.mul_mod_distr_l; apply Z.pow_nonzero; lia.
Qed.
Lemma le_app : forall n m a b, 0 <= a < 256 ^ Z.of_nat n -> le n a ++ le m b = le (n + m) (a + 256 ^ Z.of_nat n * b).
Proof.
  induction n as [|n IH]; intros m a b Ha; [change (Z.of_nat 0) with 0 in *; rewrite Z.pow_0_r in *; cbn [le app Nat.add]; f_equal; lia|].
  rewrite Nat2Z.inj_succ, Z.pow_succ_r in * by lia. cbn [le app Nat.add].
  replace (a + 256 * 256 ^ Z.of_nat n * b) with (a + 256 ^ Z.of_nat n * b * 256) by ring. rewrite Z.mod_add, Z.div_add by lia. f_equal. apply IH.
  split; [apply Z.div_pos; lia|apply Z.div_lt_upper_bound; lia].
Qed.

Lemma store_spec : forall i, below (2 ^ 51) i -> store_limbs i = le 32 (val i).
Proof.
  intros [a0 a1 a2 a3 a4] (A0 & A1 & A2 & A3 & A4). cbn [f0 f1 f2 f3 f4] in *. unfold store_limbs. cbn [f0 f1 f2 f3 f4]. cbv zeta.
  rewrite !u64_shl by lia. change (64 - 51) with 13. change (64 - 38) with 26. change (64 - 25) with 39. change (64 - 12) with 52.
  rewrite !Z.shiftr_div_pow2 by lia.
  assert (D : forall x k, 0 < k -> 0 <= x < 2 ^ 51 -> x = 2 ^ k * (x / 2 ^ k) + x mod 2 ^ k /\ 0 <= x mod 2 ^ k < 2 ^ k /\ 0 <= x / 2 ^ k).
  { intros x k Hk Hx. assert (0 < 2 ^ k) by (apply Z.pow_pos_nonneg; lia). split; [apply Z.div_mod; lia|]. split; [apply Z.mod_pos_bound; assumption|apply Z.div_pos; lia]. }
  destruct (D a1 13) as (E1 & M1 & Q1); [lia|assumption|]. destruct (D a2 26) as (E2 & M2 & Q2); [lia|assumption|]. destruct (D a3 39) as (E3 & M3 & Q3); [lia|assumption|]. clear D.
  rewrite (Z.mod_small a4) by lia.
  set (m1 := a1 mod 2 ^ 13) in *. set (q1 := a1 / 2 ^ 13) in *. set (m2 := a2 mod 2 ^ 26) in *. set (q2 := a2 / 2 ^ 26) in *. set (m3 := a3 mod 2 ^ 39) in *. set (q3 := a3 / 2 ^ 39) in *.
  clearbody m1 q1 m2 q2 m3 q3. rewrite !lor_add by lia.
  rewrite (le_app 8 8 (2 ^ 25 * m3 + q2)) by (change (256 ^ Z.of_nat 8) with 18446744073709551616; lia).
  rewrite (le_app 8 (8 + 8) (2 ^ 38 * m2 + q1)) by (change (256 ^ Z.of_nat 8) with 18446744073709551616; lia).
  rewrite (le_app 8 (8 + (8 + 8)) (2 ^ 51 * m1 + a0)) by (change (256 ^ Z.of_nat 8) with 18446744073709551616; lia).
  change (8 + (8 + (8 + 8)))%nat with 32%nat. f_equal. change (256 ^ Z.of_nat 8) with 18446744073709551616. unfold val. cbn [f0 f1 f2 f3 f4]. rewrite E1, E2, E3. ring.
Qed.

Lemma fcontract_spec : forall i, below RED i -> fcontract i = encode_u (val i).
Proof.
  intros i Hi. unfold fcontract. destruct (carries_spec i Hi) as [V R]. destruct (trim_spec _ R) as [V2 R2].
  rewrite store_spec by exact R2. rewrite V2, V. reflexivity.
Qed.
