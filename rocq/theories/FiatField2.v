(** Fiat.v: bytes to limbs, limbs to bytes, conditional swap, inversion. *)
From Coq Require Import ZArith List Bool Lia.
From Verif Require Import Base NlSpec CurveSpec Fiat.
From Verif Require Import CurveField CurveField2 FiatField.
Import ListNotations.
Open Scope Z_scope.

(** ** Bytes to limbs *)
Lemma get_le32_spec : forall b off, Forall is_byte b -> length b = 32%nat -> (off + 4 <= 32)%nat -> get_le32 b off = (le_val b / 2 ^ (8 * Z.of_nat off)) mod 2 ^ 32.
Proof.
  intros b off Hb Lb Ho. unfold get_le32.
  assert (E : b = firstn off b ++ firstn 4 (skipn off b) ++ skipn 4 (skipn off b)) by (rewrite !firstn_skipn; reflexivity).
  assert (L1 : length (firstn off b) = off) by (rewrite firstn_length; lia).
  assert (L2 : length (firstn 4 (skipn off b)) = 4%nat) by (rewrite firstn_length, skipn_length; lia).
  pose proof (le_val_range _ (Forall_firstn' _ off b Hb)) as R1. pose proof (le_val_range _ (Forall_firstn' _ 4 _ (Forall_skipn' _ off b Hb))) as R2.
  rewrite E at 2. rewrite !le_val_app', L1, L2. rewrite L1 in R1. rewrite L2 in R2. change (256 ^ Z.of_nat 4) with (2 ^ 32) in *.
  replace (256 ^ Z.of_nat off) with (2 ^ (8 * Z.of_nat off)) in * by (rewrite Z.pow_mul_r by lia; reflexivity).
  set (P := 2 ^ (8 * Z.of_nat off)) in *. assert (HP : 0 < P) by (apply Z.pow_pos_nonneg; lia).
  rewrite (Z.mul_comm P), Z.div_add by lia. rewrite (Z.div_small (le_val (firstn off b))) by lia. rewrite Z.add_0_l.
  rewrite (Z.mul_comm (2 ^ 32)), Z.mod_add by lia. symmetry. apply Z.mod_small. exact R2.
Qed.
(** The low [k] bits of the upper word above the high bits of the lower one. *)
Lemma join_words : forall a b s k, 0 <= a < 2 ^ 32 -> 0 <= b -> 0 <= s <= 32 -> 0 <= k -> 32 - s + k <= 32 ->
  Z.lor (Z.shiftr a s) (u32 (Z.shiftl (Z.land b (Z.ones k)) (32 - s))) = a / 2 ^ s + 2 ^ (32 - s) * (b mod 2 ^ k).
Proof.
  intros a b s k Ha Hb Hs Hk H. rewrite Z.land_ones, Z.shiftr_div_pow2, Z.shiftl_mul_pow2 by lia.
  assert (B : 0 <= b mod 2 ^ k < 2 ^ k) by (apply Z.mod_pos_bound, Z.pow_pos_nonneg; lia).
  assert (P1 : 0 < 2 ^ (32 - s)) by (apply Z.pow_pos_nonneg; lia). assert (P2 : 0 < 2 ^ s) by (apply Z.pow_pos_nonneg; lia).
  assert (L : 2 ^ (32 - s) * 2 ^ k <= 2 ^ 32) by (rewrite <- Z.pow_add_r by lia; apply Z.pow_le_mono_r; lia).
  rewrite u32_id by nia. rewrite Z.lor_comm, (Z.mul_comm _ (2 ^ (32 - s))), lor_add; [lia|lia|].
  split; [apply Z.div_pos; lia|]. apply Z.div_lt_upper_bound; [exact P2|]. rewrite <- Z.pow_add_r by lia. replace (s + (32 - s)) with 32 by lia. apply Ha.
Qed.
Lemma words_255 : forall a0 a1 a2 a3 a4 a5 a6 a7,
  0 <= a0 < 2 ^ 32 -> 0 <= a1 < 2 ^ 32 -> 0 <= a2 < 2 ^ 32 -> 0 <= a3 < 2 ^ 32 -> 0 <= a4 < 2 ^ 32 -> 0 <= a5 < 2 ^ 32 -> 0 <= a6 < 2 ^ 32 -> 0 <= a7 < 2 ^ 32 ->
  let n := a0 + 2 ^ 32 * a1 + 2 ^ 64 * a2 + 2 ^ 96 * a3 + 2 ^ 128 * a4 + 2 ^ 160 * a5 + 2 ^ 192 * a6 + 2 ^ 224 * a7 in
  let x := Fx (a0 mod 2 ^ 26) (a0 / 2 ^ 26 + 2 ^ 6 * (a1 mod 2 ^ 19)) (a1 / 2 ^ 19 + 2 ^ 13 * (a2 mod 2 ^ 13)) (a2 / 2 ^ 13 + 2 ^ 19 * (a3 mod 2 ^ 6)) (a3 / 2 ^ 6)
              (a4 mod 2 ^ 25) (a4 / 2 ^ 25 + 2 ^ 7 * (a5 mod 2 ^ 19)) (a5 / 2 ^ 19 + 2 ^ 13 * (a6 mod 2 ^ 12)) (a6 / 2 ^ 12 + 2 ^ 20 * (a7 mod 2 ^ 6)) (a7 / 2 ^ 6 mod 2 ^ 25) in
  val10 x = n mod 2 ^ 255 /\ canon x.
Proof.
  intros. assert (D : forall x k, 0 < k -> 0 <= x < 2 ^ 32 -> x = 2 ^ k * (x / 2 ^ k) + x mod 2 ^ k /\ 0 <= x mod 2 ^ k < 2 ^ k /\ 0 <= x / 2 ^ k).
  { intros x0 k Hk Hx. assert (0 < 2 ^ k) by (apply Z.pow_pos_nonneg; lia). split; [apply Z.div_mod; lia|]. split; [apply Z.mod_pos_bound; assumption|apply Z.div_pos; lia]. }
  destruct (D a0 26 ltac:(lia) ltac:(assumption)) as (E0 & M0 & Q0). destruct (D a1 19 ltac:(lia) ltac:(assumption)) as (E1 & M1 & Q1).
  destruct (D a2 13 ltac:(lia) ltac:(assumption)) as (E2 & M2 & Q2). destruct (D a3 6 ltac:(lia) ltac:(assumption)) as (E3 & M3 & Q3).
  destruct (D a4 25 ltac:(lia) ltac:(assumption)) as (E4 & M4 & Q4). destruct (D a5 19 ltac:(lia) ltac:(assumption)) as (E5 & M5 & Q5).
  destruct (D a6 12 ltac:(lia) ltac:(assumption)) as (E6 & M6 & Q6). destruct (D a7 6 ltac:(lia) ltac:(assumption)) as (E7 & M7 & Q7).
  assert (R7 : a7 / 2 ^ 6 < 2 ^ 32) by lia. 
  destruct (D (a7 / 2 ^ 6) 25 ltac:(lia) ltac:(lia)) as (E8 & M8 & Q8). clear D R7.
  subst n x. unfold val10, canon. cbn [g0 g1 g2 g3 g4 g5 g6 g7 g8 g9].
  set (q0 := a0 / 2 ^ 26) in *. set (m0 := a0 mod 2 ^ 26) in *. set (q1 := a1 / 2 ^ 19) in *. set (m1 := a1 mod 2 ^ 19) in *.
  set (q2 := a2 / 2 ^ 13) in *. set (m2 := a2 mod 2 ^ 13) in *. set (q3 := a3 / 2 ^ 6) in *. set (m3 := a3 mod 2 ^ 6) in *.
  set (q4 := a4 / 2 ^ 25) in *. set (m4 := a4 mod 2 ^ 25) in *. set (q5 := a5 / 2 ^ 19) in *. set (m5 := a5 mod 2 ^ 19) in *.
  set (q6 := a6 / 2 ^ 12) in *. set (m6 := a6 mod 2 ^ 12) in *. set (q7 := a7 / 2 ^ 6) in *. set (m7 := a7 mod 2 ^ 6) in *.
  set (q8 := q7 / 2 ^ 25) in *. set (m8 := q7 mod 2 ^ 25) in *. clearbody q0 q1 q2 q3 q4 q5 q6 q8 m0 m1 m2 m3 m4 m5 m6 m7 m8. clearbody q7.
  split; [|lia]. apply Z.mod_unique with (q := q8); [left; lia|]. rewrite E7, E6, E5, E4, E3, E2, E1, E0, E8. ring.
Qed.
Lemma fe_frombytes_spec : forall b, Forall is_byte b -> length b = 32%nat -> val10 (fe_frombytes b) = le_val b mod 2 ^ 255 /\ canon (fe_frombytes b).
Proof.
  intros b Hb Lb. unfold fe_frombytes. cbv zeta.
  assert (W : forall o, (o + 4 <= 32)%nat -> 0 <= get_le32 b o < 2 ^ 32) by (intros o Ho; rewrite get_le32_spec by assumption; apply Z.mod_pos_bound; lia).
  pose proof (W 0%nat ltac:(lia)) as W0. pose proof (W 4%nat ltac:(lia)) as W1. pose proof (W 8%nat ltac:(lia)) as W2. pose proof (W 12%nat ltac:(lia)) as W3.
  pose proof (W 16%nat ltac:(lia)) as W4. pose proof (W 20%nat ltac:(lia)) as W5. pose proof (W 24%nat ltac:(lia)) as W6. pose proof (W 28%nat ltac:(lia)) as W7. clear W.
  assert (V : le_val b = get_le32 b 0 + 2 ^ 32 * get_le32 b 4 + 2 ^ 64 * get_le32 b 8 + 2 ^ 96 * get_le32 b 12 + 2 ^ 128 * get_le32 b 16 + 2 ^ 160 * get_le32 b 20 + 2 ^ 192 * get_le32 b 24 + 2 ^ 224 * get_le32 b 28).
  { clear - Lb. do 32 (destruct b as [|? b]; [discriminate|]). destruct b; [|discriminate]. unfold get_le32. cbn [skipn firstn le_val]. ring. }
  set (a0 := get_le32 b 0) in *. set (a1 := get_le32 b 4) in *. set (a2 := get_le32 b 8) in *. set (a3 := get_le32 b 12) in *.
  set (a4 := get_le32 b 16) in *. set (a5 := get_le32 b 20) in *. set (a6 := get_le32 b 24) in *. set (a7 := get_le32 b 28) in *.
  clearbody a0 a1 a2 a3 a4 a5 a6 a7. rewrite V. 
  pose proof (words_255 a0 a1 a2 a3 a4 a5 a6 a7 W0 W1 W2 W3 W4 W5 W6 W7) as H. cbv zeta in H.
  change (Z.shiftl 1 26 - 1) with (Z.ones 26). change (Z.shiftl 1 19 - 1) with (Z.ones 19). change (Z.shiftl 1 13 - 1) with (Z.ones 13).
  change (Z.shiftl 1 6 - 1) with (Z.ones 6). change (Z.shiftl 1 25 - 1) with (Z.ones 25). change (Z.shiftl 1 12 - 1) with (Z.ones 12).
pose proof (join_words a0 a1 26 19 ltac:(assumption) ltac:(lia) ltac:(lia) ltac:(lia) ltac:(lia)) as J0. change (32 - 26) with 6 in J0. rewrite <- J0 in H.
  pose proof (join_words a1 a2 19 13 ltac:(assumption) ltac:(lia) ltac:(lia) ltac:(lia) ltac:(lia)) as J1. change (32 - 19) with 13 in J1. rewrite <- J1 in H.
  pose proof (join_words a2 a3 13 6 ltac:(assumption) ltac:(lia) ltac:(lia) ltac:(lia) ltac:(lia)) as J2. change (32 - 13) with 19 in J2. rewrite <- J2 in H.
  pose proof (join_words a4 a5 25 19 ltac:(assumption) ltac:(lia) ltac:(lia) ltac:(lia) ltac:(lia)) as J3. change (32 - 25) with 7 in J3. rewrite <- J3 in H.
  pose proof (join_words a5 a6 19 12 ltac:(assumption) ltac:(lia) ltac:(lia) ltac:(lia) ltac:(lia)) as J4. change (32 - 19) with 13 in J4. rewrite <- J4 in H.
  pose proof (join_words a6 a7 12 6 ltac:(assumption) ltac:(lia) ltac:(lia) ltac:(lia) ltac:(lia)) as J5. change (32 - 12) with 20 in J5. rewrite <- J5 in H.
  rewrite <- !(Z.land_ones _ 26), <- !(Z.land_ones _ 25), <- (Z.shiftr_div_pow2 a3), <- (Z.shiftr_div_pow2 a7) in H by lia. exact H.
Qed.

(** ** Limbs to bytes *)
Lemma shr31 : forall x, 0 <= x < 2 ^ 32 -> u8 (Z.shiftr x 31) = if x <? 2 ^ 31 then 0 else 1.
Proof.
  intros x Hx. rewrite Z.shiftr_div_pow2 by lia. destruct (Z.ltb_spec x (2 ^ 31)); [rewrite Z.div_small by lia; reflexivity|].
  replace (x / 2 ^ 31) with 1; [reflexivity|]. apply Z.div_unique with (x - 2 ^ 31); lia.
Qed.
Lemma sub_borrow : forall n c a b, 0 <= n <= 30 -> 0 <= c <= 1 -> 0 <= a <= 2 ^ n -> 0 <= b < 2 ^ n -> a - b < 2 ^ n ->
  let x := u32 (u32 (a - b) - c) in let o := u8 (Z.shiftr x 31) in let l := Z.land x (Z.ones n) in
  a - b - c = l - 2 ^ n * o /\ 0 <= l < 2 ^ n /\ 0 <= o <= 1.
Proof.
  intros n c a b Hn Hc Ha Hb H. cbv zeta. assert (P : 0 < 2 ^ n <= 2 ^ 30) by (split; [apply Z.pow_pos_nonneg; lia|apply Z.pow_le_mono_r; lia]).
  assert (X : u32 (u32 (a - b) - c) = (a - b - c) mod 2 ^ 32) by (unfold u32; apply Zminus_mod_idemp_l).
  rewrite X. rewrite Z.land_ones by lia. 
  assert (M : ((a - b - c) mod 2 ^ 32) mod 2 ^ n = (a - b - c) mod 2 ^ n).
  { symmetry. apply Znumtheory.Zmod_div_mod; [lia|lia|]. exists (2 ^ (32 - n)). rewrite <- Z.pow_add_r by lia. f_equal. lia. }
  rewrite M. rewrite shr31 by (apply Z.mod_pos_bound; lia).
  destruct (Z_lt_le_dec (a - b - c) 0) as [L|L].
  - assert (E1 : (a - b - c) mod 2 ^ 32 = a - b - c + 2 ^ 32) by (symmetry; apply Z.mod_unique with (-1); [left; lia|lia]).
    assert (E2 : (a - b - c) mod 2 ^ n = a - b - c + 2 ^ n) by (symmetry; apply Z.mod_unique with (-1); [left; lia|lia]).
    rewrite E1, E2. destruct (Z.ltb_spec (a - b - c + 2 ^ 32) (2 ^ 31)); lia.
  - rewrite !Z.mod_small by lia. destruct (Z.ltb_spec (a - b - c) (2 ^ 31)); lia.
Qed.
Lemma sub26 : forall c a b, 0 <= c <= 1 -> 0 <= a <= 2 ^ 26 -> 0 <= b < 2 ^ 26 -> a - b < 2 ^ 26 ->
  exists l o, subborrow_u26 c a b = (l, o) /\ a - b - c = l - 67108864 * o /\ 0 <= l < 67108864 /\ 0 <= o <= 1.
Proof. intros. do 2 eexists. split; [reflexivity|]. apply (sub_borrow 26); try assumption; lia. Qed.
Lemma sub25 : forall c a b, 0 <= c <= 1 -> 0 <= a <= 2 ^ 25 -> 0 <= b < 2 ^ 25 -> a - b < 2 ^ 25 ->
  exists l o, subborrow_u25 c a b = (l, o) /\ a - b - c = l - 33554432 * o /\ 0 <= l < 33554432 /\ 0 <= o <= 1.
Proof. intros. do 2 eexists. split; [reflexivity|]. apply (sub_borrow 25); try assumption; lia. Qed.
Lemma add_carry : forall n c a b, 0 <= n <= 30 -> 0 <= c <= 1 -> 0 <= a < 2 ^ n -> 0 <= b < 2 ^ n ->
  let x := u32 (u32 (a + b) + c) in let o := Z.land (Z.shiftr x n) 1 in let l := Z.land x (Z.ones n) in
  a + b + c = l + 2 ^ n * o /\ 0 <= l < 2 ^ n /\ 0 <= o <= 1.
Proof.
  intros n c a b Hn Hc Ha Hb. cbv zeta. assert (P : 0 < 2 ^ n <= 2 ^ 30) by (split; [apply Z.pow_pos_nonneg; lia|apply Z.pow_le_mono_r; lia]).
  rewrite (u32_id (a + b)) by lia. rewrite u32_id by lia. rewrite Z.land_ones, Z.shiftr_div_pow2 by lia.
  assert (L1 : forall z, Z.land z 1 = z mod 2) by (intro z; apply (Z.land_ones z 1); lia). rewrite !L1.
  pose proof (Z.div_mod (a + b + c) (2 ^ n) ltac:(lia)) as D. pose proof (Z.mod_pos_bound (a + b + c) (2 ^ n) ltac:(lia)) as B.
  set (q := (a + b + c) / 2 ^ n) in *. assert (Hq : 0 <= q <= 1) by nia. rewrite (Z.mod_small q) by lia. lia.
Qed.
Lemma add26 : forall c a b, 0 <= c <= 1 -> 0 <= a < 67108864 -> 0 <= b < 67108864 ->
  exists l o, addcarryx_u26 c a b = (l, o) /\ a + b + c = l + 67108864 * o /\ 0 <= l < 67108864 /\ 0 <= o <= 1.
Proof. intros. do 2 eexists. split; [reflexivity|]. apply (add_carry 26); try assumption; lia. Qed.
Lemma add25 : forall c a b, 0 <= c <= 1 -> 0 <= a < 33554432 -> 0 <= b < 33554432 ->
  exists l o, addcarryx_u25 c a b = (l, o) /\ a + b + c = l + 33554432 * o /\ 0 <= l < 33554432 /\ 0 <= o <= 1.
Proof. intros. do 2 eexists. split; [reflexivity|]. apply (add_carry 25); try assumption; lia. Qed.

(** All limbs below their radix. *)
Definition full (r : fx) : Prop :=
  (0 <= g0 r < 2 ^ 26 /\ 0 <= g1 r < 2 ^ 25 /\ 0 <= g2 r < 2 ^ 26 /\ 0 <= g3 r < 2 ^ 25 /\ 0 <= g4 r < 2 ^ 26)
  /\ 0 <= g5 r < 2 ^ 25 /\ 0 <= g6 r < 2 ^ 26 /\ 0 <= g7 r < 2 ^ 25 /\ 0 <= g8 r < 2 ^ 26 /\ 0 <= g9 r < 2 ^ 25.
Lemma full_range : forall r, full r -> 0 <= val10 r < 2 ^ 255.
Proof. unfold full, val10. intros. lia. Qed.
Lemma fe_freeze_spec : forall f, canon f -> val10 (fe_freeze f) = val10 f mod p25519 /\ full (fe_freeze f).
Proof.
  intros [a0 a1 a2 a3 a4 a5 a6 a7 a8 a9] [(A0 & A1 & A2 & A3 & A4) (A5 & A6 & A7 & A8 & A9)]. cbn [g0 g1 g2 g3 g4 g5 g6 g7 g8 g9] in *.
  unfold fe_freeze. cbn [g0 g1 g2 g3 g4 g5 g6 g7 g8 g9]. cbv zeta.
  destruct (sub26 0 a0 0x3ffffed) as (l0 & o0 & E & S0 & R0 & O0); [lia|lia|lia|lia|]. rewrite E; clear E.
  destruct (sub25 o0 a1 0x1ffffff) as (l1 & o1 & E & S1 & R1 & O1); [assumption|lia|lia|lia|]. rewrite E; clear E.
  destruct (sub26 o1 a2 0x3ffffff) as (l2 & o2 & E & S2 & R2 & O2); [assumption|lia|lia|lia|]. rewrite E; clear E.
  destruct (sub25 o2 a3 0x1ffffff) as (l3 & o3 & E & S3 & R3 & O3); [assumption|lia|lia|lia|]. rewrite E; clear E.
  destruct (sub26 o3 a4 0x3ffffff) as (l4 & o4 & E & S4 & R4 & O4); [assumption|lia|lia|lia|]. rewrite E; clear E.
  destruct (sub25 o4 a5 0x1ffffff) as (l5 & o5 & E & S5 & R5 & O5); [assumption|lia|lia|lia|]. rewrite E; clear E.
  destruct (sub26 o5 a6 0x3ffffff) as (l6 & o6 & E & S6 & R6 & O6); [assumption|lia|lia|lia|]. rewrite E; clear E.
  destruct (sub25 o6 a7 0x1ffffff) as (l7 & o7 & E & S7 & R7 & O7); [assumption|lia|lia|lia|]. rewrite E; clear E.
  destruct (sub26 o7 a8 0x3ffffff) as (l8 & o8 & E & S8 & R8 & O8); [assumption|lia|lia|lia|]. rewrite E; clear E.
  destruct (sub25 o8 a9 0x1ffffff) as (l9 & o9 & E & S9 & R9 & O9); [assumption|lia|lia|lia|]. rewrite E; clear E.
  set (V := val10 (Fx a0 a1 a2 a3 a4 a5 a6 a7 a8 a9)).
  assert (HV : V - p25519 = val10 (Fx l0 l1 l2 l3 l4 l5 l6 l7 l8 l9) - 2 ^ 255 * o9).
  { unfold V, val10, p25519. cbn [g0 g1 g2 g3 g4 g5 g6 g7 g8 g9].
    replace l0 with (a0 - 0x3ffffed - 0 + 67108864 * o0) by (clear - S0; lia). replace l1 with (a1 - 0x1ffffff - o0 + 33554432 * o1) by (clear - S1; lia).
    replace l2 with (a2 - 0x3ffffff - o1 + 67108864 * o2) by (clear - S2; lia). replace l3 with (a3 - 0x1ffffff - o2 + 33554432 * o3) by (clear - S3; lia).
    replace l4 with (a4 - 0x3ffffff - o3 + 67108864 * o4) by (clear - S4; lia). replace l5 with (a5 - 0x1ffffff - o4 + 33554432 * o5) by (clear - S5; lia).
    replace l6 with (a6 - 0x3ffffff - o5 + 67108864 * o6) by (clear - S6; lia). replace l7 with (a7 - 0x1ffffff - o6 + 33554432 * o7) by (clear - S7; lia).
    replace l8 with (a8 - 0x3ffffff - o7 + 67108864 * o8) by (clear - S8; lia). replace l9 with (a9 - 0x1ffffff - o8 + 33554432 * o9) by (clear - S9; lia). ring. }
  assert (BV : 0 <= V < 2 * p25519) by (clear - A0 A1 A2 A3 A4 A5 A6 A7 A8 A9; unfold V, val10, p25519; cbn [g0 g1 g2 g3 g4 g5 g6 g7 g8 g9]; lia).
  assert (BL : 0 <= val10 (Fx l0 l1 l2 l3 l4 l5 l6 l7 l8 l9) < 2 ^ 255) by (clear - R0 R1 R2 R3 R4 R5 R6 R7 R8 R9; apply full_range; unfold full; cbn [g0 g1 g2 g3 g4 g5 g6 g7 g8 g9]; lia).
  clearbody V. clear S0 S1 S2 S3 S4 S5 S6 S7 S8 S9 A0 A1 A2 A3 A4 A5 A6 A7 A8 A9 a0 a1 a2 a3 a4 a5 a6 a7 a8 a9.
  assert (exists M, cmovznz32 o9 0 0xffffffff = M /\ (M = 0 /\ o9 = 0 \/ M = 0xffffffff /\ o9 = 1)) as (M & EM & HM).
  { assert (Z9 : o9 = 0 \/ o9 = 1) by (clear - O9; lia). destruct Z9 as [-> | ->]; eexists; (split; [reflexivity|]); [left|right]; split; reflexivity. }
  rewrite EM. clear EM.
  set (e0 := Z.land M 0x3ffffed). set (e1 := Z.land M 0x1ffffff). set (e2 := Z.land M 0x3ffffff).
  assert (He : e0 = 0x3ffffed * o9 /\ e1 = 0x1ffffff * o9 /\ e2 = 0x3ffffff * o9) by (unfold e0, e1, e2; destruct HM as [[-> ->] | [-> ->]]; repeat split; reflexivity).
  clearbody e0 e1 e2. destruct He as (K0 & K1 & K2).  assert (Z9 : o9 = 0 \/ o9 = 1) by (clear - O9; lia).
  assert (B0 : 0 <= e0 < 67108864) by (clear - K0 O9; lia). assert (B1 : 0 <= e1 < 33554432) by (clear - K1 O9; lia). assert (B2 : 0 <= e2 < 67108864) by (clear - K2 O9; lia).
  destruct (add26 0 l0 e0) as (r0 & c0 & E & T0 & Q0 & C0); [clear; lia|assumption|assumption|]. rewrite E; clear E.
  destruct (add25 c0 l1 e1) as (r1 & c1 & E & T1 & Q1 & C1); [assumption|assumption|assumption|]. rewrite E; clear E.
  destruct (add26 c1 l2 e2) as (r2 & c2 & E & T2 & Q2 & C2); [assumption|assumption|assumption|]. rewrite E; clear E.
  destruct (add25 c2 l3 e1) as (r3 & c3 & E & T3 & Q3 & C3); [assumption|assumption|assumption|]. rewrite E; clear E.
  destruct (add26 c3 l4 e2) as (r4 & c4 & E & T4 & Q4 & C4); [assumption|assumption|assumption|]. rewrite E; clear E.
  destruct (add25 c4 l5 e1) as (r5 & c5 & E & T5 & Q5 & C5); [assumption|assumption|assumption|]. rewrite E; clear E.
  destruct (add26 c5 l6 e2) as (r6 & c6 & E & T6 & Q6 & C6); [assumption|assumption|assumption|]. rewrite E; clear E.
  destruct (add25 c6 l7 e1) as (r7 & c7 & E & T7 & Q7 & C7); [assumption|assumption|assumption|]. rewrite E; clear E.
  destruct (add26 c7 l8 e2) as (r8 & c8 & E & T8 & Q8 & C8); [assumption|assumption|assumption|]. rewrite E; clear E.
  destruct (add25 c8 l9 e1) as (r9 & c9 & E & T9 & Q9 & C9); [assumption|assumption|assumption|]. rewrite E; clear E.
  assert (F : full (Fx r0 r1 r2 r3 r4 r5 r6 r7 r8 r9)) by (clear - Q0 Q1 Q2 Q3 Q4 Q5 Q6 Q7 Q8 Q9; unfold full; cbn [g0 g1 g2 g3 g4 g5 g6 g7 g8 g9]; lia). split; [|exact F].
  pose proof (full_range _ F) as BR.
  assert (HR : val10 (Fx r0 r1 r2 r3 r4 r5 r6 r7 r8 r9) + 2 ^ 255 * c9 = val10 (Fx l0 l1 l2 l3 l4 l5 l6 l7 l8 l9) + p25519 * o9).
  { unfold val10, p25519. cbn [g0 g1 g2 g3 g4 g5 g6 g7 g8 g9]. clear BL HV BV BR F.
    replace r0 with (l0 + e0 + 0 - 67108864 * c0) by (clear - T0; lia). replace r1 with (l1 + e1 + c0 - 33554432 * c1) by (clear - T1; lia). replace r2 with (l2 + e2 + c1 - 67108864 * c2) by (clear - T2; lia).
    replace r3 with (l3 + e1 + c2 - 33554432 * c3) by (clear - T3; lia). replace r4 with (l4 + e2 + c3 - 67108864 * c4) by (clear - T4; lia). replace r5 with (l5 + e1 + c4 - 33554432 * c5) by (clear - T5; lia).
    replace r6 with (l6 + e2 + c5 - 67108864 * c6) by (clear - T6; lia). replace r7 with (l7 + e1 + c6 - 33554432 * c7) by (clear - T7; lia). replace r8 with (l8 + e2 + c7 - 67108864 * c8) by (clear - T8; lia).
    replace r9 with (l9 + e1 + c8 - 33554432 * c9) by (clear - T9; lia). rewrite K0, K1, K2. ring. }
  set (R := val10 (Fx r0 r1 r2 r3 r4 r5 r6 r7 r8 r9)) in *. set (L := val10 (Fx l0 l1 l2 l3 l4 l5 l6 l7 l8 l9)) in *. clearbody R L.
  clear - HR BR BL HV BV Z9 C9. unfold p25519 in *.
  destruct Z9 as [-> | ->].
  - apply Z.mod_unique with 1; [left|]; lia.
  - apply Z.mod_unique with 0; [left|]; lia.
Qed.

Lemma split_limb : forall x a, 0 <= a ->
  x = x mod 2 ^ a + 2 ^ a * (x / 2 ^ a mod 256) + 2 ^ a * 256 * (x / 2 ^ (a + 8) mod 256) + 2 ^ a * 65536 * (x / 2 ^ (a + 16)).
Proof.
  intros x a Ha. assert (P : 0 < 2 ^ a) by (apply Z.pow_pos_nonneg; lia). pose proof (Z.div_mod x (2 ^ a) ltac:(lia)) as D.
  rewrite !Z.pow_add_r by lia. rewrite <- !Z.div_div by lia. set (q := x / 2 ^ a) in *. change (2 ^ 8) with 256. change (2 ^ 16) with (256 * 256). rewrite <- Z.div_div by lia.
  pose proof (Z.div_mod q 256 ltac:(lia)) as D1. pose proof (Z.div_mod (q / 256) 256 ltac:(lia)) as D2. 
  set (q1 := q / 256) in *. set (q2 := q1 / 256) in *. set (m := x mod 2 ^ a) in *. set (m1 := q mod 256) in *. set (m2 := q1 mod 256) in *. clearbody q m m1 m2 q1 q2. subst q1. subst q. subst x. ring.
Qed.
Lemma byte_join : forall x y k j, 0 <= k -> 0 <= j <= 8 -> 0 <= x < 2 ^ (k + j) -> 0 <= y ->
  u8 (Z.lor (Z.shiftr x k) (u32 (Z.shiftl y j))) = x / 2 ^ k + 2 ^ j * (y mod 2 ^ (8 - j)).
Proof.
  intros x y k j Hk Hj Hx Hy. rewrite Z.shiftr_div_pow2, Z.shiftl_mul_pow2 by lia.
  assert (P : 0 < 2 ^ j) by (apply Z.pow_pos_nonneg; lia). assert (P2 : 0 < 2 ^ k) by (apply Z.pow_pos_nonneg; lia).
  assert (B : 0 <= x / 2 ^ k < 2 ^ j) by (split; [apply Z.div_pos; lia|]; apply Z.div_lt_upper_bound; [exact P2|]; rewrite <- Z.pow_add_r by lia; apply Hx).
  assert (E : u32 (y * 2 ^ j) = 2 ^ j * (y mod 2 ^ (32 - j))).
  { unfold u32. replace (2 ^ 32) with (2 ^ (32 - j) * 2 ^ j) by (rewrite <- Z.pow_add_r by lia; f_equal; lia). rewrite Z.mul_mod_distr_r by (try apply Z.pow_nonzero; lia). apply Z.mul_comm. }
  rewrite E, Z.lor_comm, lor_add by lia. unfold u8.
  assert (E2 : 2 ^ 8 = 2 ^ j * 2 ^ (8 - j)) by (rewrite <- Z.pow_add_r by lia; replace (j + (8 - j)) with 8 by lia; reflexivity).
  pose proof (Z.pow_pos_nonneg 2 (8 - j) ltac:(lia) ltac:(lia)) as P3.
  rewrite E2. rewrite Z.add_comm, Z.rem_mul_r by lia. rewrite (Z.mul_comm (2 ^ j)), Z.mod_add, Z.div_add by lia. rewrite (Z.mod_small (x / 2 ^ k)), (Z.div_small (x / 2 ^ k)) by lia.
  rewrite Z.add_0_l. f_equal. f_equal. symmetry. apply Znumtheory.Zmod_div_mod; [lia|apply Z.pow_pos_nonneg; lia|]. exists (2 ^ 24). rewrite <- Z.pow_add_r by lia. f_equal. lia.
Qed.
Lemma byte_shr : forall x k, 0 <= k -> u8 (Z.shiftr x k) = x / 2 ^ k mod 256.
Proof. intros x k Hk. rewrite Z.shiftr_div_pow2 by exact Hk. reflexivity. Qed.
Lemma byte_top : forall x k, 0 <= k -> 0 <= x < 2 ^ (k + 8) -> u8 (Z.shiftr x k) = x / 2 ^ k.
Proof.
  intros x k Hk Hx. rewrite byte_shr by exact Hk. apply Z.mod_small. assert (0 < 2 ^ k) by (apply Z.pow_pos_nonneg; lia).
  split; [apply Z.div_pos; lia|]. apply Z.div_lt_upper_bound; [lia|]. change 256 with (2 ^ 8). rewrite <- Z.pow_add_r by lia. apply Hx.
Qed.
Lemma le_of_val : forall l, Forall is_byte l -> le (length l) (le_val l) = l.
Proof.
  induction l as [|b l IH]; intro H; [reflexivity|]. inversion H as [|x y Hb Hl]; subst. unfold is_byte in Hb. cbn [length le le_val].
  rewrite (Z.mul_comm 256), Z.mod_add, Z.div_add by lia. rewrite (Z.mod_small b), (Z.div_small b) by lia. cbn [Z.add]. rewrite IH by exact Hl. reflexivity.
Qed.
Lemma fe_tobytes_spec : forall f, canon f -> fe_tobytes f = encode_u (val10 f).
Proof.
  intros f Hf. destruct (fe_freeze_spec f Hf) as [V F]. unfold fe_tobytes. cbv zeta. unfold encode_u. rewrite <- V. clear V Hf.
  destruct (fe_freeze f) as [a0 a1 a2 a3 a4 a5 a6 a7 a8 a9]. clear f. destruct F as [(A0 & A1 & A2 & A3 & A4) (A5 & A6 & A7 & A8 & A9)]. cbn [g0 g1 g2 g3 g4 g5 g6 g7 g8 g9] in *.
  match goal with |- map u8 ?l = _ => set (r := map u8 l) end.
  assert (B : Forall is_byte r). { apply Forall_forall. intros x Hx. apply in_map_iff in Hx as (y & <- & _). unfold is_byte, u8. apply Z.mod_pos_bound. lia. }
  rewrite <- (le_of_val r B). change (length r) with 32%nat. change encode_le with le. f_equal. clear B. unfold r. clear r. cbn [map le_val].
  rewrite (byte_top a4 18), (byte_top a9 18) by (try assumption; lia).
  rewrite (byte_join a0 a1 24 2), (byte_join a1 a2 22 3), (byte_join a2 a3 21 5), (byte_join a3 a4 19 6), (byte_join a5 a6 24 1), (byte_join a6 a7 23 3), (byte_join a7 a8 21 4), (byte_join a8 a9 20 6) by (try assumption; lia).
  rewrite !byte_shr by lia.
  pose proof (split_limb a0 8 ltac:(lia)) as S0. pose proof (split_limb a1 6 ltac:(lia)) as S1. pose proof (split_limb a2 5 ltac:(lia)) as S2. pose proof (split_limb a3 3 ltac:(lia)) as S3.
  pose proof (split_limb a4 2 ltac:(lia)) as S4. pose proof (split_limb a5 8 ltac:(lia)) as S5. pose proof (split_limb a6 7 ltac:(lia)) as S6. pose proof (split_limb a7 5 ltac:(lia)) as S7.
  pose proof (split_limb a8 4 ltac:(lia)) as S8. pose proof (split_limb a9 2 ltac:(lia)) as S9.
  change (2 ^ 0) with 1. rewrite (Z.div_1_r a0), (Z.div_1_r a5). change (a0 mod 256) with (a0 mod 2 ^ 8). change (a5 mod 256) with (a5 mod 2 ^ 8).
  unfold val10. cbn [g0 g1 g2 g3 g4 g5 g6 g7 g8 g9].
  change (8 - 2) with 6 in *. change (8 - 3) with 5 in *. change (8 - 5) with 3 in *. change (8 - 6) with 2 in *. change (8 - 1) with 7 in *. change (8 - 4) with 4 in *.
  change (8 + 8) with 16 in *. change (8 + 16) with 24 in *. change (2 + 8) with 10 in *. change (2 + 16) with 18 in *. change (3 + 8) with 11 in *. change (3 + 16) with 19 in *. change (4 + 8) with 12 in *. change (4 + 16) with 20 in *. change (5 + 8) with 13 in *. change (5 + 16) with 21 in *. change (6 + 8) with 14 in *. change (6 + 16) with 22 in *. change (7 + 8) with 15 in *. change (7 + 16) with 23 in *.
  match type of S0 with _ = ?e0 => match type of S1 with _ = ?e1 => match type of S2 with _ = ?e2 => match type of S3 with _ = ?e3 => match type of S4 with _ = ?e4 =>
  match type of S5 with _ = ?e5 => match type of S6 with _ = ?e6 => match type of S7 with _ = ?e7 => match type of S8 with _ = ?e8 => match type of S9 with _ = ?e9 =>
    transitivity (e0 + 2 ^ 26 * e1 + 2 ^ 51 * e2 + 2 ^ 77 * e3 + 2 ^ 102 * e4 + 2 ^ 128 * e5 + 2 ^ 153 * e6 + 2 ^ 179 * e7 + 2 ^ 204 * e8 + 2 ^ 230 * e9)
  end end end end end end end end end end; [clear|rewrite <- S0, <- S1, <- S2, <- S3, <- S4, <- S5, <- S6, <- S7, <- S8, <- S9; reflexivity].
  ring.
Qed.

(** ** Conditional swap *)
Lemma cswap_limb_spec : forall (c : bool) a b, 0 <= a < 2 ^ 32 -> 0 <= b < 2 ^ 32 -> cswap_limb (u32 (0 - Z.b2z c)) a b = if c then (b, a) else (a, b).
Proof.
  intros c a b Ha Hb. unfold cswap_limb. destruct c; cbn [Z.b2z].
  - change (u32 (0 - 1)) with (Z.ones 32). rewrite Z.land_ones by lia. rewrite Z.mod_small by (apply lxor_range; lia).
    f_equal; [|rewrite (Z.lxor_comm a b)]; rewrite <- Z.lxor_assoc, Z.lxor_nilpotent, Z.lxor_0_l; reflexivity.
  - change (u32 (0 - 0)) with 0. rewrite Z.land_0_r, !Z.lxor_0_r. reflexivity.
Qed.
Lemma fe_cswap_spec : forall (c : bool) a b, upto TIGHT a -> upto TIGHT b -> fe_cswap a b (Z.b2z c) = if c then (b, a) else (a, b).
Proof.
  intros c [a0 a1 a2 a3 a4 a5 a6 a7 a8 a9] [b0 b1 b2 b3 b4 b5 b6 b7 b8 b9] [(A0 & A1 & A2 & A3 & A4) (A5 & A6 & A7 & A8 & A9)] [(B0 & B1 & B2 & B3 & B4) (B5 & B6 & B7 & B8 & B9)].
  unfold TIGHT in *. cbn [g0 g1 g2 g3 g4 g5 g6 g7 g8 g9] in *. unfold fe_cswap. cbv zeta. cbn [g0 g1 g2 g3 g4 g5 g6 g7 g8 g9]. rewrite !cswap_limb_spec by lia. destruct c; reflexivity.
Qed.

(** ** Inversion *)
Lemma tight_loose : TIGHT <= LOOSE. Proof. discriminate. Qed.
Lemma canon_loose : forall x, canon x -> upto LOOSE x.
Proof. intros x H. eapply upto_mono; [exact tight_loose|]. apply canon_upto, H. Qed.
Lemma fe_sq_times_spec : forall n a, upto LOOSE a -> eqp (val10 (fe_sq_times a n)) (val10 a ^ 2 ^ Z.of_nat (S n)) /\ canon (fe_sq_times a n).
Proof.
  induction n as [|n IH]; intros a Ha.
  - cbn [fe_sq_times]. change (2 ^ Z.of_nat 1) with 2. rewrite Z.pow_2_r. apply fe_sqr_spec. exact Ha.
  - cbn [fe_sq_times]. destruct (IH a Ha) as [V C]. destruct (fe_sqr_spec _ (canon_loose _ C)) as [V2 C2]. split; [|exact C2].
    eapply eqp_trans; [exact V2|]. eapply eqp_trans; [apply eqp_mul; exact V|]. rewrite <- Z.pow_add_r by (apply Z.pow_nonneg; lia).
    replace (2 ^ Z.of_nat (S n) + 2 ^ Z.of_nat (S n)) with (2 ^ Z.of_nat (S (S n))); [apply eqp_refl|]. rewrite (Nat2Z.inj_succ (S n)), Z.pow_succ_r by lia. lia.
Qed.
Definition holds10 (z : fx) (n : Z) (x : fx) : Prop := eqp (val10 x) (val10 z ^ n) /\ upto LOOSE x.
Lemma holds10_mul : forall z m n x y, 0 <= m -> 0 <= n -> holds10 z m x -> holds10 z n y -> holds10 z (m + n) (fe_mul_impl x y).
Proof.
  intros z m n x y Hm Hn [Vx Rx] [Vy Ry]. destruct (fe_mul_spec x y Rx Ry) as [V R]. split; [|apply canon_loose, R].
  eapply eqp_trans; [exact V|]. rewrite Z.pow_add_r by assumption. apply eqp_mul; assumption.
Qed.
Lemma holds10_times : forall z m x n, 0 <= m -> holds10 z m x -> holds10 z (m * 2 ^ Z.of_nat (S n)) (fe_sq_times x n).
Proof.
  intros z m x n Hm [Vx Rx]. destruct (fe_sq_times_spec n x Rx) as [V R]. split; [|apply canon_loose, R].
  eapply eqp_trans; [exact V|]. rewrite Z.pow_mul_r by (try apply Z.pow_nonneg; lia). apply eqp_pow. exact Vx.
Qed.
Lemma fe_invert_holds : forall z, upto LOOSE z -> holds10 z (p25519 - 2) (fe_invert z).
Proof.
  intros z Hz. assert (H1 : holds10 z 1 z) by (split; [rewrite Z.pow_1_r; reflexivity|exact Hz]).
  unfold fe_invert. cbv zeta.
  repeat match goal with
  | |- context [fe_sq_times ?x ?n] =>
      match goal with H : holds10 z ?m x |- _ =>
        let y := fresh "y" in let H' := fresh "H" in
        assert (H' := holds10_times z m x n ltac:(discriminate) H); let e := eval vm_compute in (m * 2 ^ Z.of_nat (S n)) in change (m * 2 ^ Z.of_nat (S n)) with e in H'; 
        set (y := fe_sq_times x n) in *; clearbody y end
  | |- context [fe_mul_impl ?x ?x'] =>
      match goal with H : holds10 z ?m x, H0 : holds10 z ?m' x' |- _ =>
        let y := fresh "y" in let H' := fresh "H" in
        assert (H' := holds10_mul z m m' x x' ltac:(discriminate) ltac:(discriminate) H H0); let e := eval vm_compute in (m + m') in change (m + m') with e in H'; 
        set (y := fe_mul_impl x x') in *; clearbody y end
  end.
  match goal with H : holds10 z ?m ?y |- holds10 z _ ?y => change (p25519 - 2) with m; exact H end.
Qed.
Lemma fe_invert_spec : forall z, upto LOOSE z -> eqp (val10 (fe_invert z)) (val10 z ^ (p25519 - 2)) /\ canon (fe_invert z).
Proof.
  intros z Hz. split; [apply fe_invert_holds; exact Hz|].
  unfold fe_invert. cbv zeta.
  assert (H1 : upto LOOSE z) by exact Hz.
  repeat match goal with
  | |- context [fe_sq_times ?x ?n] =>
      match goal with H : upto LOOSE x |- _ =>
        let y := fresh "y" in let H' := fresh "H" in assert (H' := canon_loose _ (proj2 (fe_sq_times_spec n x H))); set (y := fe_sq_times x n) in *; clearbody y end
  | |- canon (fe_mul_impl ?x ?x') =>
      match goal with H : upto LOOSE x, H0 : upto LOOSE x' |- _ => apply (fe_mul_spec x x' H H0) end
  | |- context [fe_mul_impl ?x ?x'] =>
      match goal with H : upto LOOSE x, H0 : upto LOOSE x' |- _ =>
        let y := fresh "y" in let H' := fresh "H" in assert (H' := canon_loose _ (proj2 (fe_mul_spec x x' H H0))); set (y := fe_mul_impl x x') in *; clearbody y end
  end.
Qed.
