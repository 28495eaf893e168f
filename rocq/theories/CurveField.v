(** The limb arithmetic of Curve.v: bounds, absence of overflow, and values. *)
From Coq Require Import ZArith List Bool Lia.
From Verif Require Import Base NlSpec CurveSpec Curve.
Import ListNotations.
Open Scope Z_scope.

(** The number five limbs stand for. *)
Definition val (x : fe) : Z := f0 x + 2 ^ 51 * f1 x + 2 ^ 102 * f2 x + 2 ^ 153 * f3 x + 2 ^ 204 * f4 x.
(** Every limb is below [n]. *)
Definition below (n : Z) (x : fe) : Prop :=
  0 <= f0 x < n /\ 0 <= f1 x < n /\ 0 <= f2 x < n /\ 0 <= f3 x < n /\ 0 <= f4 x < n.
(** Equal modulo the prime. *)
Definition eqp (a b : Z) : Prop := a mod p25519 = b mod p25519.

Lemma p_pos : 0 < p25519. Proof. reflexivity. Qed.
Lemma eqp_shift : forall a k, eqp (a + k * p25519) a.
Proof. intros. unfold eqp. apply Z.mod_add. pose proof p_pos. lia. Qed.
Lemma eqp_of_sub : forall a b k, a - b = k * p25519 -> eqp a b.
Proof. intros a b k H. replace a with (b + k * p25519) by lia. apply eqp_shift. Qed.
Lemma eqp_mul : forall a b c d, eqp a b -> eqp c d -> eqp (a * c) (b * d).
Proof. unfold eqp. intros. rewrite Z.mul_mod, H, H0, <- Z.mul_mod by discriminate. reflexivity. Qed.
Lemma eqp_add : forall a b c d, eqp a b -> eqp c d -> eqp (a + c) (b + d).
Proof. unfold eqp. intros. rewrite Z.add_mod, H, H0, <- Z.add_mod by discriminate. reflexivity. Qed.
Lemma eqp_sub : forall a b c d, eqp a b -> eqp c d -> eqp (a - c) (b - d).
Proof. unfold eqp. intros. rewrite Zminus_mod, H, H0, <- Zminus_mod. reflexivity. Qed.
Lemma eqp_trans : forall a b c, eqp a b -> eqp b c -> eqp a c.
Proof. unfold eqp. congruence. Qed.
Lemma eqp_sym : forall a b, eqp a b -> eqp b a.
Proof. unfold eqp. congruence. Qed.
Lemma eqp_refl : forall a, eqp a a. Proof. reflexivity. Qed.
Lemma eqp_mod : forall a, eqp (a mod p25519) a.
Proof. intro. unfold eqp. apply Z.mod_mod. discriminate. Qed.

(** C operations as arithmetic. *)
Lemma land_mask : forall x, Z.land x MASK = x mod 2 ^ 51.
Proof. intro. change MASK with (Z.ones 51). apply Z.land_ones. lia. Qed.
Lemma shr51 : forall x, Z.shiftr x 51 = x / 2 ^ 51.
Proof. intro. apply Z.shiftr_div_pow2. lia. Qed.
Lemma u64_id : forall x, 0 <= x < 2 ^ 64 -> u64 x = x.
Proof. intros. apply Z.mod_small. assumption. Qed.
Lemma u128_id : forall x, 0 <= x < 2 ^ 128 -> u128 x = x.
Proof. intros. apply Z.mod_small. assumption. Qed.
Lemma u64_mask : forall x, Z.land (u64 x) MASK = x mod 2 ^ 51.
Proof. intro. rewrite land_mask. unfold u64. symmetry. apply Znumtheory.Zmod_div_mod; [lia|lia|]. exists (2 ^ 13). reflexivity. Qed.

(** A product of two bounded numbers. *)
Lemma mul_bound : forall a b A B, 0 <= a <= A -> 0 <= b <= B -> 0 <= a * b <= A * B.
Proof. intros. split; [apply Z.mul_nonneg_nonneg; lia|apply Z.mul_le_mono_nonneg; lia]. Qed.

Definition P51 : Z := Eval compute in 2 ^ 51.
Definition P64 : Z := Eval compute in 2 ^ 64.
Definition P128 : Z := Eval compute in 2 ^ 128.

(** Remove an innermost [mod P128]. *)
Ltac innermost I :=
  match goal with
  | |- context [?x mod P128] => lazymatch x with context [_ mod P128] => fail | _ => rewrite (I x) by (unfold P128; lia) end
  end.
(** The carries of a wide array whose limbs are small enough: same value, four limbs reduced. *)
Lemma carry_wide_spec : forall t N, 0 <= N <= 2 ^ 127 -> 0 <= f0 t <= N -> 0 <= f1 t <= N -> 0 <= f2 t <= N -> 0 <= f3 t <= N -> 0 <= f4 t <= 2 ^ 127 ->
  let r := carry_wide t in
  val r = val t /\ 0 <= f0 r < 2 ^ 51 /\ 0 <= f1 r < 2 ^ 51 /\ 0 <= f2 r < 2 ^ 51 /\ 0 <= f3 r < 2 ^ 51 /\ 0 <= f4 r <= f4 t + N / 2 ^ 50.
Proof.
  intros t N HN H0 H1 H2 H3 H4. unfold carry_wide. rewrite !u64_mask, !shr51.
  change (2 ^ 127) with 170141183460469231731687303715884105728 in *. change (2 ^ 51) with P51 in *. change (2 ^ 50) with 1125899906842624 in *.
  assert (HD : forall x, x = P51 * (x / P51) + x mod P51 /\ 0 <= x mod P51 < P51).
  { intro x. split; [apply Z.div_mod; discriminate|apply Z.mod_pos_bound; reflexivity]. }
  assert (HE : N = 1125899906842624 * (N / 1125899906842624) + N mod 1125899906842624 /\ 0 <= N mod 1125899906842624 < 1125899906842624).
  { split; [apply Z.div_mod; discriminate|apply Z.mod_pos_bound; reflexivity]. }
  set (c0 := f0 t / P51). assert (B0 := HD (f0 t)). fold c0 in B0.
  assert (C0 : 0 <= c0 <= N / 1125899906842624) by (unfold P51 in *; lia).
  assert (U1 : u128 (f1 t + c0) = f1 t + c0) by (apply u128_id; change (2 ^ 128) with P128; unfold P128, P51 in *; lia).
  rewrite U1. set (c1 := (f1 t + c0) / P51). assert (B1 := HD (f1 t + c0)). fold c1 in B1.
  assert (C1 : 0 <= c1 <= N / 1125899906842624) by (unfold P51 in *; lia).
  assert (U2 : u128 (f2 t + c1) = f2 t + c1) by (apply u128_id; change (2 ^ 128) with P128; unfold P128, P51 in *; lia).
  rewrite U2. set (c2 := (f2 t + c1) / P51). assert (B2 := HD (f2 t + c1)). fold c2 in B2.
  assert (C2 : 0 <= c2 <= N / 1125899906842624) by (unfold P51 in *; lia).
  assert (U3 : u128 (f3 t + c2) = f3 t + c2) by (apply u128_id; change (2 ^ 128) with P128; unfold P128, P51 in *; lia).
  rewrite U3. set (c3 := (f3 t + c2) / P51). assert (B3 := HD (f3 t + c2)). fold c3 in B3.
  assert (C3 : 0 <= c3 <= N / 1125899906842624) by (unfold P51 in *; lia).
  assert (U4 : u128 (f4 t + c3) = f4 t + c3) by (apply u128_id; change (2 ^ 128) with P128; unfold P128, P51 in *; lia).
  rewrite U4. clear U1 U2 U3 U4. clearbody c0 c1 c2 c3. cbv zeta. cbn [f0 f1 f2 f3 f4]. unfold val. cbn [f0 f1 f2 f3 f4].
  change (2 ^ 51) with P51. change (2 ^ 102) with (P51 * P51). change (2 ^ 153) with (P51 * P51 * P51). change (2 ^ 204) with (P51 * P51 * P51 * P51).
  repeat split; try (unfold P51 in *; lia).
Qed.

(** The largest top limb that can be folded into limb 0 without overflow. *)
Definition MX : Z := 2251799813685248 * 970000000000000000.
Lemma fold_top_spec : forall r, 0 <= f0 r < 2 ^ 51 -> 0 <= f1 r < 2 ^ 51 -> 0 <= f2 r < 2 ^ 51 -> 0 <= f3 r < 2 ^ 51 -> 0 <= f4 r <= MX ->
  let o := copy_from_wide (wide_carry_top r) in
  eqp (val o) (val r) /\ 0 <= f0 o < 2 ^ 51 + 19 * (f4 r / 2 ^ 51) + 1 /\ 0 <= f1 o < 2 ^ 51 /\ 0 <= f2 o < 2 ^ 51 /\ 0 <= f3 o < 2 ^ 51 /\ 0 <= f4 o < 2 ^ 51
  /\ f0 o < 2 ^ 64.
Proof.
  intros r H0 H1 H2 H3 H4. unfold copy_from_wide, wide_carry_top. cbn [f0 f1 f2 f3 f4]. rewrite land_mask, shr51.
  set (q := f4 r / 2 ^ 51). assert (E : f4 r = 2 ^ 51 * q + f4 r mod 2 ^ 51) by (apply Z.div_mod; discriminate).
  assert (Hm : 0 <= f4 r mod 2 ^ 51 < 2 ^ 51) by (apply Z.mod_pos_bound; reflexivity).
  set (m := f4 r mod 2 ^ 51) in *. clearbody q m.
  assert (Hq : 0 <= q <= 970000000000000000) by (unfold MX in *; lia).
  rewrite (u64_id q) by lia. rewrite (u128_id (19 * q)) by lia. rewrite (u128_id (f0 r + 19 * q)) by lia.
  rewrite !u64_id by lia. cbv zeta. cbn [f0 f1 f2 f3 f4]. split; [|lia].
  apply (eqp_of_sub _ _ (- q)). unfold val. cbn [f0 f1 f2 f3 f4]. rewrite E. unfold p25519. ring.
Qed.
Lemma carry_0_spec : forall o, 0 <= f0 o < 2 ^ 64 -> 0 <= f1 o < 2 ^ 63 ->
  let r := carry_0_to_1 o in val r = val o /\ 0 <= f0 r < 2 ^ 51 /\ f1 r = f1 o + f0 o / 2 ^ 51 /\ 0 <= f0 o / 2 ^ 51 < 2 ^ 13 /\ f2 r = f2 o /\ f3 r = f3 o /\ f4 r = f4 o.
Proof.
  intros o H0 H1. unfold carry_0_to_1. rewrite land_mask, shr51.
  assert (E : f0 o = 2 ^ 51 * (f0 o / 2 ^ 51) + f0 o mod 2 ^ 51) by (apply Z.div_mod; discriminate).
  assert (Hm : 0 <= f0 o mod 2 ^ 51 < 2 ^ 51) by (apply Z.mod_pos_bound; reflexivity).
  set (q := f0 o / 2 ^ 51) in *. set (m := f0 o mod 2 ^ 51) in *. clearbody q m.
  assert (Hq : 0 <= q < 2 ^ 13) by lia. rewrite (u64_id (f1 o + q)) by lia.
  cbv zeta. cbn [f0 f1 f2 f3 f4]. unfold val. cbn [f0 f1 f2 f3 f4]. repeat split; try lia.
Qed.

(** Reduced limbs: what multiplication and squaring produce. *)
Definition RED : Z := 2 ^ 51 + 2 ^ 13.
Lemma reduce_wide : forall t N, 0 <= N <= 2 ^ 117 -> 0 <= f0 t <= N -> 0 <= f1 t <= N -> 0 <= f2 t <= N -> 0 <= f3 t <= N -> 0 <= f4 t <= MX - 2 ^ 67 ->
  let r := carry_0_to_1 (copy_from_wide (wide_carry_top (carry_wide t))) in eqp (val r) (val t) /\ below RED r.
Proof.
  intros t N HN H0 H1 H2 H3 H4.
  destruct (carry_wide_spec t N) as (V & B0 & B1 & B2 & B3 & B4); try (unfold MX in *; lia).
  assert (HN2 : N / 2 ^ 50 <= 2 ^ 67) by (apply Z.div_le_upper_bound; lia).
  destruct (fold_top_spec (carry_wide t)) as (V' & C0 & C1 & C2 & C3 & C4 & C5); try (unfold MX in *; lia).
  destruct (carry_0_spec (copy_from_wide (wide_carry_top (carry_wide t)))) as (V2 & D0 & D1 & Dq & D2 & D3 & D4); try lia.
  cbv zeta. split; [rewrite V2, <- V; exact V'|]. unfold below, RED. rewrite D1, D2, D3, D4. lia.
Qed.

Lemma mul_shift_reduce_exact : forall a b, below (2 ^ 55) a -> below (2 ^ 55) b -> mul_shift_reduce a b =
  Fe (f0 a * f0 b + 19 * (f4 a * f1 b) + 19 * (f3 a * f2 b) + 19 * (f2 a * f3 b) + 19 * (f1 a * f4 b))
     (f1 a * f0 b + f0 a * f1 b + 19 * (f4 a * f2 b) + 19 * (f3 a * f3 b) + 19 * (f2 a * f4 b))
     (f2 a * f0 b + f1 a * f1 b + f0 a * f2 b + 19 * (f4 a * f3 b) + 19 * (f3 a * f4 b))
     (f3 a * f0 b + f2 a * f1 b + f1 a * f2 b + f0 a * f3 b + 19 * (f4 a * f4 b))
     (f4 a * f0 b + f3 a * f1 b + f2 a * f2 b + f1 a * f3 b + f0 a * f4 b).
Proof.
  intros [a0 a1 a2 a3 a4] [b0 b1 b2 b3 b4] (A0 & A1 & A2 & A3 & A4) (B0 & B1 & B2 & B3 & B4). cbn [f0 f1 f2 f3 f4] in *.
  unfold mul_shift_reduce, shift_reduce. cbn [f0 f1 f2 f3 f4].
  rewrite (u64_id (19 * a4)), (u64_id (19 * a3)), (u64_id (19 * a2)), (u64_id (19 * a1)) by lia.
  unfold sum_scalar. cbn [f0 f1 f2 f3 f4]. rewrite <- !Z.mul_assoc.
  assert (M : forall x y, 0 <= x < 2 ^ 55 -> 0 <= y < 2 ^ 55 -> 0 <= x * y <= 2 ^ 110).
  { intros x y Hx Hy. change (2 ^ 110) with (2 ^ 55 * 2 ^ 55). apply mul_bound; lia. }
  change (2 ^ 110) with 1298074214633706907132624082305024 in M.
  pose proof (M a0 b0 A0 B0). pose proof (M a0 b1 A0 B1). pose proof (M a0 b2 A0 B2). pose proof (M a0 b3 A0 B3). pose proof (M a0 b4 A0 B4).
  pose proof (M a1 b0 A1 B0). pose proof (M a1 b1 A1 B1). pose proof (M a1 b2 A1 B2). pose proof (M a1 b3 A1 B3). pose proof (M a1 b4 A1 B4).
  pose proof (M a2 b0 A2 B0). pose proof (M a2 b1 A2 B1). pose proof (M a2 b2 A2 B2). pose proof (M a2 b3 A2 B3). pose proof (M a2 b4 A2 B4).
  pose proof (M a3 b0 A3 B0). pose proof (M a3 b1 A3 B1). pose proof (M a3 b2 A3 B2). pose proof (M a3 b3 A3 B3). pose proof (M a3 b4 A3 B4).
  pose proof (M a4 b0 A4 B0). pose proof (M a4 b1 A4 B1). pose proof (M a4 b2 A4 B2). pose proof (M a4 b3 A4 B3). pose proof (M a4 b4 A4 B4).
  clear M A0 A1 A2 A3 A4 B0 B1 B2 B3 B4.
  generalize dependent (a0 * b0). generalize dependent (a0 * b1). generalize dependent (a0 * b2). generalize dependent (a0 * b3). generalize dependent (a0 * b4).
  generalize dependent (a1 * b0). generalize dependent (a1 * b1). generalize dependent (a1 * b2). generalize dependent (a1 * b3). generalize dependent (a1 * b4).
  generalize dependent (a2 * b0). generalize dependent (a2 * b1). generalize dependent (a2 * b2). generalize dependent (a2 * b3). generalize dependent (a2 * b4).
  generalize dependent (a3 * b0). generalize dependent (a3 * b1). generalize dependent (a3 * b2). generalize dependent (a3 * b3). generalize dependent (a3 * b4).
  generalize dependent (a4 * b0). generalize dependent (a4 * b1). generalize dependent (a4 * b2). generalize dependent (a4 * b3). generalize dependent (a4 * b4).
  intros. unfold u128. change (2 ^ 128) with P128.
  assert (I : forall x, 0 <= x < P128 -> x mod P128 = x) by (intros; apply Z.mod_small; assumption).
  f_equal; rewrite !Z.add_0_l; repeat (innermost I); reflexivity.
Qed.

(** A sum of five products. *)
Lemma five : forall Q c0 c1 c2 c3 c4 x0 x1 x2 x3 x4 M, 0 <= c0 -> 0 <= c1 -> 0 <= c2 -> 0 <= c3 -> 0 <= c4 ->
  0 <= x0 <= Q -> 0 <= x1 <= Q -> 0 <= x2 <= Q -> 0 <= x3 <= Q -> 0 <= x4 <= Q -> (c0 + c1 + c2 + c3 + c4) * Q <= M ->
  0 <= c0 * x0 + c1 * x1 + c2 * x2 + c3 * x3 + c4 * x4 <= M.
Proof.
  intros. assert (K : forall c x, 0 <= c -> 0 <= x <= Q -> 0 <= c * x <= c * Q) by (intros c x Hc Hx; apply mul_bound; lia).
  pose proof (K c0 x0 ltac:(assumption) ltac:(assumption)). pose proof (K c1 x1 ltac:(assumption) ltac:(assumption)). pose proof (K c2 x2 ltac:(assumption) ltac:(assumption)).
  pose proof (K c3 x3 ltac:(assumption) ltac:(assumption)). pose proof (K c4 x4 ltac:(assumption) ltac:(assumption)). lia.
Qed.

Lemma fmul_spec : forall A B a b, 0 < A <= 2 ^ 55 -> 0 < B <= 2 ^ 55 -> 5 * (A * B) <= MX - 2 ^ 67 -> below A a -> below B b ->
  eqp (val (fmul a b)) (val a * val b) /\ below RED (fmul a b).
Proof.
  intros A B a b HA HB HAB Ha Hb. unfold fmul. rewrite mul_shift_reduce_exact by (unfold below in *; lia).
  set (t := Fe _ _ _ _ _).
  assert (Hv : eqp (val t) (val a * val b)).
  { destruct a as [a0 a1 a2 a3 a4], b as [b0 b1 b2 b3 b4]. unfold t, val. cbn [f0 f1 f2 f3 f4].
    apply (eqp_of_sub _ _ (- (a4 * b1 + a3 * b2 + a2 * b3 + a1 * b4 + 2 ^ 51 * (a4 * b2 + a3 * b3 + a2 * b4) + 2 ^ 102 * (a4 * b3 + a3 * b4) + 2 ^ 153 * (a4 * b4)))).
    unfold p25519. ring. }
  assert (M : forall x y, 0 <= x < A -> 0 <= y < B -> 0 <= x * y <= A * B) by (intros; apply mul_bound; lia).
  assert (HQ : 0 <= A * B) by (apply Z.mul_nonneg_nonneg; lia). set (Q := A * B) in *. clearbody Q.
  destruct Ha as (A0 & A1 & A2 & A3 & A4), Hb as (B0 & B1 & B2 & B3 & B4). clear HA HB.
  assert (W : 0 <= 77 * Q <= 2 ^ 117 /\ 0 <= f0 t <= 77 * Q /\ 0 <= f1 t <= 77 * Q /\ 0 <= f2 t <= 77 * Q /\ 0 <= f3 t <= 77 * Q /\ 0 <= f4 t <= MX - 2 ^ 67).
  { clear Hv. unfold t. cbn [f0 f1 f2 f3 f4]. clear t. split; [unfold MX in *; lia|]. 
    repeat match goal with |- context [?x * ?y] => lazymatch x with 19 => fail | 77 => fail | _ => let H := fresh "H" in assert (H : 0 <= x * y <= Q) by (apply M; assumption); let p := fresh "p" in set (p := x * y) in *; clearbody p end end.
    clear M A0 A1 A2 A3 A4 B0 B1 B2 B3 B4. lia. }
  destruct W as (W & W0 & W1 & W2 & W3 & W4).
  destruct (reduce_wide t (77 * Q) W W0 W1 W2 W3 W4) as (V & R). split; [|exact R]. eapply eqp_trans; [exact V|exact Hv].
Qed.

Lemma fsquare_wide_exact : forall o, below (2 ^ 55) o -> fsquare_wide o =
  Fe (f0 o * f0 o + 38 * (f4 o * f1 o) + 38 * (f2 o * f3 o)) (2 * (f0 o * f1 o) + 38 * (f4 o * f2 o) + 19 * (f3 o * f3 o))
     (2 * (f0 o * f2 o) + f1 o * f1 o + 38 * (f4 o * f3 o)) (2 * (f0 o * f3 o) + 2 * (f1 o * f2 o) + 19 * (f4 o * f4 o))
     (2 * (f0 o * f4 o) + 2 * (f1 o * f3 o) + f2 o * f2 o).
Proof.
  intros [a0 a1 a2 a3 a4] (A0 & A1 & A2 & A3 & A4). unfold fsquare_wide. cbn [f0 f1 f2 f3 f4] in *. cbv zeta.
  rewrite (u64_id (a0 * 2)), (u64_id (a1 * 2)), (u64_id (a2 * 2)), (u64_id (a2 * 2 * 19)), (u64_id (a4 * 19)), (u64_id (a4 * 19 * 2)), (u64_id (a3 * 19)) by lia.
  replace (a4 * 19 * 2 * a1) with (38 * (a4 * a1)) by ring. replace (a2 * 2 * 19 * a3) with (38 * (a2 * a3)) by ring.
  replace (a0 * 2 * a1) with (2 * (a0 * a1)) by ring. replace (a4 * 19 * 2 * a2) with (38 * (a4 * a2)) by ring. replace (a3 * 19 * a3) with (19 * (a3 * a3)) by ring.
  replace (a0 * 2 * a2) with (2 * (a0 * a2)) by ring. replace (a4 * 19 * 2 * a3) with (38 * (a4 * a3)) by ring.
  replace (a0 * 2 * a3) with (2 * (a0 * a3)) by ring. replace (a1 * 2 * a2) with (2 * (a1 * a2)) by ring. replace (a4 * (a4 * 19)) with (19 * (a4 * a4)) by ring.
  replace (a0 * 2 * a4) with (2 * (a0 * a4)) by ring. replace (a1 * 2 * a3) with (2 * (a1 * a3)) by ring.
  assert (M : forall x y, 0 <= x < 2 ^ 55 -> 0 <= y < 2 ^ 55 -> 0 <= x * y <= 1298074214633706907132624082305024).
  { intros x y Hx Hy. change 1298074214633706907132624082305024 with (2 ^ 55 * 2 ^ 55). apply mul_bound; lia. }
  repeat match goal with |- context [?x * ?y] => lazymatch x with 19 => fail | 38 => fail | 2 => fail | _ => let H := fresh "H" in pose proof (M x y ltac:(assumption) ltac:(assumption)) as H; let p := fresh "p" in set (p := x * y) in *; clearbody p end end.
  clear M A0 A1 A2 A3 A4. unfold u128. change (2 ^ 128) with P128.
  assert (I : forall x, 0 <= x < P128 -> x mod P128 = x) by (intros; apply Z.mod_small; assumption).
  f_equal; repeat (innermost I); reflexivity.
Qed.

(** The largest limbs that may be squared. *)
Definition SQ : Z := 2 ^ 54 + 2 ^ 51 + 2 ^ 13.
Lemma fsquare_spec : forall a, below SQ a -> eqp (val (fsquare a)) (val a * val a) /\ below RED (fsquare a).
Proof.
  intros a Ha. unfold fsquare. rewrite fsquare_wide_exact by (unfold below, SQ in *; lia).
  set (t := Fe _ _ _ _ _).
  assert (Hv : eqp (val t) (val a * val a)).
  { destruct a as [a0 a1 a2 a3 a4]. unfold t, val. cbn [f0 f1 f2 f3 f4].
    apply (eqp_of_sub _ _ (- (2 * (a4 * a1) + 2 * (a3 * a2) + 2 ^ 51 * (2 * (a4 * a2) + a3 * a3) + 2 ^ 102 * (2 * (a4 * a3)) + 2 ^ 153 * (a4 * a4)))).
    unfold p25519. ring. }
  assert (M : forall x y, 0 <= x < SQ -> 0 <= y < SQ -> 0 <= x * y <= SQ * SQ) by (intros; apply mul_bound; lia).
  assert (HQ : 0 <= SQ * SQ) by (vm_compute; discriminate). assert (HQ2 : 5 * (SQ * SQ) <= MX - 2 ^ 67) by (vm_compute; discriminate).
  set (Q := SQ * SQ) in *. clearbody Q.
  destruct Ha as (A0 & A1 & A2 & A3 & A4).
  assert (W : 0 <= 77 * Q <= 2 ^ 117 /\ 0 <= f0 t <= 77 * Q /\ 0 <= f1 t <= 77 * Q /\ 0 <= f2 t <= 77 * Q /\ 0 <= f3 t <= 77 * Q /\ 0 <= f4 t <= MX - 2 ^ 67).
  { clear Hv. unfold t. cbn [f0 f1 f2 f3 f4]. clear t. split; [unfold MX in *; lia|]. 
    repeat match goal with |- context [?x * ?y] => lazymatch x with 19 => fail | 38 => fail | 2 => fail | 77 => fail | _ => let H := fresh "H" in assert (H : 0 <= x * y <= Q) by (apply M; assumption); let p := fresh "p" in set (p := x * y) in *; clearbody p end end.
    clear M A0 A1 A2 A3 A4. lia. }
  destruct W as (W & W0 & W1 & W2 & W3 & W4).
  destruct (reduce_wide t (77 * Q) W W0 W1 W2 W3 W4) as (V & R). split; [|exact R]. eapply eqp_trans; [exact V|exact Hv].
Qed.

Lemma below_mono : forall A B a, A <= B -> below A a -> below B a.
Proof. unfold below. intros. lia. Qed.
Lemma RED_SQ : RED <= SQ. Proof. vm_compute. discriminate. Qed.

Lemma fsquare_times_spec : forall n a, below SQ a -> eqp (val (fsquare_times a n)) (val a ^ 2 ^ (Z.of_nat (S n))) /\ below RED (fsquare_times a n).
Proof.
  induction n as [|n IH]; intros a Ha.
  - cbn [fsquare_times]. destruct (fsquare_spec a Ha) as [V R]. split; [|exact R]. change (2 ^ Z.of_nat 1) with 2. rewrite Z.pow_2_r. exact V.
  - cbn [fsquare_times]. destruct (IH a Ha) as [V R]. destruct (fsquare_spec (fsquare_times a n) (below_mono _ _ _ RED_SQ R)) as [V2 R2].
    split; [|exact R2]. eapply eqp_trans; [exact V2|]. replace (Z.of_nat (S (S n))) with (Z.of_nat (S n) + 1) by lia.
    rewrite Z.pow_add_r, Z.pow_1_r, Z.pow_mul_r, Z.pow_2_r by (try apply Z.pow_nonneg; lia). apply eqp_mul; exact V.
Qed.

Lemma fsum_spec : forall a b A B, below A a -> below B b -> A + B <= 2 ^ 63 -> val (fsum a b) = val a + val b /\ below (A + B) (fsum a b).
Proof.
  intros [a0 a1 a2 a3 a4] [b0 b1 b2 b3 b4] A B (A0 & A1 & A2 & A3 & A4) (B0 & B1 & B2 & B3 & B4) H. cbn [f0 f1 f2 f3 f4] in *.
  unfold fsum, below, val. cbn [f0 f1 f2 f3 f4]. rewrite !u64_id by lia. split; [ring|lia].
Qed.

Lemma fdifference_spec : forall a b B, below (2 ^ 54 - 152) a -> below B b -> 0 <= B <= 2 ^ 63 - 2 ^ 54 ->
  eqp (val (fdifference a b)) (val b - val a) /\ below (2 ^ 54 + B) (fdifference a b).
Proof.
  intros [a0 a1 a2 a3 a4] [b0 b1 b2 b3 b4] B (A0 & A1 & A2 & A3 & A4) (B0 & B1 & B2 & B3 & B4) H. cbn [f0 f1 f2 f3 f4] in *.
  unfold fdifference, below, val. cbn [f0 f1 f2 f3 f4]. 
  rewrite (u64_id (b0 + _)), (u64_id (b1 + _)), (u64_id (b2 + _)), (u64_id (b3 + _)), (u64_id (b4 + _)) by lia.
  rewrite !u64_id by lia. split; [|lia]. apply (eqp_of_sub _ _ 8). unfold p25519. ring.
Qed.

Lemma fscalar_spec : forall a, below SQ a -> eqp (val (fscalar a 121665)) (121665 * val a) /\ below (2 ^ 51 + 2 ^ 26) (fscalar a 121665).
Proof.
  intros [a0 a1 a2 a3 a4] (A0 & A1 & A2 & A3 & A4). unfold fscalar. cbn [f0 f1 f2 f3 f4] in *. unfold SQ in *.
  rewrite !u128_id by lia. set (t := Fe _ _ _ _ _).
  destruct (carry_wide_spec t (2 ^ 72)) as (V & B0 & B1 & B2 & B3 & B4); try (unfold t; cbn [f0 f1 f2 f3 f4]; lia).
  assert (T4 : f4 (carry_wide t) <= 2 ^ 72) by (unfold t in *; cbn [f0 f1 f2 f3 f4] in *; change (2 ^ 72 / 2 ^ 50) with (2 ^ 22) in B4; lia).
  destruct (fold_top_spec (carry_wide t)) as (V' & C0 & C1 & C2 & C3 & C4 & C5); try (unfold MX; lia).
  assert (T5 : f4 (carry_wide t) / 2 ^ 51 <= 2 ^ 21) by (apply Z.div_le_upper_bound; lia).
  split; [|unfold below; lia]. eapply eqp_trans; [exact V'|]. rewrite V. unfold t, val. cbn [f0 f1 f2 f3 f4].
  match goal with |- eqp ?x ?y => replace x with y by ring end. reflexivity.
Qed.

(** ** Inversion: the power p - 2 *)
Lemma eqp_pow : forall a b n, eqp a b -> eqp (a ^ n) (b ^ n).
Proof.
  intros a b n H. destruct (Z_lt_le_dec n 0) as [Hn|Hn]; [rewrite !Z.pow_neg_r by assumption; reflexivity|].
  revert n Hn. apply natlike_ind; [reflexivity|]. intros n Hn IH. rewrite !Z.pow_succ_r by assumption. apply eqp_mul; assumption.
Qed.
(** [x] is reduced and holds a power of [z]. *)
Definition holds (z : fe) (n : Z) (x : fe) : Prop := eqp (val x) (val z ^ n) /\ below RED x.
Lemma holds_mul : forall z m n x y, 0 <= m -> 0 <= n -> holds z m x -> holds z n y -> holds z (m + n) (fmul x y).
Proof.
  intros z m n x y Hm Hn [Vx Rx] [Vy Ry]. destruct (fmul_spec RED RED x y ltac:(split; [reflexivity|discriminate]) ltac:(split; [reflexivity|discriminate]) ltac:(vm_compute; discriminate) Rx Ry) as [V R].
  split; [|exact R]. eapply eqp_trans; [exact V|]. rewrite Z.pow_add_r by assumption. apply eqp_mul; assumption.
Qed.
Lemma holds_times : forall z m x n, 0 <= m -> holds z m x -> holds z (m * 2 ^ Z.of_nat (S n)) (fsquare_times x n).
Proof.
  intros z m x n Hm [Vx Rx]. destruct (fsquare_times_spec n x (below_mono _ _ _ RED_SQ Rx)) as [V R].
  split; [|exact R]. eapply eqp_trans; [exact V|]. rewrite Z.pow_mul_r by (try apply Z.pow_nonneg; lia). apply eqp_pow. exact Vx.
Qed.
Lemma crecip_spec : forall z, below RED z -> eqp (val (crecip z)) (val z ^ (p25519 - 2)) /\ below RED (crecip z).
Proof.
  intros z Hz. assert (H1 : holds z 1 z) by (split; [rewrite Z.pow_1_r; reflexivity|exact Hz]).
  unfold crecip. cbv zeta.
  repeat match goal with
  | |- context [fsquare_times ?x ?n] =>
      match goal with H : holds z ?m x |- _ =>
        let y := fresh "y" in let H' := fresh "H" in
        assert (H' := holds_times z m x n ltac:(discriminate) H); let e := eval vm_compute in (m * 2 ^ Z.of_nat (S n)) in change (m * 2 ^ Z.of_nat (S n)) with e in H'; 
        set (y := fsquare_times x n) in *; clearbody y end
  | |- context [fmul ?x ?x'] =>
      match goal with H : holds z ?m x, H0 : holds z ?m' x' |- _ =>
        let y := fresh "y" in let H' := fresh "H" in
        assert (H' := holds_mul z m m' x x' ltac:(discriminate) ltac:(discriminate) H H0); let e := eval vm_compute in (m + m') in change (m + m') with e in H'; 
        set (y := fmul x x') in *; clearbody y end
  end.
  match goal with H : holds z ?m ?y |- eqp (val ?y) _ /\ _ => change (p25519 - 2) with m; exact H end.
Qed.
