(** C61: the implementation of X25519 for machines without 128-bit integers. *)
From Coq Require Import ZArith Lia List Bool Znumtheory.
From Verif Require Import Base NlSpec NlProofs EncodingSpec Keys PropKeys CurveSpec Curve CurveField CurveField2 Prime25519 CurveProofs CurveProofs2 PropCurve.
From Verif Require Import Fiat FiatField FiatField2 FiatProofs.
Import ListNotations.
Open Scope Z_scope.

(** ** Specification *)
(** Ten limbs, of 26 and 25 bits alternately, stand for a field element. *)
Definition limbs32 (x : fx) : list Z := [g0 x; g1 x; g2 x; g3 x; g4 x; g5 x; g6 x; g7 x; g8 x; g9 x].
Definition weights32 : list Z := map (Z.pow 2) [0; 26; 51; 77; 102; 128; 153; 179; 204; 230].
Definition number32 (x : fx) : Z := fold_right Z.add 0 (map (fun '(w, l) => w * l) (combine weights32 (limbs32 x))).
Definition element32 (x : fx) : Z := number32 x mod p25519.
(** The classes of representations: limbs up to m times 2^26 and 2^25 (both included), alternately. *)
Definition within (m : Z) (x : fx) : Prop := Forall (fun '(w, l) => 0 <= l <= m * 2 ^ w) (combine [26; 25; 26; 25; 26; 25; 26; 25; 26; 25] (limbs32 x)).
Definition tight := within 1.
Definition loose := within 3.
(** What products, squares and inverses leave: every limb of its 26 or 25 bits, but for the third, which may be one more. *)
Definition carried (x : fx) : Prop :=
  Forall (fun '(n, l) => 0 <= l < n) (combine [2 ^ 26; 2 ^ 25; 2 ^ 26 + 1; 2 ^ 25; 2 ^ 26; 2 ^ 25; 2 ^ 26; 2 ^ 25; 2 ^ 26; 2 ^ 25] (limbs32 x)).

Ltac forall_inv := repeat match goal with H : Forall _ (_ :: _) |- _ => inversion H; clear H; subst end.
Lemma number32_val : forall x, number32 x = val10 x.
Proof. intro x. unfold number32, weights32, limbs32, val10. cbn [map combine fold_right]. lia. Qed.
Lemma within_iff : forall m x, within m x <-> upto (m * 2 ^ 25) x.
Proof.
  intros m x. unfold within, limbs32, upto. cbn [combine]. split.
  - intro H. forall_inv. lia.
  - intros H. repeat constructor; lia.
Qed.
Lemma carried_iff : forall x, carried x <-> canon x.
Proof.
  intros x. unfold carried, limbs32, canon. cbn [combine]. split.
  - intro H. forall_inv. lia.
  - intros H. repeat constructor; lia.
Qed.
Lemma element32_val : forall x, element32 x = val10 x mod p25519. Proof. intro x. unfold element32. rewrite number32_val. reflexivity. Qed.
Lemma tight_upto : forall x, tight x <-> upto TIGHT x. Proof. intro x. apply (within_iff 1). Qed.
Lemma loose_upto : forall x, loose x <-> upto LOOSE x. Proof. intro x. apply (within_iff 3). Qed.
Lemma carried_tight : forall x, carried x -> tight x. Proof. intros x H. apply tight_upto, canon_upto, carried_iff, H. Qed.
Lemma carried_loose : forall x, carried x -> loose x. Proof. intros x H. apply loose_upto, canon_loose, carried_iff, H. Qed.
Lemma tight_loose_class : forall x, tight x -> loose x. Proof. intros x H. apply loose_upto. apply tight_upto in H. eapply upto_mono; [|exact H]. discriminate. Qed.

(** ** The field operations: no wrapping where a sum must be exact, the right element, and the class of the result, so that they can be chained as the ladder does. *)
(** Sums: every limb is the exact sum. *)
Theorem C61_add : forall a b, tight a -> tight b ->
  limbs32 (fe_add a b) = map (fun '(x, y) => x + y) (combine (limbs32 a) (limbs32 b)) /\ within 2 (fe_add a b) /\ element32 (fe_add a b) = fadd (element32 a) (element32 b).
Proof.
  intros a b Ha Hb. apply tight_upto in Ha, Hb. destruct (fe_add_spec a b Ha Hb) as [V R]. split; [|split; [apply within_iff; exact R|rewrite !element32_val, V; apply Zplus_mod]].
  destruct a as [a0 a1 a2 a3 a4 a5 a6 a7 a8 a9], b as [b0 b1 b2 b3 b4 b5 b6 b7 b8 b9]. unfold upto, TIGHT in *. cbn [g0 g1 g2 g3 g4 g5 g6 g7 g8 g9] in *.
  unfold fe_add, limbs32. cbn [g0 g1 g2 g3 g4 g5 g6 g7 g8 g9 combine map]. rewrite !u32_id by lia. reflexivity.
Qed.
(** Differences: 2p is added limb by limb, so that no limb goes below 0. *)
Theorem C61_sub : forall a b, tight a -> tight b ->
  limbs32 (fe_sub a b) = map (fun '(x, y, e) => x - y + e) (combine (combine (limbs32 a) (limbs32 b))
    [2 ^ 27 - 38; 2 ^ 26 - 2; 2 ^ 27 - 2; 2 ^ 26 - 2; 2 ^ 27 - 2; 2 ^ 26 - 2; 2 ^ 27 - 2; 2 ^ 26 - 2; 2 ^ 27 - 2; 2 ^ 26 - 2])
  /\ loose (fe_sub a b) /\ element32 (fe_sub a b) = fsub (element32 a) (element32 b).
Proof.
  intros a b Ha Hb. apply tight_upto in Ha, Hb. destruct (fe_sub_spec a b Ha Hb) as [V R]. split; [|split; [apply loose_upto; exact R|rewrite !element32_val; unfold fsub; rewrite V; apply Zminus_mod]].
  destruct a as [a0 a1 a2 a3 a4 a5 a6 a7 a8 a9], b as [b0 b1 b2 b3 b4 b5 b6 b7 b8 b9]. unfold upto, TIGHT in *. cbn [g0 g1 g2 g3 g4 g5 g6 g7 g8 g9] in *.
  unfold fe_sub, limbs32. cbn [g0 g1 g2 g3 g4 g5 g6 g7 g8 g9 combine map].
  rewrite (u32_id (_ + a0)), (u32_id (_ + a1)), (u32_id (_ + a2)), (u32_id (_ + a3)), (u32_id (_ + a4)), (u32_id (_ + a5)), (u32_id (_ + a6)), (u32_id (_ + a7)), (u32_id (_ + a8)), (u32_id (_ + a9)) by lia.
  rewrite !u32_id by lia. repeat apply (f_equal2 cons); try lia. reflexivity.
Qed.
(** Products, of sums and differences too. *)
Theorem C61_mul : forall a b, loose a -> loose b -> carried (fe_mul_impl a b) /\ element32 (fe_mul_impl a b) = fmult (element32 a) (element32 b).
Proof.
  intros a b Ha Hb. apply loose_upto in Ha, Hb. destruct (fe_mul_spec a b Ha Hb) as [V C]. split; [apply carried_iff; exact C|]. rewrite !element32_val. unfold fmult. rewrite V. apply Zmult_mod.
Qed.
Theorem C61_square : forall a, loose a -> carried (fe_sqr_impl a) /\ element32 (fe_sqr_impl a) = fpow (element32 a) 2.
Proof.
  intros a Ha. apply loose_upto in Ha. destruct (fe_sqr_spec a Ha) as [V C]. split; [apply carried_iff; exact C|]. rewrite !element32_val. unfold fpow. rewrite Z.pow_2_r, V. apply Zmult_mod.
Qed.
Theorem C61_squares : forall n a, loose a -> carried (fe_sq_times a n) /\ element32 (fe_sq_times a n) = fpow (element32 a) (2 ^ Z.of_nat (S n)).
Proof.
  intros n a Ha. apply loose_upto in Ha. destruct (fe_sq_times_spec n a Ha) as [V C]. split; [apply carried_iff; exact C|].
  rewrite !element32_val. unfold fpow. rewrite V. apply eqp_pow. symmetry. apply eqp_mod.
Qed.
Theorem C61_times_121666 : forall a, loose a -> carried (fe_mul121666 a) /\ element32 (fe_mul121666 a) = fmult 121666 (element32 a).
Proof.
  intros a Ha. apply loose_upto in Ha. destruct (fe_mul121666_spec a Ha) as [V C]. split; [apply carried_iff; exact C|]. rewrite !element32_val. unfold fmult. rewrite V. symmetry. apply Zmult_mod_idemp_r.
Qed.
(** Inverses (p is prime: C36_prime). *)
Theorem C61_inverse : forall a, loose a ->
  carried (fe_invert a) /\ element32 (fe_invert a) = fpow (element32 a) (p25519 - 2) /\ (element32 a <> 0 -> fmult (element32 (fe_invert a)) (element32 a) = 1).
Proof.
  intros a Ha. apply loose_upto in Ha. destruct (fe_invert_spec a Ha) as [V C]. split; [apply carried_iff; exact C|]. split.
  - rewrite !element32_val. unfold fpow. rewrite V. apply eqp_pow. symmetry. apply eqp_mod.
  - intro H. unfold fmult. rewrite !element32_val in *. rewrite <- Zmult_mod. change 1 with (1 mod p25519). change (eqp (val10 (fe_invert a) * val10 a) 1).
    rewrite V. rewrite Z.mul_comm. apply unit_fermat. apply unit_eqp. exact H.
Qed.
(** The conditional exchange is one, for every pair of elements. *)
Theorem C61_swap : forall a b, tight a -> tight b -> fe_cswap a b 0 = (a, b) /\ fe_cswap a b 1 = (b, a).
Proof.
  intros a b Ha Hb. apply tight_upto in Ha, Hb. split; [apply (fe_cswap_spec false a b Ha Hb)|apply (fe_cswap_spec true a b Ha Hb)].
Qed.
(** Reading: the number the 32 bytes spell, without its top bit, digit by digit. *)
Theorem C61_read : forall u, is_key u -> carried (fe_frombytes u) /\ number32 (fe_frombytes u) = decode_u u.
Proof.
  intros u [Hl Hb]. destruct (fe_frombytes_spec u Hb Hl) as [V C]. split; [apply carried_iff; exact C|]. rewrite number32_val, V. symmetry. apply decode_u_val; assumption.
Qed.
(** Writing: 32 bytes, the smallest representative. *)
Theorem C61_canonical : forall a, carried a ->
  is_key (fe_tobytes a) /\ 0 <= decode_le (fe_tobytes a) < p25519 /\ decode_le (fe_tobytes a) = element32 a.
Proof.
  intros a Ha. apply carried_iff in Ha. rewrite fe_tobytes_spec by exact Ha. rewrite element32_val. pose proof (Z.mod_pos_bound (val10 a) p25519 ltac:(reflexivity)) as B.
  unfold encode_u. destruct (encode_le_facts 32 (val10 a mod p25519)) as (L & F & D). { change (256 ^ Z.of_nat 32) with (2 ^ 256). unfold p25519 in *. lia. }
  split; [split; assumption|]. rewrite D. split; [exact B|reflexivity].
Qed.
(** After any number of rounds of the ladder, whatever the scalar and the base point, the four coordinates are in the class the next round needs. *)
Theorem C61_ladder : forall e u n, Forall is_byte e -> is_key u ->
  let l := ladder_rounds e (fe_frombytes u) n (L32 (Fx 1 0 0 0 0 0 0 0 0 0) (Fx 0 0 0 0 0 0 0 0 0 0) (fe_frombytes u) (Fx 1 0 0 0 0 0 0 0 0 0) 0) in
  carried (l_x2 l) /\ carried (l_z2 l) /\ carried (l_x3 l) /\ carried (l_z3 l) /\ (l_swap l = 0 \/ l_swap l = 1).
Proof.
  intros e u n He [Hl Hb]. cbv zeta. destruct (fe_frombytes_spec u Hb Hl) as [Vu Cu]. set (x1 := fe_frombytes u) in *. clearbody x1.
  assert (R0 : rep32 (L32 (Fx 1 0 0 0 0 0 0 0 0 0) (Fx 0 0 0 0 0 0 0 0 0 0) x1 (Fx 1 0 0 0 0 0 0 0 0 0) 0) false (Q4 1 0 (val10 x1) 1)).
  { unfold rep32. cbn [l_x2 l_z2 l_x3 l_z3 l_swap]. assert (B : forall a, 0 <= a < 2 -> canon (Fx a 0 0 0 0 0 0 0 0 0)) by (intros a Ha; unfold canon; cbn [g0 g1 g2 g3 g4 g5 g6 g7 g8 g9]; lia).
    split; [apply B; lia|]. split; [apply B; lia|]. split; [exact Cu|]. split; [apply B; lia|]. split; [reflexivity|]. cbn [swq]. apply eqq_refl. }
  destruct (ladder_rounds_spec e x1 (val10 x1) He Cu (eqp_refl _) n _ false _ R0) as (c & A & B & C & D & E & _).
  split; [apply carried_iff; exact A|]. split; [apply carried_iff; exact B|]. split; [apply carried_iff; exact C|]. split; [apply carried_iff; exact D|].
  rewrite E. destruct c; [right|left]; reflexivity.
Qed.

(** ** The whole function *)
Theorem C61_x25519 : forall k u, is_key k -> is_key u -> curve25519_32 k u = x25519 k u.
Proof. exact curve25519_32_x25519. Qed.
(** So which implementation was compiled makes no difference. *)
Theorem C61_same : forall k u, is_key k -> is_key u -> curve25519_32 k u = curve25519 k u.
Proof. intros k u Hk Hu. rewrite curve25519_32_x25519, curve25519_x25519 by assumption. reflexivity. Qed.
Theorem C61_public : forall k, is_key k -> generate_public_32 k = x25519 k (9 :: repeat 0 31) /\ generate_public_32 k = generate_public k.
Proof.
  intros k Hk. assert (H9 : is_key (9 :: repeat 0 31)).
  { split; [reflexivity|]. constructor; [unfold is_byte; lia|]. apply Forall_forall. intros x Hx. apply repeat_spec in Hx. subst. unfold is_byte. lia. }
  unfold generate_public_32, generate_public. split; [apply curve25519_32_x25519|apply C61_same]; assumption.
Qed.
(** The largest limbs of each class, and a key, meet the hypotheses. *)
Definition largest (m c : Z) : fx := Fx (m * 2 ^ 26 - c) (m * 2 ^ 25 - c) (m * 2 ^ 26) (m * 2 ^ 25 - c) (m * 2 ^ 26 - c) (m * 2 ^ 25 - c) (m * 2 ^ 26 - c) (m * 2 ^ 25 - c) (m * 2 ^ 26 - c) (m * 2 ^ 25 - c).
Example C61_example :
  tight (largest 1 0) /\ loose (largest 3 0) /\ carried (largest 1 1) /\ p25519 < number32 (largest 1 1) /\ element32 (largest 3 0) <> 0 /\ is_key xk /\ is_key (9 :: repeat 0 31).
Proof.
  split; [unfold tight, within; cbn; repeat constructor; discriminate|]. split; [unfold loose, within; cbn; repeat constructor; discriminate|].
  split; [unfold carried; cbn; repeat constructor; discriminate|]. split; [reflexivity|]. split; [intro H; vm_compute in H; discriminate H|].
  split; [apply C37_example|]. split; [reflexivity|]. constructor; [unfold is_byte; lia|]. apply Forall_forall. intros x Hx. apply repeat_spec in Hx. subst. unfold is_byte. lia.
Qed.
Print Assumptions C61_add.
Print Assumptions C61_sub.
Print Assumptions C61_mul.
Print Assumptions C61_square.
Print Assumptions C61_squares.
Print Assumptions C61_times_121666.
Print Assumptions C61_inverse.
Print Assumptions C61_swap.
Print Assumptions C61_read.
Print Assumptions C61_canonical.
Print Assumptions C61_ladder.
Print Assumptions C61_x25519.
Print Assumptions C61_same.
Print Assumptions C61_public.
