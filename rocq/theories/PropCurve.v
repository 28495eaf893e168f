(** C36, C37: the field arithmetic of Curve25519; public keys. *)
From Coq Require Import String ZArith Lia List Bool Znumtheory.
From Verif Require Import Base Encoding EncodingSpec EncodingProofs PropEncoding NlSpec NlProofs NlGetProofs ShowconfProofs Keys PropKeys Wg.
From Verif Require Import CurveSpec Curve CurveField CurveField2 Prime25519 CurveProofs CurveProofs2.
Import ListNotations.
Open Scope Z_scope.

(** ** Specification *)
(** The field element five limbs stand for. *)
Definition element (x : fe) : Z := (f0 x + 2 ^ 51 * f1 x + 2 ^ 102 * f2 x + 2 ^ 153 * f3 x + 2 ^ 204 * f4 x) mod p25519.
Definition limbs (x : fe) : list Z := [f0 x; f1 x; f2 x; f3 x; f4 x].
Definition all_below (n : Z) (x : fe) : Prop := Forall (fun l => 0 <= l < n) (limbs x).
(** The classes of representations that occur: what a product, square or inverse leaves; the sum of two such; the difference of two such. *)
Definition reduced := all_below (2 ^ 51 + 2 ^ 13).
Definition summed := all_below (2 ^ 52 + 2 ^ 27).
Definition differed := all_below (2 ^ 54 + 2 ^ 51 + 2 ^ 13).

Lemma all_below_iff : forall n x, all_below n x <-> below n x.
Proof.
  intros n x. unfold all_below, limbs, below. split.
  - intro H. repeat match goal with H : Forall _ (_ :: _) |- _ => inversion H; clear H; subst end. tauto.
  - intros (A & B & C & D & E). repeat constructor; lia.
Qed.
Lemma element_val : forall x, element x = val x mod p25519. Proof. reflexivity. Qed.
Lemma summed_differed : forall x, summed x -> differed x.
Proof. intros x H. apply all_below_iff. apply all_below_iff in H. eapply below_mono; [|exact H]. discriminate. Qed.
Lemma reduced_summed : forall x, reduced x -> summed x.
Proof. intros x H. apply all_below_iff. apply all_below_iff in H. eapply below_mono; [|exact H]. discriminate. Qed.

(** ** C36: the operations *)
(** Sums: every limb is the exact sum, without wrapping. *)
Theorem C36_add : forall a b, reduced a -> reduced b ->
  limbs (fsum a b) = map (fun '(x, y) => x + y) (combine (limbs a) (limbs b)) /\ summed (fsum a b) /\ element (fsum a b) = fadd (element a) (element b).
Proof.
  intros a b Ha Hb. apply all_below_iff in Ha, Hb. destruct (fsum_spec a b RED RED Ha Hb ltac:(discriminate)) as [V R]. split; [|split].
  - destruct a as [a0 a1 a2 a3 a4], b as [b0 b1 b2 b3 b4]. destruct Ha as (A0 & A1 & A2 & A3 & A4), Hb as (B0 & B1 & B2 & B3 & B4). cbn [f0 f1 f2 f3 f4] in *. unfold fsum, limbs. cbn [f0 f1 f2 f3 f4 combine map].
    rewrite !u64_id by lia. reflexivity.
  - apply all_below_iff. eapply below_mono; [|exact R]. discriminate.
  - rewrite !element_val. unfold fadd. rewrite V. apply Zplus_mod.
Qed.
(** Differences: [fdifference a b] is b - a; 8p is added so that no limb goes below 0. *)
Theorem C36_sub : forall a b, reduced a -> reduced b ->
  limbs (fdifference a b) = map (fun '(x, y, e) => x + e - y) (combine (combine (limbs b) (limbs a)) [2 ^ 54 - 152; 2 ^ 54 - 8; 2 ^ 54 - 8; 2 ^ 54 - 8; 2 ^ 54 - 8])
  /\ differed (fdifference a b) /\ element (fdifference a b) = fsub (element b) (element a).
Proof.
  intros a b Ha Hb. apply all_below_iff in Ha, Hb.
  destruct (fdifference_spec a b RED ltac:(eapply below_mono; [|exact Ha]; discriminate) Hb ltac:(split; discriminate)) as [V R]. split; [|split].
  - destruct a as [a0 a1 a2 a3 a4], b as [b0 b1 b2 b3 b4]. destruct Ha as (A0 & A1 & A2 & A3 & A4), Hb as (B0 & B1 & B2 & B3 & B4). cbn [f0 f1 f2 f3 f4] in *. unfold RED in *. unfold fdifference, limbs. cbn [f0 f1 f2 f3 f4 combine map].
    rewrite (u64_id (b0 + _)), (u64_id (b1 + _)), (u64_id (b2 + _)), (u64_id (b3 + _)), (u64_id (b4 + _)) by lia. rewrite !u64_id by lia. reflexivity.
  - apply all_below_iff. exact R.
  - rewrite !element_val. unfold fsub. rewrite V. apply Zminus_mod.
Qed.
(** Products: the five 128-bit accumulators are the exact sums, and the result is a reduced representation of the product. *)
Theorem C36_mul : forall a b, summed a -> differed b ->
  Forall (fun t => 0 <= t < 2 ^ 128) (limbs (mul_shift_reduce a b))
  /\ (exists k, val (mul_shift_reduce a b) = val a * val b - k * p25519)
  /\ reduced (fmul a b) /\ element (fmul a b) = fmult (element a) (element b).
Proof.
  intros a b Ha Hb. apply all_below_iff in Ha, Hb.
  destruct (fmul_spec (2 ^ 52 + 2 ^ 27) SQ a b ltac:(split; [reflexivity|discriminate]) ltac:(split; [reflexivity|discriminate]) ltac:(discriminate) Ha Hb) as [V R].
  split; [|split; [|split]].
  - unfold mul_shift_reduce, sum_scalar, limbs. cbn [f0 f1 f2 f3 f4]. repeat constructor; apply Z.mod_pos_bound; reflexivity.
  - rewrite mul_shift_reduce_exact; [|eapply below_mono; [|exact Ha]; discriminate|eapply below_mono; [|exact Hb]; discriminate].
    destruct a as [a0 a1 a2 a3 a4], b as [b0 b1 b2 b3 b4]. unfold val, p25519. cbn [f0 f1 f2 f3 f4].
    exists ((a4 * b1 + a3 * b2 + a2 * b3 + a1 * b4) + 2 ^ 51 * (a4 * b2 + a3 * b3 + a2 * b4) + 2 ^ 102 * (a4 * b3 + a3 * b4) + 2 ^ 153 * (a4 * b4)). ring.
  - apply all_below_iff. exact R.
  - rewrite !element_val. unfold fmult. rewrite V. apply Zmult_mod.
Qed.
Theorem C36_square : forall a, differed a -> reduced (fsquare a) /\ element (fsquare a) = fpow (element a) 2.
Proof.
  intros a Ha. apply all_below_iff in Ha. destruct (fsquare_spec a Ha) as [V R]. split; [apply all_below_iff; exact R|].
  rewrite !element_val. unfold fpow. rewrite Z.pow_2_r, V. apply Zmult_mod.
Qed.
(** Repeated squaring, for every count. *)
Theorem C36_squares : forall n a, differed a -> reduced (fsquare_times a n) /\ element (fsquare_times a n) = fpow (element a) (2 ^ Z.of_nat (S n)).
Proof.
  intros n a Ha. apply all_below_iff in Ha. destruct (fsquare_times_spec n a Ha) as [V R]. split; [apply all_below_iff; exact R|].
  rewrite !element_val. unfold fpow. rewrite V. apply eqp_pow. symmetry. apply eqp_mod.
Qed.
Theorem C36_scalar : forall a, differed a -> all_below (2 ^ 51 + 2 ^ 26) (fscalar a 121665) /\ element (fscalar a 121665) = fmult 121665 (element a).
Proof.
  intros a Ha. apply all_below_iff in Ha. destruct (fscalar_spec a Ha) as [V R]. split; [apply all_below_iff; exact R|].
  rewrite !element_val. unfold fmult. rewrite V. symmetry. apply Zmult_mod_idemp_r.
Qed.
(** Inversion: the power p - 2, that is (p being prime, proved here) the inverse of everything but 0. *)
Theorem C36_inverse : forall a, reduced a ->
  reduced (crecip a) /\ element (crecip a) = fpow (element a) (p25519 - 2) /\ (element a <> 0 -> fmult (element (crecip a)) (element a) = 1).
Proof.
  intros a Ha. apply all_below_iff in Ha. destruct (crecip_spec a Ha) as [V R]. split; [apply all_below_iff; exact R|]. split.
  - rewrite !element_val. unfold fpow. rewrite V. apply eqp_pow. symmetry. apply eqp_mod.
  - intro H. unfold fmult. rewrite !element_val. rewrite <- Zmult_mod. change 1 with (1 mod p25519). change (eqp (val (crecip a) * val a) 1).
    rewrite V. rewrite Z.mul_comm. apply unit_fermat. apply unit_eqp. exact H.
Qed.
Theorem C36_prime : prime p25519. Proof. exact prime_p25519. Qed.
(** Serialisation: exactly 32 bytes, the canonical (smallest) representative. *)
Lemma encode_le_facts : forall n v, 0 <= v < 256 ^ Z.of_nat n -> length (encode_le n v) = n /\ Forall is_byte (encode_le n v) /\ decode_le (encode_le n v) = v.
Proof.
  induction n as [|n IH]; intros v Hv; [change (256 ^ Z.of_nat 0) with 1 in Hv; split; [reflexivity|]; split; [constructor|]; cbn; lia|].
  replace (256 ^ Z.of_nat (S n)) with (256 * 256 ^ Z.of_nat n) in Hv by (rewrite Nat2Z.inj_succ, Z.pow_succ_r; lia).
  destruct (IH (v / 256)) as (L & F & D); [split; [apply Z.div_pos; lia|apply Z.div_lt_upper_bound; lia]|].
  cbn [encode_le decode_le length]. rewrite L, D. pose proof (Z.mod_pos_bound v 256 ltac:(lia)). split; [reflexivity|]. split; [constructor; [unfold is_byte; lia|exact F]|].
  pose proof (Z.div_mod v 256 ltac:(lia)). lia.
Qed.
Theorem C36_canonical : forall a, reduced a ->
  is_key (fcontract a) /\ 0 <= decode_le (fcontract a) < p25519 /\ decode_le (fcontract a) = element a.
Proof.
  intros a Ha. apply all_below_iff in Ha. rewrite fcontract_spec by exact Ha. pose proof (Z.mod_pos_bound (val a) p25519 ltac:(reflexivity)) as B.
  unfold encode_u. destruct (encode_le_facts 32 (val a mod p25519)) as (L & F & D). { change (256 ^ Z.of_nat 32) with (2 ^ 256). unfold p25519 in *. lia. }
  split; [split; assumption|]. rewrite D. split; [exact B|reflexivity].
Qed.
(** Every point the ladder computes, whatever the scalar and the base point, is in the reduced class. *)
Theorem C36_ladder : forall scalar base n, Forall is_byte scalar -> is_key base ->
  let l := big_loop scalar (Lad (Pt (Fe 1 0 0 0 0) zero_fe) (Pt (fexpand base) (Fe 1 0 0 0 0)) (Pt zero_fe zero_fe) (Pt zero_fe zero_fe)) (fexpand base) n in
  reduced (px (nq l)) /\ reduced (pz (nq l)) /\ reduced (px (nqpq l)) /\ reduced (pz (nqpq l)).
Proof.
  intros scalar base n Hs [Hb1 Hb2]. cbv zeta. destruct (fexpand_spec base ltac:(assumption) ltac:(assumption)) as [Vu Ru]. set (q := fexpand base) in *. clearbody q. set (l0 := Lad _ _ _ _).
  assert (R0 : repq (nq l0) (nqpq l0) (Q4 1 0 (val q) 1)).
  { unfold l0. cbn [nq nqpq]. assert (B : forall a, 0 <= a < 2 -> below RED (Fe a 0 0 0 0)) by (intros a Ha; unfold below, RED; cbn [f0 f1 f2 f3 f4]; lia).
    split; [split; apply B; lia|]. split; [split; [eapply below_mono; [|exact Ru]; discriminate|apply B; lia]|]. cbn [px pz q1 q2 q3 q4]. repeat split; reflexivity. }
  destruct (big_loop_spec scalar q (val q) Hs Ru (eqp_refl _) n l0 _ R0) as ([A B] & [C D] & _).
  repeat split; apply all_below_iff; assumption.
Qed.
(** The largest limbs of each class meet the hypotheses. *)
Example C36_example :
  let m n := Fe (n - 1) (n - 1) (n - 1) (n - 1) (n - 1) in
  reduced (m (2 ^ 51 + 2 ^ 13)) /\ summed (m (2 ^ 52 + 2 ^ 27)) /\ differed (m (2 ^ 54 + 2 ^ 51 + 2 ^ 13)) /\ element (m (2 ^ 51 + 2 ^ 13)) <> 0.
Proof. split; [|split; [|split]]; [| | |intro H; vm_compute in H; discriminate H]; repeat constructor; vm_compute; (reflexivity || discriminate). Qed.

(** ** C37 *)
Theorem C37_x25519 : forall k u, is_key k -> is_key u -> curve25519 k u = x25519 k u.
Proof. exact curve25519_x25519. Qed.
Theorem C37_public : forall k, is_key k -> generate_public k = x25519 k (9 :: repeat 0 31).
Proof.
  intros k Hk. unfold generate_public. rewrite curve25519_x25519; [reflexivity|exact Hk|]. split; [reflexivity|]. constructor; [unfold is_byte; lia|]. apply Forall_forall. intros x Hx. apply repeat_spec in Hx. subst. unfold is_byte. lia.
Qed.
(** It is a key, in canonical form. *)
Theorem C37_key : forall k u, is_key k -> is_key u -> is_key (curve25519 k u) /\ 0 <= decode_le (curve25519 k u) < p25519.
Proof.
  intros k u Hk Hu. rewrite curve25519_x25519 by assumption. unfold x25519, encode_u.
  pose proof (Z.mod_pos_bound (rfc_ladder (decode_scalar k) (decode_u u)) p25519 ltac:(reflexivity)) as B.
  set (v := rfc_ladder _ _ mod p25519) in *. clearbody v.
  destruct (encode_le_facts 32 v) as (L & F & D). { change (256 ^ Z.of_nat 32) with (2 ^ 256). unfold p25519 in B. lia. }
  split; [split; assumption|]. rewrite D. exact B.
Qed.
(** Clamping beforehand changes nothing; the top bit of the base point is ignored; base points that are equal modulo p are the same. *)
Theorem C37_clamped : forall k u, is_key k -> is_key u -> curve25519 (clamp_secret k) u = curve25519 k u.
Proof.
  intros k u Hk Hu. pose proof (clamp_secret_spec k Hk) as [Hc Vc]. rewrite !curve25519_x25519 by assumption. unfold x25519. f_equal. f_equal.
  rewrite !decode_scalar_clamp by (apply Hk || apply Hc). destruct (clamp_secret_spec _ Hc) as [_ Vcc]. rewrite Vcc, Vc. unfold clamped.
  assert (D : (le_val k mod 2 ^ 254) mod 8 = le_val k mod 8) by (symmetry; apply Zmod_div_mod; [reflexivity|reflexivity|exists (2 ^ 251); reflexivity]).
  set (n := le_val k) in *. clearbody n. assert (B1 := Z.mod_pos_bound n (2 ^ 254) ltac:(reflexivity)). assert (B2 := Z.mod_pos_bound n 8 ltac:(reflexivity)).
  set (x := n mod 2 ^ 254) in *. clearbody x.
  assert (Hle : x mod 8 <= x) by (apply Z.mod_le; lia).
  assert (E1 : (2 ^ 254 + (x - n mod 8)) mod 2 ^ 254 = x - n mod 8).
  { replace (2 ^ 254 + (x - n mod 8)) with (x - n mod 8 + 1 * 2 ^ 254) by ring. rewrite Z.mod_add by discriminate. apply Z.mod_small. lia. }
  assert (E2 : (2 ^ 254 + (x - n mod 8)) mod 8 = 0).
  { rewrite <- D. change (2 ^ 254) with (8 * 2 ^ 251). rewrite (Z.mod_eq x 8) by lia. replace (8 * 2 ^ 251 + (x - (x - 8 * (x / 8)))) with ((2 ^ 251 + x / 8) * 8) by ring. apply Z.mod_mul. lia. }
  rewrite E1, E2. ring.
Qed.
Theorem C37_base : forall k u u', is_key k -> is_key u -> is_key u' -> decode_u u mod p25519 = decode_u u' mod p25519 -> curve25519 k u = curve25519 k u'.
Proof.
  intros k u u' Hk Hu Hu' E. rewrite !curve25519_x25519 by assumption. unfold x25519. f_equal. rewrite !rfc_ladder_view. cbv zeta.
  destruct (hloop_eqq (decode_u u) (decode_u u') (decode_scalar k) 255 (Q4 1 0 (decode_u u) 1) (Q4 1 0 (decode_u u') 1) E) as (A & B & _ & _).
  { repeat split; cbn [q1 q2 q3 q4]; try reflexivity. exact E. }
  match goal with |- ?a mod _ = ?b mod _ => change (eqp a b) end. rewrite A, B. reflexivity.
Qed.
(** The point of order 2, u = 0, gives 0 whatever the key. *)
Theorem C37_zero : forall k, is_key k -> curve25519 k (repeat 0 32) = repeat 0 32.
Proof.
  intros k Hk. assert (Hz : is_key (repeat 0 32)) by (split; [reflexivity|]; apply Forall_forall; intros x Hx; apply repeat_spec in Hx; subst; unfold is_byte; lia).
  rewrite curve25519_x25519 by assumption. unfold x25519. change (decode_u (repeat 0 32)) with 0. rewrite rfc_ladder_view. cbv zeta.
  assert (D : dead (hloop 0 (decode_scalar k) 255 (Q4 1 0 0 1))) by (apply dead_hloop; [reflexivity|split; reflexivity]).
  pose proof (dead_affine _ D) as E. unfold eqp in E. rewrite E. reflexivity.
Qed.
(** 'wg pubkey': the base64 of the RFC's function of the key read, for every key. *)
Theorem C37_pubkey : forall sg a0 k ws, is_key k -> Forall (fun c => c = 0 \/ space_spec c) ws -> Forall is_byte ws ->
  pubkey_main sg generate_public [a0] (rfc4648 k ++ ws) = (0, rfc4648 (x25519 k (9 :: repeat 0 31)) ++ [10]).
Proof.
  intros sg a0 k ws Hk Hws Hb. assert (Hall : Forall is_byte (rfc4648 k ++ ws)).
  { apply Forall_app. split; [|exact Hb]. apply Forall_forall. intros x Hx. pose proof (key_okc k Hk) as K. rewrite Forall_forall in K. apply K, Hx. }
  destruct (C35_pubkey sg generate_public a0 _ Hall) as [(k' & ws' & Hk' & E & Hws' & R)|[H _]].
  - assert (F : forall x y, is_key x -> firstn 44 (rfc4648 x ++ y) = rfc4648 x).
    { intros x y Hx. rewrite firstn_app, (rfc_length x Hx). rewrite <- (rfc_length x Hx) at 1. rewrite firstn_all. cbn [Nat.sub firstn]. apply app_nil_r. }
    pose proof (f_equal (firstn 44) E) as E'. rewrite !F in E' by assumption.
    assert (Ek : Some k = Some k') by (rewrite <- (key_from_base64_enc sg k Hk), <- (key_from_base64_enc sg k' Hk'), E'; reflexivity).
    injection Ek as <-. rewrite R. rewrite key_to_base64_rfc; [rewrite C37_public by exact Hk; reflexivity|].
    unfold generate_public. refine (proj1 (C37_key k (9 :: repeat 0 31) Hk _)). split; [reflexivity|]. constructor; [unfold is_byte; lia|]. apply Forall_forall. intros x Hx. apply repeat_spec in Hx. subst. unfold is_byte. lia.
  - exfalso. exact (H k ws Hk Hws eq_refl).
Qed.
(** A key and base points that meet the hypotheses: two encodings (p + 9 and 9, the latter with the top bit set) of one base point. *)
Definition xk : list Z := [0x77; 0x07; 0x6d; 0x0a; 0x73; 0x18; 0xa5; 0x7d; 0x3c; 0x16; 0xc1; 0x72; 0x51; 0xb2; 0x66; 0x45; 0xdf; 0x4c; 0x2f; 0x87; 0xeb; 0xc0; 0x99; 0x2a; 0xb1; 0x77; 0xfb; 0xa5; 0x1d; 0xb9; 0x2c; 0x2a].
Example C37_example :
  is_key xk /\ is_key (encode_le 32 (p25519 + 9)) /\ is_key (9 :: repeat 0 30 ++ [128])
  /\ decode_u (encode_le 32 (p25519 + 9)) mod p25519 = decode_u (9 :: repeat 0 30 ++ [128]) mod p25519
  /\ curve25519 xk (encode_le 32 (p25519 + 9)) = generate_public xk /\ curve25519 xk (9 :: repeat 0 30 ++ [128]) = generate_public xk.
Proof.
  assert (B : forall l, length l = 32%nat -> forallb (fun b => (0 <=? b) && (b <? 256)) l = true -> is_key l).
  { intros l L F. split; [exact L|]. apply Forall_forall. intros x Hx. rewrite forallb_forall in F. specialize (F x Hx). apply andb_true_iff in F as [F1 F2]. apply Z.leb_le in F1. apply Z.ltb_lt in F2. unfold is_byte. lia. }
  assert (Hk : is_key xk) by (apply B; reflexivity).
  assert (H1 : is_key (encode_le 32 (p25519 + 9))) by (apply B; vm_compute; reflexivity).
  assert (H2 : is_key (9 :: repeat 0 30 ++ [128])) by (apply B; reflexivity).
  assert (H3 : is_key (9 :: repeat 0 31)) by (apply B; reflexivity).
  split; [exact Hk|]. split; [exact H1|]. split; [exact H2|]. split; [vm_compute; reflexivity|]. unfold generate_public.
  split; (apply C37_base; [exact Hk|assumption|assumption|vm_compute; reflexivity]).
Qed.
