(** The ladder's extra step, and the whole function. *)
From Coq Require Import ZArith Lia List Bool Znumtheory Setoid Morphisms.
From Verif Require Import Base Encoding NlSpec NlProofs NlGetProofs EncodingSpec EncodingProofs Keys PropKeys CurveSpec Curve CurveField CurveField2 Prime25519 CurveProofs.
Import ListNotations.
Open Scope Z_scope.

(** ** Projective coordinates: a common factor does not matter *)
Definition unit (a : Z) : Prop := ~ (p25519 | a).
Lemma unit_mul : forall a b, unit a -> unit b -> unit (a * b).
Proof. intros a b A B D. apply prime_mult in D; [|exact prime_p25519]. destruct D; [apply A|apply B]; assumption. Qed.
Lemma unit_eqp : forall a, unit a <-> ~ eqp a 0.
Proof.
  intro a. unfold unit, eqp. rewrite Z.mod_0_l by discriminate. split; intros H E; apply H; [apply Z.mod_divide|apply Z.mod_divide in E]; try discriminate; assumption.
Qed.
Lemma unit_fermat : forall a, unit a -> eqp (a * a ^ (p25519 - 2)) 1.
Proof.
  intros a H. unfold eqp. rewrite <- Z.pow_succ_r by discriminate. change (Z.succ (p25519 - 2)) with (p25519 - 1).
  rewrite (fermat_little _ _ prime_p25519 H). reflexivity.
Qed.
Definition scaled (s t : quad) : Prop :=
  exists a b, unit a /\ unit b /\ eqp (q1 s) (a * q1 t) /\ eqp (q2 s) (a * q2 t) /\ eqp (q3 s) (b * q3 t) /\ eqp (q4 s) (b * q4 t).
Lemma scaled_swq : forall c s t, scaled s t -> scaled (swq c s) (swq c t).
Proof. intros [|] s t (a & b & A & B & E1 & E2 & E3 & E4); [exists b, a|exists a, b]; cbn [swq q1 q2 q3 q4]; tauto. Qed.
Lemma scaled_dbladd : forall u s t, scaled s t -> scaled (dbladd u s) (dbladd u t).
Proof.
  intros u s t (a & b & A & B & E1 & E2 & E3 & E4). exists (a * a * (a * a)), (a * b * (a * b)).
  split; [repeat apply unit_mul; assumption|]. split; [repeat apply unit_mul; assumption|].
  unfold dbladd. cbv zeta. cbn [q1 q2 q3 q4]. rewrite E1, E2, E3, E4.
  repeat split; match goal with |- eqp ?x ?y => replace x with y by ring; reflexivity end.
Qed.
Lemma scaled_hloop : forall u k n s t, scaled s t -> scaled (hloop u k n s) (hloop u k n t).
Proof.
  intros u k n. induction n as [|n IH]; intros s t H; [exact H|]. cbn [hloop]. apply IH. unfold hstep. apply scaled_swq, scaled_dbladd, scaled_swq. exact H.
Qed.
Lemma scaled_affine : forall s t, scaled s t -> eqp (q1 s * q2 s ^ (p25519 - 2)) (q1 t * q2 t ^ (p25519 - 2)).
Proof.
  intros s t (a & b & A & B & E1 & E2 & _ & _). rewrite E1, E2, Z.pow_mul_l.
  replace (a * q1 t * (a ^ (p25519 - 2) * q2 t ^ (p25519 - 2))) with (a * a ^ (p25519 - 2) * (q1 t * q2 t ^ (p25519 - 2))) by ring.
  rewrite (unit_fermat a A). replace (1 * (q1 t * q2 t ^ (p25519 - 2))) with (q1 t * q2 t ^ (p25519 - 2)) by ring. reflexivity.
Qed.
(** With u = 0 every result is 0. *)
Definition dead (s : quad) : Prop := eqp (q1 s * q2 s) 0 /\ eqp (q3 s * q4 s) 0.
Lemma dead_hloop : forall u k n s, eqp u 0 -> dead s -> dead (hloop u k n s).
Proof.
  intros u k n. induction n as [|n IH]; intros s U H; [exact H|]. cbn [hloop]. apply IH; [exact U|].
  unfold hstep. set (c := Z.testbit k (Z.of_nat n)). clearbody c. assert (H' : dead (swq c s)) by (destruct c; [split; apply H|exact H]).
  destruct H' as [H1 H2]. set (s' := swq c s) in *. clearbody s'.
  assert (D : dead (dbladd u s')).
  { unfold dbladd, dead. cbv zeta. cbn [q1 q2 q3 q4]. set (x := q1 s') in *. set (z := q2 s') in *. clearbody x z.
    split.
    - match goal with |- eqp ?l 0 => replace l with (x * z * (4 * ((x + z) * (x + z) * ((x - z) * (x - z))) * ((x + z) * (x + z) + a24 * ((x + z) * (x + z) - (x - z) * (x - z))))) by ring end.
      rewrite H1. reflexivity.
    - match goal with |- eqp (?a * (u * ?b)) 0 => replace (a * (u * b)) with (u * (a * b)) by ring end. rewrite U. reflexivity. }
  destruct c; [split; apply D|exact D].
Qed.
Lemma dead_affine : forall s, dead s -> eqp (q1 s * q2 s ^ (p25519 - 2)) 0.
Proof.
  intros s [H _]. change (p25519 - 2) with (Z.succ (p25519 - 3)). rewrite Z.pow_succ_r by discriminate. rewrite Z.mul_assoc, H. reflexivity.
Qed.
(** The 256th bit of a clamped scalar is 0: its step only rescales the second point. *)
Lemma extra_bit : forall u k, Z.testbit k 255 = false ->
  eqp (q1 (hloop u k 256 (Q4 1 0 u 1)) * q2 (hloop u k 256 (Q4 1 0 u 1)) ^ (p25519 - 2))
      (q1 (hloop u k 255 (Q4 1 0 u 1)) * q2 (hloop u k 255 (Q4 1 0 u 1)) ^ (p25519 - 2)).
Proof.
  intros u k K. change (hloop u k 256 (Q4 1 0 u 1)) with (hloop u k 255 (hstep u (Z.testbit k (Z.of_nat 255)) (Q4 1 0 u 1))).
  change (Z.of_nat 255) with 255. rewrite K. set (s := hstep u false _).
  assert (E : s = Q4 1 0 (4 * u * u) (4 * u * 1)).
  { unfold s, hstep, dbladd. cbn [swq q1 q2 q3 q4]. cbv zeta. f_equal; ring. }
  clearbody s. subst s. destruct (Zdivide_dec p25519 u) as [D|D].
  - assert (U : eqp u 0) by (unfold eqp; rewrite Z.mod_0_l by discriminate; apply Z.mod_divide; [discriminate|exact D]).
    transitivity 0; [|symmetry]; apply dead_affine, dead_hloop; try exact U; split; cbn [q1 q2 q3 q4]; try reflexivity; rewrite U; reflexivity.
  - apply scaled_affine, scaled_hloop. exists 1, (4 * u). cbn [q1 q2 q3 q4]. split; [|split; [|repeat split; reflexivity]].
    + apply unit_eqp. intro X. discriminate X.
    + apply unit_mul; [|exact D]. apply unit_eqp. intro X. discriminate X.
Qed.

(** ** Decoding *)
Lemma decode_le_val : forall l, decode_le l = le_val l. Proof. reflexivity. Qed.
Ltac thirty_two k := do 32 (destruct k as [|? k]; [discriminate|]); destruct k; [|discriminate].
Lemma decode_scalar_clamp : forall k, length k = 32%nat -> decode_scalar k = le_val (clamp_secret k).
Proof. intros k H. thirty_two k. reflexivity. Qed.
Lemma decode_u_val : forall u, Forall is_byte u -> length u = 32%nat -> decode_u u = le_val u mod 2 ^ 255.
Proof.
  intros u Hu H. assert (E : exists lo top, u = lo ++ [top] /\ length lo = 31%nat /\ decode_u u = le_val (lo ++ [Z.land top 127])).
  { thirty_two u. eexists (_ :: _ :: _ :: _ :: _ :: _ :: _ :: _ :: _ :: _ :: _ :: _ :: _ :: _ :: _ :: _ :: _ :: _ :: _ :: _ :: _ :: _ :: _ :: _ :: _ :: _ :: _ :: _ :: _ :: _ :: _ :: []), _. repeat split; reflexivity. }
  destruct E as (lo & top & -> & L & ->). apply Forall_app in Hu as [Hl Ht]. inversion Ht as [|x y Hx _]; subst. unfold is_byte in Hx.
  rewrite !le_val_app', L. change (256 ^ Z.of_nat 31) with (2 ^ 248). cbn [le_val]. rewrite !Z.mul_0_r, !Z.add_0_r. change 127 with (Z.ones 7). rewrite Z.land_ones by lia.
  pose proof (le_val_range lo Hl) as R. rewrite L in R. change (256 ^ Z.of_nat 31) with (2 ^ 248) in R. set (v := le_val lo) in *. clearbody v.
  change (2 ^ 255) with (2 ^ 248 * 2 ^ 7). set (P := 2 ^ 248) in *. assert (HP : 0 < P) by reflexivity. clearbody P. change (2 ^ 7) with 128.
  pose proof (Z.div_mod top 128 ltac:(lia)) as HD. pose proof (Z.mod_pos_bound top 128 ltac:(lia)).
  apply Z.mod_unique with (q := top / 128); [left; nia|]. rewrite HD at 1. ring.
Qed.
Lemma clamped_bit : forall k, is_key k -> Z.testbit (le_val (clamp_secret k)) 255 = false.
Proof.
  intros k Hk. destruct (clamp_secret_spec k Hk) as [_ ->]. unfold clamped.
  pose proof (Z.mod_pos_bound (le_val k) (2 ^ 254) ltac:(reflexivity)). pose proof (Z.mod_pos_bound (le_val k) 8 ltac:(reflexivity)).
  assert (D : (le_val k mod 2 ^ 254) mod 8 = le_val k mod 8) by (symmetry; apply Zmod_div_mod; [reflexivity|reflexivity|exists (2 ^ 251); reflexivity]).
  assert (le_val k mod 8 <= le_val k mod 2 ^ 254) by (rewrite <- D; apply Z.mod_le; lia).
  apply (range_bits 255 (2 ^ 254 + (le_val k mod 2 ^ 254 - le_val k mod 8)) ltac:(lia)); lia.
Qed.

(** ** The whole function *)
Theorem curve25519_x25519 : forall k u, is_key k -> is_key u -> curve25519 k u = x25519 k u.
Proof.
  intros k u Hk Hu. pose proof (clamp_secret_spec k Hk) as [[Hcb Hcl] _]. pose proof (clamped_bit k Hk) as K.
  destruct Hk as [Hkb Hkl] eqn:EK. destruct Hu as [Hub Hul] eqn:EU.
  unfold curve25519, x25519. rewrite decode_scalar_clamp by assumption. rewrite decode_u_val by assumption.
  destruct (fexpand_spec u ltac:(assumption) ltac:(assumption)) as [Vu Ru]. set (q := fexpand u) in *. clearbody q. rewrite <- Vu.
  unfold ladder_cmult. cbn [px]. set (l0 := Lad _ _ _ _).
  assert (R0 : repq (nq l0) (nqpq l0) (Q4 1 0 (val q) 1)).
  { unfold l0. cbn [nq nqpq]. assert (B : forall a, 0 <= a < 2 -> below RED (Fe a 0 0 0 0)) by (intros a Ha; unfold below, RED; cbn [f0 f1 f2 f3 f4]; lia).
    split; [split; apply B; lia|]. split; [split; [eapply below_mono; [|exact Ru]; discriminate|apply B; lia]|]. cbn [px pz q1 q2 q3 q4]. repeat split; reflexivity. }
  pose proof (big_loop_spec (clamp_secret k) q (val q) ltac:(assumption) Ru (eqp_refl _) 32 l0 _ R0) as R. clearbody l0. change (8 * 32)%nat with 256%nat in R.
  set (l := big_loop _ l0 q 32) in *. clearbody l. destruct R as ([Bx Bz] & _ & E1 & E2 & _ & _).
  unfold scalar_of_point. destruct (crecip_spec _ Bz) as [Vr Rr]. 
  destruct (fmul_spec RED RED _ _ ltac:(split; [reflexivity|discriminate]) ltac:(split; [reflexivity|discriminate]) ltac:(discriminate) Bx Rr) as [Vm Rm].
  rewrite fcontract_spec by exact Rm. unfold encode_u. f_equal. rewrite rfc_ladder_view. cbv zeta. rewrite Z.mod_mod by discriminate.
  match goal with |- ?a mod _ = ?b mod _ => change (eqp a b) end.
  rewrite Vm, Vr, E1, E2. apply extra_bit. exact K.
Qed.
