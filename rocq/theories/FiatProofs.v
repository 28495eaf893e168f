(** The ladder of src/curve25519-fiat32.h against the loop of RFC 7748, and the whole function. *)
From Coq Require Import ZArith Lia List Bool Znumtheory Setoid Morphisms.
From Verif Require Import Base NlSpec NlProofs EncodingSpec Keys PropKeys CurveSpec Fiat.
From Verif Require Import CurveField CurveField2 CurveProofs CurveProofs2 FiatField FiatField2.
Import ListNotations.
Open Scope Z_scope.

(** What the variables hold: before the swap of the next round, the two points are exchanged if [swap] is 1. *)
Definition rep32 (l : ladder32) (c : bool) (s : quad) : Prop :=
  canon (l_x2 l) /\ canon (l_z2 l) /\ canon (l_x3 l) /\ canon (l_z3 l) /\ l_swap l = Z.b2z c
  /\ eqq (Q4 (val10 (l_x2 l)) (val10 (l_z2 l)) (val10 (l_x3 l)) (val10 (l_z3 l))) (swq c s).
Lemma bit_of_byte : forall b j, 0 <= b -> 0 <= j -> Z.land 1 (Z.shiftr b j) = Z.b2z (Z.testbit b j).
Proof.
  intros b j Hb Hj. rewrite Z.land_comm. change 1 with (Z.ones 1). rewrite Z.land_ones by lia. rewrite Z.shiftr_div_pow2 by exact Hj. symmetry. apply Z.testbit_spec'. exact Hj.
Qed.
Lemma bit_of_scalar : forall e pos, Forall is_byte e -> Z.land 1 (Z.shiftr (nth (pos / 8) e 0) (Z.land (Z.of_nat pos) 7)) = Z.b2z (Z.testbit (le_val e) (Z.of_nat pos)).
Proof.
  intros e pos He. change 7 with (Z.ones 3). rewrite Z.land_ones by lia. change (2 ^ 3) with 8.
  pose proof (Z.mod_pos_bound (Z.of_nat pos) 8 ltac:(lia)) as M. pose proof (Z.div_mod (Z.of_nat pos) 8 ltac:(lia)) as D.
  rewrite bit_of_byte; [|destruct (Nat.lt_ge_cases (pos / 8) (length e)) as [L|L]; [rewrite Forall_forall in He; apply He, nth_In, L|rewrite nth_overflow by exact L; lia]|lia].
  rewrite <- le_val_bit by assumption. do 2 f_equal. change 8 with (Z.of_nat 8) at 1. rewrite Nat2Z.inj_div. change (Z.of_nat 8) with 8. lia.
Qed.
(** The formulas of one round, on what the swaps left. *)
Lemma formulas : forall x1 x2 z2 x3 z3 u s, canon x1 -> canon x2 -> canon z2 -> canon x3 -> canon z3 -> eqp (val10 x1) u ->
  eqq (Q4 (val10 x2) (val10 z2) (val10 x3) (val10 z3)) s ->
  let tmp0l := fe_sub x3 z3 in let tmp1l := fe_sub x2 z2 in let x2l := fe_add x2 z2 in let z2l := fe_add x3 z3 in
  let z3 := fe_mul_impl tmp0l x2l in let z2 := fe_mul_impl z2l tmp1l in let tmp0 := fe_sqr_impl tmp1l in let tmp1 := fe_sqr_impl x2l in
  let x3l := fe_add z3 z2 in let z2l := fe_sub z3 z2 in let x2 := fe_mul_impl tmp1 tmp0 in let tmp1l := fe_sub tmp1 tmp0 in
  let z2 := fe_sqr_impl z2l in let z3 := fe_mul121666 tmp1l in let x3 := fe_sqr_impl x3l in let tmp0l := fe_add tmp0 z3 in
  let z3 := fe_mul_impl x1 z2 in let z2 := fe_mul_impl tmp1l tmp0l in
  canon x2 /\ canon z2 /\ canon x3 /\ canon z3 /\ eqq (Q4 (val10 x2) (val10 z2) (val10 x3) (val10 z3)) (dbladd u s).
Proof.
  intros x1 x2 z2 x3 z3 u s C1 Cx2 Cz2 Cx3 Cz3 Eu (E1 & E2 & E3 & E4). cbn [q1 q2 q3 q4] in *. cbv zeta.
  assert (L2 : 2 * TIGHT <= LOOSE) by discriminate.
  destruct (fe_sub_spec x3 z3 (canon_upto _ Cx3) (canon_upto _ Cz3)) as [VD RD]. destruct (fe_sub_spec x2 z2 (canon_upto _ Cx2) (canon_upto _ Cz2)) as [VB RB].
  destruct (fe_add_spec x2 z2 (canon_upto _ Cx2) (canon_upto _ Cz2)) as [VA RA]. destruct (fe_add_spec x3 z3 (canon_upto _ Cx3) (canon_upto _ Cz3)) as [VC RC].
  apply (upto_mono _ _ _ L2) in RA, RC.
  set (D := fe_sub x3 z3) in *. set (B := fe_sub x2 z2) in *. set (A := fe_add x2 z2) in *. set (C := fe_add x3 z3) in *. clearbody D B A C.
  destruct (fe_mul_spec D A RD RA) as [VDA CDA]. destruct (fe_mul_spec C B RC RB) as [VCB CCB].
  destruct (fe_sqr_spec B RB) as [VBB CBB]. destruct (fe_sqr_spec A RA) as [VAA CAA].
  set (DA := fe_mul_impl D A) in *. set (CB := fe_mul_impl C B) in *. set (BB := fe_sqr_impl B) in *. set (AA := fe_sqr_impl A) in *. clearbody DA CB BB AA.
  destruct (fe_add_spec DA CB (canon_upto _ CDA) (canon_upto _ CCB)) as [VS RS]. destruct (fe_sub_spec DA CB (canon_upto _ CDA) (canon_upto _ CCB)) as [VT RT].
  apply (upto_mono _ _ _ L2) in RS. set (S := fe_add DA CB) in *. set (T := fe_sub DA CB) in *. clearbody S T.
  destruct (fe_mul_spec AA BB (canon_loose _ CAA) (canon_loose _ CBB)) as [VX CX].
  destruct (fe_sub_spec AA BB (canon_upto _ CAA) (canon_upto _ CBB)) as [VE RE]. set (E := fe_sub AA BB) in *. clearbody E.
  destruct (fe_sqr_spec T RT) as [VTT CTT]. destruct (fe_mul121666_spec E RE) as [VaE CaE]. destruct (fe_sqr_spec S RS) as [VSS CSS].
  set (TT := fe_sqr_impl T) in *. set (aE := fe_mul121666 E) in *. clearbody TT aE.
  destruct (fe_add_spec BB aE (canon_upto _ CBB) (canon_upto _ CaE)) as [VF RF]. apply (upto_mono _ _ _ L2) in RF. set (F := fe_add BB aE) in *. clearbody F.
  destruct (fe_mul_spec x1 TT (canon_loose _ C1) (canon_loose _ CTT)) as [VZ3 CZ3]. destruct (fe_mul_spec E F RE RF) as [VZ2 CZ2].
  split; [exact CX|]. split; [exact CZ2|]. split; [exact CSS|]. split; [exact CZ3|].
  unfold dbladd. cbv zeta. cbn [q1 q2 q3 q4].
  assert (WA : eqp (val10 A) (q1 s + q2 s)) by (rewrite VA, E1, E2; reflexivity).
  assert (WB : eqp (val10 B) (q1 s - q2 s)) by (rewrite VB, E1, E2; reflexivity).
  assert (WC : eqp (val10 C) (q3 s + q4 s)) by (rewrite VC, E3, E4; reflexivity).
  assert (WD : eqp (val10 D) (q3 s - q4 s)) by (rewrite VD, E3, E4; reflexivity).
  repeat split; cbn [q1 q2 q3 q4].
  - rewrite VX, VAA, VBB, WA, WB. reflexivity.
  - rewrite VZ2, VF, VaE, VE, VAA, VBB, WA, WB. unfold a24. match goal with |- eqp ?a ?b => replace a with b by ring; reflexivity end.
  - rewrite VSS, VS, VDA, VCB, WA, WB, WC, WD. reflexivity.
  - rewrite VZ3, VTT, VT, VDA, VCB, WA, WB, WC, WD, Eu. reflexivity.
Qed.
Lemma ladder_round_spec : forall e x1 u pos l c s, Forall is_byte e -> canon x1 -> eqp (val10 x1) u -> rep32 l c s ->
  rep32 (ladder_round e x1 pos l) (Z.testbit (le_val e) (Z.of_nat pos)) (hstep u (Z.testbit (le_val e) (Z.of_nat pos)) s).
Proof.
  intros e x1 u pos [x2 z2 x3 z3 sw] c s He C1 Eu (Cx2 & Cz2 & Cx3 & Cz3 & Es & Q). cbn [l_x2 l_z2 l_x3 l_z3 l_swap] in *.
  unfold ladder_round. cbn [l_x2 l_z2 l_x3 l_z3 l_swap]. cbv zeta. rewrite bit_of_scalar by exact He. set (b := Z.testbit (le_val e) (Z.of_nat pos)). subst sw.
  replace (Z.lxor (Z.b2z c) (Z.b2z b)) with (Z.b2z (xorb c b)) by (destruct c, b; reflexivity).
  rewrite !fe_cswap_spec by (apply canon_upto; assumption).
  assert (Q' : eqq (if xorb c b then Q4 (val10 x3) (val10 z3) (val10 x2) (val10 z2) else Q4 (val10 x2) (val10 z2) (val10 x3) (val10 z3)) (swq b s)).
  { pose proof (swq_eqq (xorb c b) _ _ Q) as H. rewrite swq_swq in H. replace (xorb (xorb c b) c) with b in H by (destruct c, b; reflexivity). exact H. }
  assert (K : forall a, swq b (hstep u b a) = dbladd u (swq b a)) by (intro a; unfold hstep; rewrite swq_swq; rewrite xorb_nilpotent; reflexivity).
  destruct (xorb c b).
  - pose proof (formulas x1 x3 z3 x2 z2 u _ C1 Cx3 Cz3 Cx2 Cz2 Eu Q') as F. cbv zeta in F. destruct F as (F1 & F2 & F3 & F4 & F5).
    unfold rep32. cbn [l_x2 l_z2 l_x3 l_z3 l_swap]. rewrite K. repeat (split; [assumption || reflexivity|]). exact F5.
  - pose proof (formulas x1 x2 z2 x3 z3 u _ C1 Cx2 Cz2 Cx3 Cz3 Eu Q') as F. cbv zeta in F. destruct F as (F1 & F2 & F3 & F4 & F5).
    unfold rep32. cbn [l_x2 l_z2 l_x3 l_z3 l_swap]. rewrite K. repeat (split; [assumption || reflexivity|]). exact F5.
Qed.
Opaque ladder_round.
Lemma ladder_rounds_spec : forall e x1 u, Forall is_byte e -> canon x1 -> eqp (val10 x1) u -> forall n l c s, rep32 l c s ->
  exists c', rep32 (ladder_rounds e x1 n l) c' (hloop u (le_val e) n s).
Proof.
  intros e x1 u He C1 Eu. induction n as [|n IH]; intros l c s R; [exists c; exact R|]. cbn [ladder_rounds hloop].
  exact (IH _ _ _ (ladder_round_spec e x1 u n l c s He C1 Eu R)).
Qed.
Opaque ladder_rounds fe_tobytes fe_invert fe_mul_impl fe_cswap.
Theorem curve25519_32_x25519 : forall k u, is_key k -> is_key u -> curve25519_32 k u = x25519 k u.
Proof.
  intros k u Hk Hu. pose proof (clamp_secret_spec k Hk) as [[Hcl Hcb] _]. 
  destruct Hk as [Hkl Hkb]. destruct Hu as [Hul Hub].
  unfold curve25519_32, x25519. cbv zeta. rewrite decode_scalar_clamp by assumption. rewrite decode_u_val by assumption.
  destruct (fe_frombytes_spec u Hub Hul) as [Vu Cu]. set (x1 := fe_frombytes u) in *. clearbody x1. rewrite <- Vu.
  set (l0 := L32 _ _ _ _ _).
  assert (R0 : rep32 l0 false (Q4 1 0 (val10 x1) 1)).
  { unfold l0, rep32. cbn [l_x2 l_z2 l_x3 l_z3 l_swap]. assert (B : forall a, 0 <= a < 2 -> canon (Fx a 0 0 0 0 0 0 0 0 0)) by (intros a Ha; unfold canon; cbn [g0 g1 g2 g3 g4 g5 g6 g7 g8 g9]; lia).
    split; [apply B; lia|]. split; [apply B; lia|]. split; [exact Cu|]. split; [apply B; lia|]. split; [reflexivity|]. cbn [swq]. apply eqq_refl. }
  destruct (ladder_rounds_spec (clamp_secret k) x1 (val10 x1) Hcb Cu (eqp_refl _) 255 l0 false _ R0) as (c & R). clearbody l0.
  set (l := ladder_rounds _ x1 255 l0) in *. clearbody l. destruct R as (Cx2 & Cz2 & Cx3 & Cz3 & -> & Q).
  rewrite !fe_cswap_spec by (apply canon_upto; assumption).
  pose proof (swq_eqq c _ _ Q) as Q'. rewrite swq_swq, xorb_nilpotent in Q'. cbn [swq] in Q'. rewrite rfc_ladder_view. cbv zeta.
  set (h := hloop (val10 x1) (le_val (clamp_secret k)) 255 (Q4 1 0 (val10 x1) 1)) in *. clearbody h.
  assert (G : forall x z, canon x -> canon z -> eqp (val10 x) (q1 h) -> eqp (val10 z) (q2 h) ->
    fe_tobytes (fe_mul_impl x (fe_invert z)) = encode_u ((q1 h * q2 h ^ (p25519 - 2)) mod p25519)).
  { intros x z Cx Cz Ex Ez. destruct (fe_invert_spec z (canon_loose _ Cz)) as [Vi Ci]. destruct (fe_mul_spec x (fe_invert z) (canon_loose _ Cx) (canon_loose _ Ci)) as [Vm Cm].
    rewrite fe_tobytes_spec by exact Cm. unfold encode_u. f_equal. rewrite Z.mod_mod by discriminate.
    match goal with |- ?a mod _ = ?b mod _ => change (eqp a b) end. rewrite Vm, Vi, Ex, Ez. reflexivity. }
  destruct Q' as (Q1 & Q2 & _ & _). destruct c; cbn [swq q1 q2 q3 q4] in Q1, Q2; apply G; assumption.
Qed.
