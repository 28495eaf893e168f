(** The Montgomery ladder of src/curve25519-hacl64.h against the loop of RFC 7748. *)
From Coq Require Import ZArith Lia List Bool Znumtheory Setoid Morphisms.
From Verif Require Import Base NlSpec NlProofs Keys CurveSpec Curve CurveField CurveField2 Prime25519.
Import ListNotations.
Open Scope Z_scope.

#[export] Instance eqp_equiv : Equivalence eqp.
Proof. split; [exact eqp_refl|exact eqp_sym|exact eqp_trans]. Qed.
#[export] Instance eqp_add_proper : Proper (eqp ==> eqp ==> eqp) Z.add.
Proof. intros a b H c d H'. apply eqp_add; assumption. Qed.
#[export] Instance eqp_sub_proper : Proper (eqp ==> eqp ==> eqp) Z.sub.
Proof. intros a b H c d H'. apply eqp_sub; assumption. Qed.
#[export] Instance eqp_mul_proper : Proper (eqp ==> eqp ==> eqp) Z.mul.
Proof. intros a b H c d H'. apply eqp_mul; assumption. Qed.
#[export] Instance eqp_pow_proper : Proper (eqp ==> eq ==> eqp) Z.pow.
Proof. intros a b H c d <-. apply eqp_pow; assumption. Qed.

(** ** One step on plain numbers *)
Record quad := Q4 { q1 : Z; q2 : Z; q3 : Z; q4 : Z }.
Definition eqq (s t : quad) : Prop := eqp (q1 s) (q1 t) /\ eqp (q2 s) (q2 t) /\ eqp (q3 s) (q3 t) /\ eqp (q4 s) (q4 t).
Lemma eqq_refl : forall s, eqq s s. Proof. intro s. repeat split; reflexivity. Qed.
Lemma eqq_trans : forall a b c, eqq a b -> eqq b c -> eqq a c.
Proof. intros a b c (A & B & C & D) (A' & B' & C' & D'). repeat split; etransitivity; eassumption. Qed.
Lemma eqq_sym : forall a b, eqq a b -> eqq b a.
Proof. intros a b (A & B & C & D). repeat split; symmetry; assumption. Qed.
Definition swq (c : bool) (s : quad) : quad := if c then Q4 (q3 s) (q4 s) (q1 s) (q2 s) else s.
Definition dbladd (u : Z) (s : quad) : quad :=
  let A := q1 s + q2 s in let B := q1 s - q2 s in let C := q3 s + q4 s in let D := q3 s - q4 s in
  let AA := A * A in let BB := B * B in let E := AA - BB in let DA := D * A in let CB := C * B in
  Q4 (AA * BB) (E * (AA + a24 * E)) ((DA + CB) * (DA + CB)) (u * ((DA - CB) * (DA - CB))).
Definition hstep (u : Z) (b : bool) (s : quad) : quad := swq b (dbladd u (swq b s)).
Fixpoint hloop (u k : Z) (n : nat) (s : quad) : quad :=
  match n with O => s | S t => hloop u k t (hstep u (Z.testbit k (Z.of_nat t)) s) end.

Lemma swq_eqq : forall c s t, eqq s t -> eqq (swq c s) (swq c t).
Proof. intros [|] s t (A & B & C & D); [|repeat split; assumption]. repeat split; assumption. Qed.
Lemma dbladd_eqq : forall u v s t, eqp u v -> eqq s t -> eqq (dbladd u s) (dbladd v t).
Proof.
  intros u v s t U (A & B & C & D). unfold dbladd. cbv zeta. repeat split; cbn [q1 q2 q3 q4]; rewrite ?A, ?B, ?C, ?D, ?U; reflexivity.
Qed.
Lemma hstep_eqq : forall u v b s t, eqp u v -> eqq s t -> eqq (hstep u b s) (hstep v b t).
Proof. intros. apply swq_eqq, dbladd_eqq; [assumption|]. apply swq_eqq. assumption. Qed.
Lemma hloop_eqq : forall u v k n s t, eqp u v -> eqq s t -> eqq (hloop u k n s) (hloop v k n t).
Proof. intros u v k n. induction n as [|n IH]; intros s t U H; [exact H|]. cbn [hloop]. apply IH; [exact U|]. apply hstep_eqq; assumption. Qed.

(** ** The RFC's loop *)
Definition rview (s : rfc_state) : quad := swq (r_swap s) (Q4 (r_x2 s) (r_z2 s) (r_x3 s) (r_z3 s)).
Lemma swq_swq : forall a b s, swq a (swq b s) = swq (xorb a b) s.
Proof. intros [|] [|] [? ? ? ?]; reflexivity. Qed.
Ltac strip := lazymatch goal with
  | |- eqp (_ mod p25519) _ => eapply eqp_trans; [apply eqp_mod|]; strip
  | |- eqp (_ * _) (_ * _) => apply eqp_mul; strip
  | |- eqp (_ + _) (_ + _) => apply eqp_add; strip
  | |- eqp (_ - _) (_ - _) => apply eqp_sub; strip
  | |- _ => reflexivity end.
Lemma rfc_step_view : forall u b s, eqq (rview (rfc_step u b s)) (hstep u b (rview s)).
Proof.
  intros u b [x2 z2 x3 z3 sw]. unfold hstep, rview. rewrite swq_swq. cbn [r_x2 r_z2 r_x3 r_z3 r_swap].
  rewrite (xorb_comm b sw). unfold rfc_step. cbn [r_x2 r_z2 r_x3 r_z3 r_swap]. cbv zeta.
  destruct (xorb sw b); cbn [cswap r_x2 r_z2 r_x3 r_z3 r_swap]; apply swq_eqq; cbn [swq]; unfold dbladd; cbv zeta; cbn [q1 q2 q3 q4];
    unfold fmult, fpow, fadd, fsub; repeat split; cbn [q1 q2 q3 q4]; rewrite ?Z.pow_2_r; strip.
Qed.
Lemma rfc_loop_view : forall u k n s, eqq (rview (rfc_loop u k n s)) (hloop u k n (rview s)).
Proof.
  intros u k n. induction n as [|n IH]; intro s; [apply eqq_refl|]. cbn [rfc_loop hloop].
  eapply eqq_trans; [apply IH|]. apply hloop_eqq; [reflexivity|apply rfc_step_view].
Qed.
Lemma rfc_ladder_view : forall u k, rfc_ladder k u = (let s := hloop u k 255 (Q4 1 0 u 1) in (q1 s * q2 s ^ (p25519 - 2)) mod p25519).
Proof.
  intros u k. pose proof (rfc_loop_view u k 255 (mk_rfc 1 0 u 1 false)) as H.
  unfold rfc_ladder. cbv zeta. set (s := rfc_loop u k 255 _) in *. clearbody s.
  change (rview (mk_rfc 1 0 u 1 false)) with (Q4 1 0 u 1) in H. set (h := hloop u k 255 _) in *. clearbody h.
  destruct s as [x2 z2 x3 z3 sw]. destruct H as (A & B & _ & _). unfold fmult. 
  destruct sw; cbn [cswap r_swap r_x2 r_z2 r_x3 r_z3]; cbn [rview swq r_swap r_x2 r_z2 r_x3 r_z3 q1 q2 q3 q4] in A, B; unfold fpow;
    match goal with |- ?a mod _ = ?b mod _ => change (eqp a b) end; rewrite eqp_mod, A, B; reflexivity.
Qed.

(** ** The model's loop *)
Definition repq (a b : point) (s : quad) : Prop :=
  below2 RED a /\ below2 RED b /\ eqp (val (px a)) (q1 s) /\ eqp (val (pz a)) (q2 s) /\ eqp (val (px b)) (q3 s) /\ eqp (val (pz b)) (q4 s).
Lemma red64 : RED <= 2 ^ 64. Proof. discriminate. Qed.
Lemma below2_mono : forall A B p, A <= B -> below2 A p -> below2 B p.
Proof. intros A B p H [X Y]. split; eapply below_mono; eassumption. Qed.
Lemma addanddouble_spec : forall a b q u s, repq a b s -> below (2 ^ 51) q -> eqp (val q) u ->
  let '(pp, ppq, p', pq') := addanddouble a b q in repq pp ppq (dbladd u s).
Proof.
  intros [ax az] [bx bz] q u s ([Bax Baz] & [Bbx Bbz] & E1 & E2 & E3 & E4) Bq Eq. cbn [px pz] in *. unfold addanddouble. cbv zeta. cbn [px pz].
  destruct (fsum_spec ax az RED RED Bax Baz ltac:(discriminate)) as [Vx Rx].
  destruct (fdifference_spec az ax RED ltac:(eapply below_mono; [|exact Baz]; discriminate) Bax ltac:(split; discriminate)) as [Vz Rz].
  destruct (fsum_spec bx bz RED RED Bbx Bbz ltac:(discriminate)) as [Vx' Rx'].
  destruct (fdifference_spec bz bx RED ltac:(eapply below_mono; [|exact Bbz]; discriminate) Bbx ltac:(split; discriminate)) as [Vz' Rz'].
  set (x := fsum ax az) in *. set (z := fdifference az ax) in *. set (x' := fsum bx bz) in *. set (z' := fdifference bz bx) in *. clearbody x z x' z'.
  change (2 ^ 54 + RED) with SQ in Rz, Rz'.
  destruct (fmul_spec (RED + RED) SQ x' z ltac:(split; [reflexivity|discriminate]) ltac:(split; [reflexivity|discriminate]) ltac:(discriminate) Rx' Rz) as [V1 R1].
  destruct (fmul_spec (RED + RED) SQ x z' ltac:(split; [reflexivity|discriminate]) ltac:(split; [reflexivity|discriminate]) ltac:(discriminate) Rx Rz') as [V2 R2].
  set (xx' := fmul x' z) in *. set (zz' := fmul x z') in *. clearbody xx' zz'.
  destruct (fsum_spec xx' zz' RED RED R1 R2 ltac:(discriminate)) as [V3 R3].
  destruct (fdifference_spec zz' xx' RED ltac:(eapply below_mono; [|exact R2]; discriminate) R1 ltac:(split; discriminate)) as [V4 R4].
  set (sm := fsum xx' zz') in *. set (df := fdifference zz' xx') in *. clearbody sm df.
  destruct (fsquare_spec sm ltac:(eapply below_mono; [|exact R3]; discriminate)) as [V5 R5].
  destruct (fsquare_spec df R4) as [V6 R6].
  cbn [fsquare_times].
  destruct (fsquare_spec x ltac:(eapply below_mono; [|exact Rx]; discriminate)) as [V7 R7].
  destruct (fsquare_spec z Rz) as [V8 R8].
  set (x3 := fsquare sm) in *. set (zzz' := fsquare df) in *. set (xx := fsquare x) in *. set (zz := fsquare z) in *. clearbody x3 zzz' xx zz.
  destruct (fmul_spec RED (2 ^ 51) zzz' q ltac:(split; [reflexivity|discriminate]) ltac:(split; [reflexivity|discriminate]) ltac:(discriminate) R6 Bq) as [V9 R9].
  destruct (fmul_spec RED RED xx zz ltac:(split; [reflexivity|discriminate]) ltac:(split; [reflexivity|discriminate]) ltac:(discriminate) R7 R8) as [V10 R10].
  destruct (fdifference_spec zz xx RED ltac:(eapply below_mono; [|exact R8]; discriminate) R7 ltac:(split; discriminate)) as [V11 R11].
  set (z3 := fmul zzz' q) in *. set (x2 := fmul xx zz) in *. set (E := fdifference zz xx) in *. clearbody z3 x2 E.
  destruct (fscalar_spec E R11) as [V12 R12]. set (aE := fscalar E 121665) in *. clearbody aE.
  destruct (fsum_spec aE xx (2 ^ 51 + 2 ^ 26) RED R12 R7 ltac:(discriminate)) as [V13 R13]. set (t := fsum aE xx) in *. clearbody t.
  destruct (fmul_spec (2 ^ 51 + 2 ^ 26 + RED) SQ t E ltac:(split; [reflexivity|discriminate]) ltac:(split; [reflexivity|discriminate]) ltac:(discriminate) R13 R11) as [V14 R14].
  split; [split; assumption|]. split; [split; assumption|]. cbn [px pz]. unfold dbladd. cbv zeta. cbn [q1 q2 q3 q4].
  assert (Wx : eqp (val x) (q1 s + q2 s)) by (rewrite Vx, E1, E2; reflexivity).
  assert (Wz : eqp (val z) (q1 s - q2 s)) by (rewrite Vz, E1, E2; reflexivity).
  assert (Wx' : eqp (val x') (q3 s + q4 s)) by (rewrite Vx', E3, E4; reflexivity).
  assert (Wz' : eqp (val z') (q3 s - q4 s)) by (rewrite Vz', E3, E4; reflexivity).
  rewrite V10, V14, V13, V12, V11, V7, V8, V5, V3, V9, V6, V4, V1, V2, Wx, Wz, Wx', Wz', Eq. unfold a24.
  repeat split; match goal with |- eqp ?a ?b => replace a with b by ring; reflexivity end.
Qed.

Lemma shr7 : forall b, 0 <= b < 256 -> Z.shiftr b 7 = Z.b2z (Z.testbit b 7).
Proof.
  intros b Hb. rewrite Z.shiftr_div_pow2 by lia. symmetry. rewrite Z.testbit_spec' by lia. apply Z.mod_small. split; [apply Z.div_pos; lia|]. apply Z.div_lt_upper_bound; lia.
Qed.
Lemma u8_shl_bit : forall b k j, 0 <= k <= j -> j < 8 -> Z.testbit (u8 (Z.shiftl b k)) j = Z.testbit b (j - k).
Proof.
  intros b k j Hk Hj. unfold u8. change 256 with (2 ^ 8). rewrite Z.mod_pow2_bits_low by lia. apply Z.shiftl_spec. lia.
Qed.
Lemma u8_range : forall x, 0 <= u8 x < 256. Proof. intro x. apply Z.mod_pos_bound. lia. Qed.

Lemma small_step_spec : forall a b q u s byt, 0 <= byt < 256 -> repq a b s -> below (2 ^ 51) q -> eqp (val q) u ->
  let r := snd (small_step a b q byt) in repq (fst r) (snd r) (hstep u (Z.testbit byt 7) s).
Proof.
  intros a b q u s byt Hb R Bq Eq. unfold small_step. rewrite shr7 by exact Hb.
  destruct R as (Ra & Rb & E1 & E2 & E3 & E4). rewrite swap_points_spec by (eapply below2_mono; [exact red64|]; assumption).
  unfold hstep. set (c := Z.testbit byt 7). 
  assert (R : repq (fst (if c then (b, a) else (a, b))) (snd (if c then (b, a) else (a, b))) (swq c s)) by (destruct c; repeat split; cbn [fst snd swq q1 q2 q3 q4]; assumption || apply Ra || apply Rb).
  pose proof (addanddouble_spec _ _ q u _ R Bq Eq) as A. destruct (addanddouble _ _ q) as [[[pp ppq] p'] pq'].
  cbn [snd]. destruct A as (Ra' & Rb' & A1 & A2 & A3 & A4). rewrite swap_points_spec by (eapply below2_mono; [exact red64|]; assumption).
  destruct c; repeat split; cbn [fst snd swq q1 q2 q3 q4]; assumption || apply Ra' || apply Rb'.
Qed.
Lemma double_step_spec : forall l q u s byt, 0 <= byt < 256 -> repq (nq l) (nqpq l) s -> below (2 ^ 51) q -> eqp (val q) u ->
  repq (nq (double_step l q byt)) (nqpq (double_step l q byt)) (hstep u (Z.testbit byt 6) (hstep u (Z.testbit byt 7) s)).
Proof.
  intros l q u s byt Hb R Bq Eq. unfold double_step. pose proof (small_step_spec _ _ q u s byt Hb R Bq Eq) as H1. cbv zeta in H1.
  destruct (small_step (nq l) (nqpq l) q byt) as [[x y] s1]. cbn [snd] in H1.
  pose proof (small_step_spec _ _ q u _ (u8 (Z.shiftl byt 1)) (u8_range _) H1 Bq Eq) as H2. cbv zeta in H2.
  rewrite u8_shl_bit in H2 by lia. change (7 - 1) with 6 in H2.
  destruct (small_step (fst s1) (snd s1) q (u8 (Z.shiftl byt 1))) as [[x' y'] s2]. cbn [snd] in H2. exact H2.
Qed.

(** The eight bits of a byte, most significant first. *)
Fixpoint hbyte (u byt : Z) (n : nat) (s : quad) : quad :=
  match n with O => s | S t => hbyte u byt t (hstep u (Z.testbit byt (Z.of_nat t)) s) end.
Lemma small_loop_spec : forall l q u s byt, 0 <= byt < 256 -> repq (nq l) (nqpq l) s -> below (2 ^ 51) q -> eqp (val q) u ->
  repq (nq (small_loop l q byt 4)) (nqpq (small_loop l q byt 4)) (hbyte u byt 8 s).
Proof.
  intros l q u s byt Hb R Bq Eq. 
  pose proof (double_step_spec l q u s byt Hb R Bq Eq) as H1.
  pose proof (double_step_spec _ q u _ (u8 (Z.shiftl byt 2)) (u8_range _) H1 Bq Eq) as H2.
  pose proof (double_step_spec _ q u _ (u8 (Z.shiftl (u8 (Z.shiftl byt 2)) 2)) (u8_range _) H2 Bq Eq) as H3.
  pose proof (double_step_spec _ q u _ (u8 (Z.shiftl (u8 (Z.shiftl (u8 (Z.shiftl byt 2)) 2)) 2)) (u8_range _) H3 Bq Eq) as H4.
  rewrite !u8_shl_bit in H4 by lia. exact H4.
Qed.

Lemma le_val_bit : forall l n j, Forall is_byte l -> 0 <= j < 8 -> Z.testbit (le_val l) (8 * Z.of_nat n + j) = Z.testbit (nth n l 0) j.
Proof.
  induction l as [|b l IH]; intros n j Hl Hj; [cbn [le_val nth]; destruct n; rewrite !Z.bits_0; reflexivity|]. inversion Hl as [|b' l' Hb Hl']; subst.
  cbn [le_val]. assert (Hb' : 0 <= b < 2 ^ 8) by exact Hb.
  destruct n as [|n]; cbn [nth].
  - rewrite <- (Z.mod_pow2_bits_low _ 8) by lia. replace ((b + 256 * le_val l) mod 2 ^ 8) with b; [f_equal; lia|].
    rewrite (Z.mul_comm 256), Z.mod_add by lia. symmetry. apply Z.mod_small. lia.
  - replace (8 * Z.of_nat (S n) + j) with ((8 * Z.of_nat n + j) + 8) by lia. rewrite <- Z.div_pow2_bits by lia.
    rewrite (Z.mul_comm 256), Z.div_add by lia. rewrite (Z.div_small b) by lia. apply IH; assumption.
Qed.
Lemma big_loop_spec : forall n1 q u, Forall is_byte n1 -> below (2 ^ 51) q -> eqp (val q) u -> forall n l s, repq (nq l) (nqpq l) s -> 
  repq (nq (big_loop n1 l q n)) (nqpq (big_loop n1 l q n)) (hloop u (le_val n1) (8 * n) s).
Proof.
  intros n1 q u Hn Bq Eq. induction n as [|n IH]; intros l s R; [exact R|].
  cbn [big_loop]. 
  assert (Hb : 0 <= nth n n1 0 < 256). { destruct (Nat.lt_ge_cases n (length n1)) as [L|L]; [|rewrite nth_overflow by exact L; lia]. rewrite Forall_forall in Hn. apply Hn, nth_In. exact L. }
  pose proof (small_loop_spec l q u s (nth n n1 0) Hb R Bq Eq) as H.
  replace (hloop u (le_val n1) (8 * S n) s) with (hloop u (le_val n1) (8 * n) (hbyte u (nth n n1 0) 8 s)); [apply IH; exact H|].
  replace (8 * S n)%nat with (S (S (S (S (S (S (S (S (8 * n))))))))) by lia. cbn [hloop hbyte].
  rewrite <- !(le_val_bit n1 n) by (assumption || (split; [lia|reflexivity])).
  repeat match goal with |- context [Z.of_nat (S ?x)] => rewrite (Nat2Z.inj_succ x) end.
  repeat f_equal; lia.
Qed.
