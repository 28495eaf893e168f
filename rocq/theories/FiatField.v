(** The limb arithmetic of Fiat.v: bounds, absence of overflow, and values. *)
From Coq Require Import ZArith List Bool Lia.
From Verif Require Import Base NlSpec CurveSpec Fiat.
From Verif Require Import CurveField CurveField2.
Import ListNotations.
Open Scope Z_scope.

(** The number ten limbs stand for. *)
Definition val10 (x : fx) : Z :=
  g0 x + 2 ^ 26 * g1 x + 2 ^ 51 * g2 x + 2 ^ 77 * g3 x + 2 ^ 102 * g4 x + 2 ^ 128 * g5 x + 2 ^ 153 * g6 x + 2 ^ 179 * g7 x + 2 ^ 204 * g8 x + 2 ^ 230 * g9 x.
(** Even limbs at most [2 * n], odd ones at most [n]. *)
Definition upto (n : Z) (x : fx) : Prop :=
  (0 <= g0 x <= 2 * n /\ 0 <= g1 x <= n /\ 0 <= g2 x <= 2 * n /\ 0 <= g3 x <= n /\ 0 <= g4 x <= 2 * n)
  /\ 0 <= g5 x <= n /\ 0 <= g6 x <= 2 * n /\ 0 <= g7 x <= n /\ 0 <= g8 x <= 2 * n /\ 0 <= g9 x <= n.

(** ** A machine term [t] has the exact value [v], which is at most [B] *)
Definition ok (t v B : Z) : Prop := t = v /\ 0 <= v <= B.
Lemma ok_var : forall x B, 0 <= x <= B -> ok x x B. Proof. split; [reflexivity|assumption]. Qed.
Lemma ok_addl : forall t v A s w B, ok t v A -> ok s w B -> (A + B <? 2 ^ 64) = true -> ok (u64 (t + s)) (v + w) (A + B).
Proof. intros t v A s w B [-> H] [-> K] L. apply Z.ltb_lt in L. split; [apply Z.mod_small; lia|lia]. Qed.
Lemma ok_mull : forall t v A s w B, ok t v A -> ok s w B -> (A * B <? 2 ^ 64) = true -> ok (u64 (t * s)) (v * w) (A * B).
Proof. intros t v A s w B [-> H] [-> K] L. apply Z.ltb_lt in L. pose proof (mul_bound v w A B H K). split; [apply Z.mod_small; lia|assumption]. Qed.
Lemma ok_mulw : forall t v A s w B, ok t v A -> ok s w B -> (A * B <? 2 ^ 32) = true -> ok (u32 (t * s)) (v * w) (A * B).
Proof. intros t v A s w B [-> H] [-> K] L. apply Z.ltb_lt in L. pose proof (mul_bound v w A B H K). split; [apply Z.mod_small; lia|assumption]. Qed.
Lemma ok_shl : forall t v A n, 0 <= n -> ok t v A -> (A * 2 ^ n <? 2 ^ 64) = true -> ok (u64 (Z.shiftl t n)) (v * 2 ^ n) (A * 2 ^ n).
Proof.
  intros t v A n Hn [-> H] L. apply Z.ltb_lt in L. rewrite Z.shiftl_mul_pow2 by exact Hn. assert (0 < 2 ^ n) by (apply Z.pow_pos_nonneg; lia).
  split; [apply Z.mod_small; nia|nia].
Qed.
Lemma ok_lit : forall z, (0 <=? z) = true -> ok z z z.
Proof. intros z H. apply Z.leb_le in H. split; [reflexivity|lia]. Qed.
Ltac solve_ok :=
  lazymatch goal with
  | |- ok (u64 (_ + _)) _ _ => eapply ok_addl; [solve_ok|solve_ok|vm_compute; reflexivity]
  | |- ok (u64 (_ * _)) _ _ => eapply ok_mull; [solve_ok|solve_ok|vm_compute; reflexivity]
  | |- ok (u32 (_ * _)) _ _ => eapply ok_mulw; [solve_ok|solve_ok|vm_compute; reflexivity]
  | |- ok (u64 (Z.shiftl _ _)) _ _ => eapply ok_shl; [lia|solve_ok|vm_compute; reflexivity]
  | |- ok (Zpos _) _ _ => eapply ok_lit; reflexivity
  | |- _ => first [eassumption|eapply ok_var; eassumption]
  end.
(** Name the value a term is [ok] for. *)
Ltac okay t H := let v := fresh "v" in let B := fresh "B" in
  eassert (H : ok t _ _) by solve_ok.

Lemma land26 : forall x, Z.land (u32 x) 0x3ffffff = x mod 2 ^ 26.
Proof. intro. change 0x3ffffff with (Z.ones 26). rewrite Z.land_ones by lia. unfold u32. symmetry. apply Znumtheory.Zmod_div_mod; [lia|lia|]. exists (2 ^ 6). reflexivity. Qed.
Lemma land25 : forall x, Z.land (u32 x) 0x1ffffff = x mod 2 ^ 25.
Proof. intro. change 0x1ffffff with (Z.ones 25). rewrite Z.land_ones by lia. unfold u32. symmetry. apply Znumtheory.Zmod_div_mod; [lia|lia|]. exists (2 ^ 7). reflexivity. Qed.
Lemma u32_id : forall x, 0 <= x < 2 ^ 32 -> u32 x = x. Proof. intros. apply Z.mod_small. assumption. Qed.

(** The fold of one column. *)
Lemma fold_column : forall lo hi L H, 0 <= lo <= L -> 0 <= hi <= H -> L + 19 * H < 2 ^ 63 ->
  u64 (u64 (u64 (lo + u64 (Z.shiftl hi 4)) + u64 (Z.shiftl hi 1)) + hi) = lo + 19 * hi.
Proof.
  intros lo hi L H A B C. rewrite !Z.shiftl_mul_pow2 by lia. change (2 ^ 4) with 16. change (2 ^ 1) with 2.
  rewrite (u64_id (hi * 16)) by lia. rewrite (u64_id (hi * 2)) by lia. rewrite (u64_id (lo + hi * 16)) by lia.
  rewrite (u64_id (lo + hi * 16 + hi * 2)) by lia. rewrite u64_id by lia. lia.
Qed.
(** A column after folding is below 2^62: enough for every carry. *)
Definition CB : Z := 2 ^ 63 - 2 ^ 40.
Definition cols (x40 x41 x42 x43 x44 x45 x46 x47 x48 x49 x50 x51 x52 x53 x54 x55 x56 x57 x58 : Z) : Z :=
  x40 + 2 ^ 26 * x41 + 2 ^ 51 * x42 + 2 ^ 77 * x43 + 2 ^ 102 * x44 + 2 ^ 128 * x45 + 2 ^ 153 * x46 + 2 ^ 179 * x47 + 2 ^ 204 * x48 + 2 ^ 230 * x49
  + 2 ^ 255 * (x50 + 2 ^ 26 * x51 + 2 ^ 51 * x52 + 2 ^ 77 * x53 + 2 ^ 102 * x54 + 2 ^ 128 * x55 + 2 ^ 153 * x56 + 2 ^ 179 * x57 + 2 ^ 204 * x58).
Lemma fold_and_carry_spec : forall x40 x41 x42 x43 x44 x45 x46 x47 x48 x49 x50 x51 x52 x53 x54 x55 x56 x57 x58,
  0 <= x40 -> 0 <= x41 -> 0 <= x42 -> 0 <= x43 -> 0 <= x44 -> 0 <= x45 -> 0 <= x46 -> 0 <= x47 -> 0 <= x48 -> 0 <= x49 <= CB ->
  0 <= x50 -> 0 <= x51 -> 0 <= x52 -> 0 <= x53 -> 0 <= x54 -> 0 <= x55 -> 0 <= x56 -> 0 <= x57 -> 0 <= x58 ->
  x40 + 19 * x50 <= CB -> x41 + 19 * x51 <= CB -> x42 + 19 * x52 <= CB -> x43 + 19 * x53 <= CB -> x44 + 19 * x54 <= CB ->
  x45 + 19 * x55 <= CB -> x46 + 19 * x56 <= CB -> x47 + 19 * x57 <= CB -> x48 + 19 * x58 <= CB ->
  let r := fold_and_carry x40 x41 x42 x43 x44 x45 x46 x47 x48 x49 x50 x51 x52 x53 x54 x55 x56 x57 x58 in
  eqp (val10 r) (cols x40 x41 x42 x43 x44 x45 x46 x47 x48 x49 x50 x51 x52 x53 x54 x55 x56 x57 x58)
  /\ 0 <= g0 r < 2 ^ 26 /\ 0 <= g1 r < 2 ^ 25 /\ 0 <= g2 r <= 2 ^ 26 /\ 0 <= g3 r < 2 ^ 25 /\ 0 <= g4 r < 2 ^ 26
  /\ 0 <= g5 r < 2 ^ 25 /\ 0 <= g6 r < 2 ^ 26 /\ 0 <= g7 r < 2 ^ 25 /\ 0 <= g8 r < 2 ^ 26 /\ 0 <= g9 r < 2 ^ 25.
Proof.
  intros. unfold fold_and_carry in r. 
  unfold CB in *. change (2 ^ 63 - 2 ^ 40) with 9223370937343148032 in *.
  match goal with r := ?b |- _ => assert (E : r = b) by reflexivity end. clearbody r. cbv zeta in E.
  rewrite (fold_column x48 x58 x48 x58) in E by lia. rewrite (fold_column x47 x57 x47 x57) in E by lia. rewrite (fold_column x46 x56 x46 x56) in E by lia.
  rewrite (fold_column x45 x55 x45 x55) in E by lia. rewrite (fold_column x44 x54 x44 x54) in E by lia. rewrite (fold_column x43 x53 x43 x53) in E by lia.
  rewrite (fold_column x42 x52 x42 x52) in E by lia. rewrite (fold_column x41 x51 x41 x51) in E by lia. rewrite (fold_column x40 x50 x40 x50) in E by lia.
  rewrite !land26, !land25, !Z.shiftr_div_pow2 in E by lia.
  set (y0 := x40 + 19 * x50) in *. set (y1 := x41 + 19 * x51) in *. set (y2 := x42 + 19 * x52) in *. set (y3 := x43 + 19 * x53) in *. set (y4 := x44 + 19 * x54) in *.
  set (y5 := x45 + 19 * x55) in *. set (y6 := x46 + 19 * x56) in *. set (y7 := x47 + 19 * x57) in *. set (y8 := x48 + 19 * x58) in *.
  assert (T : eqp (cols x40 x41 x42 x43 x44 x45 x46 x47 x48 x49 x50 x51 x52 x53 x54 x55 x56 x57 x58)
                  (y0 + 2 ^ 26 * y1 + 2 ^ 51 * y2 + 2 ^ 77 * y3 + 2 ^ 102 * y4 + 2 ^ 128 * y5 + 2 ^ 153 * y6 + 2 ^ 179 * y7 + 2 ^ 204 * y8 + 2 ^ 230 * x49)).
  { eapply (eqp_of_sub _ _ (x50 + 2 ^ 26 * x51 + 2 ^ 51 * x52 + 2 ^ 77 * x53 + 2 ^ 102 * x54 + 2 ^ 128 * x55 + 2 ^ 153 * x56 + 2 ^ 179 * x57 + 2 ^ 204 * x58)).
    unfold cols, y0, y1, y2, y3, y4, y5, y6, y7, y8, p25519. ring. }
  assert (0 <= y0) by lia. assert (0 <= y1) by lia. assert (0 <= y2) by lia. assert (0 <= y3) by lia. assert (0 <= y4) by lia.
  assert (0 <= y5) by lia. assert (0 <= y6) by lia. assert (0 <= y7) by lia. assert (0 <= y8) by lia.
  clearbody y0 y1 y2 y3 y4 y5 y6 y7 y8.
  set (S := cols _ _ _ _ _ _ _ _ _ _ _ _ _ _ _ _ _ _ _) in *. clearbody S.
  repeat match goal with H : 0 <= ?x |- _ => lazymatch x with x40 => clear H | x41 => clear H | x42 => clear H | x43 => clear H | x44 => clear H | x45 => clear H | x46 => clear H | x47 => clear H | x48 => clear H
     | x50 => clear H | x51 => clear H | x52 => clear H | x53 => clear H | x54 => clear H | x55 => clear H | x56 => clear H | x57 => clear H | x58 => clear H end end.
  assert (D26 : forall x, x = 67108864 * (x / 2 ^ 26) + x mod 2 ^ 26 /\ 0 <= x mod 2 ^ 26 < 67108864) by (intro x; split; [apply (Z.div_mod x (2 ^ 26)); lia|apply Z.mod_pos_bound; lia]).
  assert (D25 : forall x, x = 33554432 * (x / 2 ^ 25) + x mod 2 ^ 25 /\ 0 <= x mod 2 ^ 25 < 33554432) by (intro x; split; [apply (Z.div_mod x (2 ^ 25)); lia|apply Z.mod_pos_bound; lia]).
  assert (I : forall x, 0 <= x < 18446744073709551616 -> u64 x = x) by (intros; apply u64_id; assumption).
  assert (J : forall x, 0 <= x < 4294967296 -> u32 x = x) by (intros; apply u32_id; assumption).
  pose proof (D26 y0) as Q0. set (c0 := y0 / 2 ^ 26) in *. set (r0 := y0 mod 2 ^ 26) in *. clearbody c0 r0. rewrite (I (c0 + y1)) in E by lia.
  pose proof (D25 (c0 + y1)) as Q1. set (c1 := (c0 + y1) / 2 ^ 25) in *. set (r1 := (c0 + y1) mod 2 ^ 25) in *. clearbody c1 r1. rewrite (I (c1 + y2)) in E by lia.
  pose proof (D26 (c1 + y2)) as Q2. set (c2 := (c1 + y2) / 2 ^ 26) in *. set (r2 := (c1 + y2) mod 2 ^ 26) in *. clearbody c2 r2. rewrite (I (c2 + y3)) in E by lia.
  pose proof (D25 (c2 + y3)) as Q3. set (c3 := (c2 + y3) / 2 ^ 25) in *. set (r3 := (c2 + y3) mod 2 ^ 25) in *. clearbody c3 r3. rewrite (I (c3 + y4)) in E by lia.
  pose proof (D26 (c3 + y4)) as Q4. set (c4 := (c3 + y4) / 2 ^ 26) in *. set (r4 := (c3 + y4) mod 2 ^ 26) in *. clearbody c4 r4. rewrite (I (c4 + y5)) in E by lia.
  pose proof (D25 (c4 + y5)) as Q5. set (c5 := (c4 + y5) / 2 ^ 25) in *. set (r5 := (c4 + y5) mod 2 ^ 25) in *. clearbody c5 r5. rewrite (I (c5 + y6)) in E by lia.
  pose proof (D26 (c5 + y6)) as Q6. set (c6 := (c5 + y6) / 2 ^ 26) in *. set (r6 := (c5 + y6) mod 2 ^ 26) in *. clearbody c6 r6. rewrite (I (c6 + y7)) in E by lia.
  pose proof (D25 (c6 + y7)) as Q7. set (c7 := (c6 + y7) / 2 ^ 25) in *. set (r7 := (c6 + y7) mod 2 ^ 25) in *. clearbody c7 r7. rewrite (I (c7 + y8)) in E by lia.
  pose proof (D26 (c7 + y8)) as Q8. set (c8 := (c7 + y8) / 2 ^ 26) in *. set (r8 := (c7 + y8) mod 2 ^ 26) in *. clearbody c8 r8. rewrite (I (c8 + x49)) in E by lia.
  pose proof (D25 (c8 + x49)) as Q9. set (c9 := (c8 + x49) / 2 ^ 25) in *. set (r9 := (c8 + x49) mod 2 ^ 25) in *. clearbody c9 r9.
  assert (0 <= c9 <= 274877906944) by lia. rewrite (I (19 * c9)) in E by lia. rewrite (I (r0 + 19 * c9)) in E by lia.
  pose proof (D26 (r0 + 19 * c9)) as Qa. set (ca := (r0 + 19 * c9) / 2 ^ 26) in *. set (ra := (r0 + 19 * c9) mod 2 ^ 26) in *. clearbody ca ra.
  rewrite (J ca) in E by lia. rewrite (J (ca + r1)) in E by lia.
  pose proof (D25 (ca + r1)) as Qb. set (cb := (ca + r1) / 2 ^ 25) in *. set (rb := (ca + r1) mod 2 ^ 25) in *. clearbody cb rb.
  assert (0 <= cb <= 1) by lia. rewrite (J (cb + r2)) in E by lia. clear I J D25 D26.
  subst r. unfold val10. cbn [g0 g1 g2 g3 g4 g5 g6 g7 g8 g9].
  split; [|change (2 ^ 26) with 67108864; change (2 ^ 25) with 33554432; lia].
  eapply eqp_trans; [|apply eqp_sym, T]. clear T.
  apply (eqp_of_sub _ _ (- c9)). unfold p25519.
  destruct Q0 as [Q0 _], Q1 as [Q1 _], Q2 as [Q2 _], Q3 as [Q3 _], Q4 as [Q4 _], Q5 as [Q5 _], Q6 as [Q6 _], Q7 as [Q7 _], Q8 as [Q8 _], Q9 as [Q9 _], Qa as [Qa _], Qb as [Qb _].
  change (2 ^ 26) with 67108864 in *.
  replace ra with (r0 + 19 * c9 - 67108864 * ca) by lia. replace rb with (ca + r1 - 33554432 * cb) by lia.
  replace r0 with (y0 - 67108864 * c0) by lia. replace r1 with (c0 + y1 - 33554432 * c1) by lia. replace r2 with (c1 + y2 - 67108864 * c2) by lia.
  replace r3 with (c2 + y3 - 33554432 * c3) by lia. replace r4 with (c3 + y4 - 67108864 * c4) by lia. replace r5 with (c4 + y5 - 33554432 * c5) by lia.
  replace r6 with (c5 + y6 - 67108864 * c6) by lia. replace r7 with (c6 + y7 - 33554432 * c7) by lia. replace r8 with (c7 + y8 - 67108864 * c8) by lia.
  replace r9 with (c8 + x49 - 33554432 * c9) by lia. ring.
Qed.

(** What a product, square or inverse leaves; what a sum or difference of two such leaves. *)
Definition TIGHT : Z := 2 ^ 25.
Definition LOOSE : Z := 3 * 2 ^ 25.
Definition canon (r : fx) : Prop :=
  (0 <= g0 r < 2 ^ 26 /\ 0 <= g1 r < 2 ^ 25 /\ 0 <= g2 r <= 2 ^ 26 /\ 0 <= g3 r < 2 ^ 25 /\ 0 <= g4 r < 2 ^ 26)
  /\ 0 <= g5 r < 2 ^ 25 /\ 0 <= g6 r < 2 ^ 26 /\ 0 <= g7 r < 2 ^ 25 /\ 0 <= g8 r < 2 ^ 26 /\ 0 <= g9 r < 2 ^ 25.
Lemma upto_mono : forall m n x, m <= n -> upto m x -> upto n x.
Proof. unfold upto. intros. lia. Qed.
Lemma canon_upto : forall x, canon x -> upto TIGHT x.
Proof. unfold canon, upto, TIGHT. intros. lia. Qed.
Lemma fold_le : forall x y A B, 0 <= x <= A -> 0 <= y <= B -> (A + 19 * B <=? CB) = true -> x + 19 * y <= CB.
Proof. intros x y A B Hx Hy H. apply Z.leb_le in H. lia. Qed.
Lemma last_le : forall x A, 0 <= x <= A -> (A <=? CB) = true -> 0 <= x <= CB.
Proof. intros x A Hx H. apply Z.leb_le in H. lia. Qed.
(** Replace a column by its exact value; [H] keeps its bounds. *)
Ltac column t H :=
  let K := fresh in eassert (K : ok t _ _) by solve_ok; destruct K as [K H]; rewrite K; clear K;
  match type of H with 0 <= ?v <= ?B => let B' := eval vm_compute in B in change (0 <= v <= B') in H end.

Lemma fe_mul_spec : forall a b, upto LOOSE a -> upto LOOSE b -> eqp (val10 (fe_mul_impl a b)) (val10 a * val10 b) /\ canon (fe_mul_impl a b).
Proof.
  intros [a0 a1 a2 a3 a4 a5 a6 a7 a8 a9] [b0 b1 b2 b3 b4 b5 b6 b7 b8 b9] [(A0 & A1 & A2 & A3 & A4) (A5 & A6 & A7 & A8 & A9)] [(B0 & B1 & B2 & B3 & B4) (B5 & B6 & B7 & B8 & B9)].
  unfold LOOSE in *. change (2 * (3 * 2 ^ 25)) with 201326592 in *. change (3 * 2 ^ 25) with 100663296 in *.
  cbn [g0 g1 g2 g3 g4 g5 g6 g7 g8 g9] in *. unfold fe_mul_impl. cbv zeta. cbn [g0 g1 g2 g3 g4 g5 g6 g7 g8 g9].
  match goal with |- context [fold_and_carry ?x40 ?x41 ?x42 ?x43 ?x44 ?x45 ?x46 ?x47 ?x48 ?x49 ?x50 ?x51 ?x52 ?x53 ?x54 ?x55 ?x56 ?x57 ?x58] =>
    column x40 H0; column x41 H1; column x42 H2; column x43 H3; column x44 H4; column x45 H5; column x46 H6; column x47 H7; column x48 H8; column x49 H9;
    column x50 H10; column x51 H11; column x52 H12; column x53 H13; column x54 H14; column x55 H15; column x56 H16; column x57 H17; column x58 H18 end.
  match goal with |- context [fold_and_carry ?x40 ?x41 ?x42 ?x43 ?x44 ?x45 ?x46 ?x47 ?x48 ?x49 ?x50 ?x51 ?x52 ?x53 ?x54 ?x55 ?x56 ?x57 ?x58] =>
    pose proof (fold_and_carry_spec x40 x41 x42 x43 x44 x45 x46 x47 x48 x49 x50 x51 x52 x53 x54 x55 x56 x57 x58) as F end.
  specialize (F (proj1 H0) (proj1 H1) (proj1 H2) (proj1 H3) (proj1 H4) (proj1 H5) (proj1 H6) (proj1 H7) (proj1 H8) (last_le _ _ H9 eq_refl)
    (proj1 H10) (proj1 H11) (proj1 H12) (proj1 H13) (proj1 H14) (proj1 H15) (proj1 H16) (proj1 H17) (proj1 H18)
    (fold_le _ _ _ _ H0 H10 eq_refl) (fold_le _ _ _ _ H1 H11 eq_refl) (fold_le _ _ _ _ H2 H12 eq_refl) (fold_le _ _ _ _ H3 H13 eq_refl) (fold_le _ _ _ _ H4 H14 eq_refl)
    (fold_le _ _ _ _ H5 H15 eq_refl) (fold_le _ _ _ _ H6 H16 eq_refl) (fold_le _ _ _ _ H7 H17 eq_refl) (fold_le _ _ _ _ H8 H18 eq_refl)).
  clear H0 H1 H2 H3 H4 H5 H6 H7 H8 H9 H10 H11 H12 H13 H14 H15 H16 H17 H18.
  cbv zeta in F. destruct F as [V F]. set (r := fold_and_carry _ _ _ _ _ _ _ _ _ _ _ _ _ _ _ _ _ _ _) in *. clearbody r. split; [|unfold canon; tauto].
  eapply eqp_trans; [exact V|]. match goal with |- eqp ?x ?y => replace x with y; [reflexivity|] end. unfold cols, val10. cbn [g0 g1 g2 g3 g4 g5 g6 g7 g8 g9]. ring.
Qed.
Lemma fe_sqr_spec : forall a, upto LOOSE a -> eqp (val10 (fe_sqr_impl a)) (val10 a * val10 a) /\ canon (fe_sqr_impl a).
Proof.
  intros [a0 a1 a2 a3 a4 a5 a6 a7 a8 a9] [(A0 & A1 & A2 & A3 & A4) (A5 & A6 & A7 & A8 & A9)].
  unfold LOOSE in *. change (2 * (3 * 2 ^ 25)) with 201326592 in *. change (3 * 2 ^ 25) with 100663296 in *.
  cbn [g0 g1 g2 g3 g4 g5 g6 g7 g8 g9] in *. unfold fe_sqr_impl. cbv zeta. cbn [g0 g1 g2 g3 g4 g5 g6 g7 g8 g9].
  match goal with |- context [fold_and_carry ?x40 ?x41 ?x42 ?x43 ?x44 ?x45 ?x46 ?x47 ?x48 ?x49 ?x50 ?x51 ?x52 ?x53 ?x54 ?x55 ?x56 ?x57 ?x58] =>
    column x40 H0; column x41 H1; column x42 H2; column x43 H3; column x44 H4; column x45 H5; column x46 H6; column x47 H7; column x48 H8; column x49 H9;
    column x50 H10; column x51 H11; column x52 H12; column x53 H13; column x54 H14; column x55 H15; column x56 H16; column x57 H17; column x58 H18 end.
  match goal with |- context [fold_and_carry ?x40 ?x41 ?x42 ?x43 ?x44 ?x45 ?x46 ?x47 ?x48 ?x49 ?x50 ?x51 ?x52 ?x53 ?x54 ?x55 ?x56 ?x57 ?x58] =>
    pose proof (fold_and_carry_spec x40 x41 x42 x43 x44 x45 x46 x47 x48 x49 x50 x51 x52 x53 x54 x55 x56 x57 x58) as F end.
  specialize (F (proj1 H0) (proj1 H1) (proj1 H2) (proj1 H3) (proj1 H4) (proj1 H5) (proj1 H6) (proj1 H7) (proj1 H8) (last_le _ _ H9 eq_refl)
    (proj1 H10) (proj1 H11) (proj1 H12) (proj1 H13) (proj1 H14) (proj1 H15) (proj1 H16) (proj1 H17) (proj1 H18)
    (fold_le _ _ _ _ H0 H10 eq_refl) (fold_le _ _ _ _ H1 H11 eq_refl) (fold_le _ _ _ _ H2 H12 eq_refl) (fold_le _ _ _ _ H3 H13 eq_refl) (fold_le _ _ _ _ H4 H14 eq_refl)
    (fold_le _ _ _ _ H5 H15 eq_refl) (fold_le _ _ _ _ H6 H16 eq_refl) (fold_le _ _ _ _ H7 H17 eq_refl) (fold_le _ _ _ _ H8 H18 eq_refl)).
  clear H0 H1 H2 H3 H4 H5 H6 H7 H8 H9 H10 H11 H12 H13 H14 H15 H16 H17 H18.
  cbv zeta in F. destruct F as [V F]. set (r := fold_and_carry _ _ _ _ _ _ _ _ _ _ _ _ _ _ _ _ _ _ _) in *. clearbody r. split; [|unfold canon; tauto].
  eapply eqp_trans; [exact V|]. match goal with |- eqp ?x ?y => replace x with y; [reflexivity|] end. unfold cols, val10. cbn [g0 g1 g2 g3 g4 g5 g6 g7 g8 g9]. ring.
Qed.
Lemma fe_mul121666_spec : forall a, upto LOOSE a -> eqp (val10 (fe_mul121666 a)) (121666 * val10 a) /\ canon (fe_mul121666 a).
Proof.
  intros a Ha. destruct (fe_mul_spec a (Fx 121666 0 0 0 0 0 0 0 0 0) Ha) as [V C]; [unfold upto, LOOSE; cbn [g0 g1 g2 g3 g4 g5 g6 g7 g8 g9]; lia|].
  split; [|exact C]. eapply eqp_trans; [exact V|]. change (val10 (Fx 121666 0 0 0 0 0 0 0 0 0)) with 121666. rewrite Z.mul_comm. apply eqp_refl.
Qed.
Lemma fe_add_spec : forall a b, upto TIGHT a -> upto TIGHT b -> val10 (fe_add a b) = val10 a + val10 b /\ upto (2 * TIGHT) (fe_add a b).
Proof.
  intros [a0 a1 a2 a3 a4 a5 a6 a7 a8 a9] [b0 b1 b2 b3 b4 b5 b6 b7 b8 b9] [(A0 & A1 & A2 & A3 & A4) (A5 & A6 & A7 & A8 & A9)] [(B0 & B1 & B2 & B3 & B4) (B5 & B6 & B7 & B8 & B9)].
  unfold TIGHT in *. cbn [g0 g1 g2 g3 g4 g5 g6 g7 g8 g9] in *. unfold fe_add. cbn [g0 g1 g2 g3 g4 g5 g6 g7 g8 g9]. rewrite !u32_id by lia.
  split; [unfold val10; cbn [g0 g1 g2 g3 g4 g5 g6 g7 g8 g9]; ring|]. unfold upto. cbn [g0 g1 g2 g3 g4 g5 g6 g7 g8 g9]. lia.
Qed.
Lemma fe_sub_spec : forall a b, upto TIGHT a -> upto TIGHT b -> eqp (val10 (fe_sub a b)) (val10 a - val10 b) /\ upto LOOSE (fe_sub a b).
Proof.
  intros [a0 a1 a2 a3 a4 a5 a6 a7 a8 a9] [b0 b1 b2 b3 b4 b5 b6 b7 b8 b9] [(A0 & A1 & A2 & A3 & A4) (A5 & A6 & A7 & A8 & A9)] [(B0 & B1 & B2 & B3 & B4) (B5 & B6 & B7 & B8 & B9)].
  unfold TIGHT, LOOSE in *. cbn [g0 g1 g2 g3 g4 g5 g6 g7 g8 g9] in *. unfold fe_sub. cbn [g0 g1 g2 g3 g4 g5 g6 g7 g8 g9].
  rewrite (u32_id (_ + a0)), (u32_id (_ + a1)), (u32_id (_ + a2)), (u32_id (_ + a3)), (u32_id (_ + a4)), (u32_id (_ + a5)), (u32_id (_ + a6)), (u32_id (_ + a7)), (u32_id (_ + a8)), (u32_id (_ + a9)) by lia.
  rewrite !u32_id by lia.
  split; [|unfold upto; cbn [g0 g1 g2 g3 g4 g5 g6 g7 g8 g9]; lia].
  apply (eqp_of_sub _ _ 2). unfold val10, p25519. cbn [g0 g1 g2 g3 g4 g5 g6 g7 g8 g9]. ring.
Qed.
