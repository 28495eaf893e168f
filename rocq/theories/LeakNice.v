(** Formulas of LeakSym.v: comparing them, renaming their inputs, reading them without reductions that do nothing, and symbolic runs from
    states of which only some variables are known. *)
From Coq Require Import String ZArith List Bool Lia.
From Verif Require Import Base Leak LeakValue LeakSym LeakRuns.
Import ListNotations.
Open Scope Z_scope.

(** ** Equality *)
Definition ctype_code (t : ctype) : Z := match t with I32 => 0 | U32 => 1 | U8 => 2 | CHAR => 3 | U64 => 4 | U128 => 5 end.
Definition binop_code (o : binop) : Z := match o with Add => 0 | Sub => 1 | Mul => 2 | And => 3 | Or => 4 | Xor => 5 | Shl => 6 | Shr => 7 | Lt => 8 | Ne => 9 | Quot => 10 end.
Lemma ctype_code_inj : forall a b, ctype_code a = ctype_code b -> a = b.
Proof. intros a b; destruct a, b; cbn; congruence. Qed.
Lemma binop_code_inj : forall a b, binop_code a = binop_code b -> a = b.
Proof. intros a b; destruct a, b; cbn; congruence. Qed.
Fixpoint term_eqb (a b : term) : bool :=
  match a, b with
  | TC x, TC y => x =? y
  | TIn x, TIn y => Nat.eqb x y
  | TBin t o a1 a2, TBin t' o' b1 b2 => (ctype_code t =? ctype_code t') && (binop_code o =? binop_code o') && term_eqb a1 b1 && term_eqb a2 b2
  | TFits t a, TFits t' b | TStored t a, TStored t' b | TLoaded t a, TLoaded t' b => (ctype_code t =? ctype_code t') && term_eqb a b
  | _, _ => false
  end.
Lemma term_eqb_sound : forall a b, term_eqb a b = true -> a = b.
Proof.
  intro a. induction a as [x|x|t o a1 IH1 a2 IH2|t a IH|t a IH|t a IH]; intros [y|y|t' o' b1 b2|t' b|t' b|t' b] H; cbn [term_eqb] in H; try discriminate; repeat (apply andb_true_iff in H; destruct H as [H ?]).
  - apply Z.eqb_eq in H. congruence.
  - apply Nat.eqb_eq in H. congruence.
  - apply Z.eqb_eq in H. apply Z.eqb_eq in H2. apply ctype_code_inj in H. apply binop_code_inj in H2. rewrite (IH1 _ H1), (IH2 _ H0). congruence.
  - apply Z.eqb_eq in H. apply ctype_code_inj in H. rewrite (IH _ H0). congruence.
  - apply Z.eqb_eq in H. apply ctype_code_inj in H. rewrite (IH _ H0). congruence.
  - apply Z.eqb_eq in H. apply ctype_code_inj in H. rewrite (IH _ H0). congruence.
Qed.
Fixpoint terms_eqb (l m : list term) : bool := match l, m with [], [] => true | a :: l', b :: m' => term_eqb a b && terms_eqb l' m' | _, _ => false end.
Lemma terms_eqb_sound : forall l m, terms_eqb l m = true -> l = m.
Proof. intro l. induction l as [|a l IH]; intros [|b m] H; cbn in H; try discriminate; [reflexivity|]. apply andb_true_iff in H. rewrite (term_eqb_sound _ _ (proj1 H)), (IH _ (proj2 H)). reflexivity. Qed.

(** ** Renaming *)
Fixpoint subst (f : nat -> term) (a : term) : term :=
  match a with
  | TC z => TC z | TIn n => f n | TBin t o a b => TBin t o (subst f a) (subst f b) | TFits t a => TFits t (subst f a) | TStored t a => TStored t (subst f a) | TLoaded t a => TLoaded t (subst f a)
  end.
Lemma den_subst : forall sg rho f a, den sg rho (subst f a) = den sg (fun n => den sg rho (f n)) a.
Proof. intros sg rho f a. induction a as [x|x|t o a1 IH1 a2 IH2|t a IH|t a IH|t a IH]; cbn [subst den]; congruence. Qed.

(** ** Reading *)
Inductive nterm := NC (z : Z) | NIn (n : nat) | NOp (op : binop) (a b : nterm) | NFits (t : ctype) (a : nterm) | NStored (t : ctype) (a : nterm) | NLoaded (t : ctype) (a : nterm).
Section Nice.
Variable sg : bool.
Variable win : nat -> Z.
Variable rho : nat -> Z.
Definition unsigned (t : ctype) : bool := match t with I32 | CHAR => false | _ => true end.
(** A number of bits the value, not negative, fits in; [-1] if none is known. *)
Definition bits_arg (t : ctype) (w n : Z) : Z := if (0 <=? n) && ((n <=? w) || negb (unsigned t)) then n else w.
Definition bits_op (t : ctype) (w : Z) (op : binop) (k : option Z) (x y : Z) : Z :=
  match op with
  | And => if (0 <=? x) && (0 <=? y) then Z.min x y else w
  | Or | Xor => if (0 <=? x) && (0 <=? y) then Z.max x y else w
  | Shr => match k with Some k => if (0 <=? x) && (0 <=? k) && (k <=? x) && (0 <=? y) && ((y <=? w) || negb (unsigned t)) then x - k else w | _ => w end
  | _ => w
  end.
Fixpoint bits (a : term) : Z :=
  match a with
  | TC z => if 0 <=? z then (if z =? 0 then 0 else Z.log2 z + 1) else -1
  | TIn n => win n
  | TBin t op a b =>
      let w := if unsigned t then width t else -1 in
      bits_op t w op (match b with TC k => Some k | _ => None end) (bits_arg t w (bits a)) (bits_arg t w (bits b))
  | TFits t a => if unsigned t then width t else bits a
  | TStored t a => width t
  | TLoaded t a => if unsigned t then bits a else -1
  end.
Definition between (n w : Z) : bool := (0 <=? n) && (n <=? w).
Definition small (a : term) (w : Z) : bool := between (bits a) w.
Fixpoint nice (a : term) : Z :=
  match a with
  | TC z => z
  | TIn n => rho n
  | TBin t op a b =>
      let x := if negb (unsigned t) || small a (width t) then nice a else v_fits t (nice a) in
      let y := if negb (unsigned t) || small b (width t) then nice b else v_fits t (nice b) in
      if negb (unsigned t) then v_exact op x y
      else match op with And | Or | Xor => v_exact op x y | Shr => (match b with TC k => if 0 <=? k then v_exact op x y else v_fits t (v_exact op x y) | _ => v_fits t (v_exact op x y) end) | _ => v_fits t (v_exact op x y) end
  | TFits t a => if negb (unsigned t) || small a (width t) then nice a else v_fits t (nice a)
  | TStored t a => if small a (width t) then nice a else stored t (nice a)
  | TLoaded t a => if unsigned t then nice a else loaded sg t (nice a)
  end.
(** The same in two steps: the choice of reductions first. *)
Fixpoint simp (a : term) : nterm :=
  match a with
  | TC z => NC z
  | TIn n => NIn n
  | TBin t op a b =>
      let x := if negb (unsigned t) || small a (width t) then simp a else NFits t (simp a) in
      let y := if negb (unsigned t) || small b (width t) then simp b else NFits t (simp b) in
      if negb (unsigned t) then NOp op x y
      else match op with And | Or | Xor => NOp op x y | Shr => (match b with TC k => if 0 <=? k then NOp op x y else NFits t (NOp op x y) | _ => NFits t (NOp op x y) end) | _ => NFits t (NOp op x y) end
  | TFits t a => if negb (unsigned t) || small a (width t) then simp a else NFits t (simp a)
  | TStored t a => if small a (width t) then simp a else NStored t (simp a)
  | TLoaded t a => if unsigned t then simp a else NLoaded t (simp a)
  end.
Fixpoint nden (a : nterm) : Z :=
  match a with
  | NC z => z | NIn n => rho n | NOp op a b => v_exact op (nden a) (nden b) | NFits t a => v_fits t (nden a) | NStored t a => stored t (nden a) | NLoaded t a => loaded sg t (nden a)
  end.
Lemma nden_if : forall (c : bool) x t, nden (if c then x else NFits t x) = if c then nden x else v_fits t (nden x).
Proof. intros c x t. destruct c; reflexivity. Qed.
Lemma nden_simp : forall a, nden (simp a) = nice a.
Proof.
  intro a. induction a as [z|n|t op a IHa b IHb|t a IH|t a IH|t a IH]; cbn [simp nice nden]; try reflexivity.
  - cbv zeta. rewrite <- IHa, <- IHb, <- !nden_if. destruct (negb (unsigned t)); [reflexivity|]. destruct op; try reflexivity. destruct b as [k| | | | |]; try reflexivity. destruct (0 <=? k); reflexivity.
  - rewrite <- IH, <- nden_if. reflexivity.
  - rewrite <- IH. destruct (small a (width t)); reflexivity.
  - rewrite <- IH. destruct (unsigned t); reflexivity.
Qed.
Hypothesis typed : forall n, 0 <= win n -> 0 <= rho n < 2 ^ win n.

Lemma pow_le : forall a b, 0 <= a <= b -> 2 ^ a <= 2 ^ b.
Proof. intros a b H. apply Z.pow_le_mono_r; lia. Qed.
Lemma stored_small : forall t z w, 0 <= w <= width t -> 0 <= z < 2 ^ w -> stored t z = z.
Proof.
  intros t z w Hw Hz. pose proof (pow_le w (width t) Hw). destruct t; cbn [stored width] in *; unfold u32, u8, u64; apply Z.mod_small; lia.
Qed.
Lemma fits_small : forall t z w, 0 <= w <= width t -> 0 <= z < 2 ^ w -> v_fits t z = z.
Proof. intros t z w Hw Hz. unfold v_fits. destruct t; try reflexivity; apply (stored_small _ z w Hw Hz). Qed.
Lemma stored_range : forall t z, 0 <= stored t z < 2 ^ width t.
Proof. intros t z. destruct t; cbn [stored width]; unfold u32, u8, u64; apply Z.mod_pos_bound; reflexivity. Qed.
Lemma fits_range : forall t z, unsigned t = true -> 0 <= v_fits t z < 2 ^ width t.
Proof. intros t z H. destruct t; try discriminate; exact (stored_range _ z). Qed.
Lemma width_nonneg : forall t, 0 <= width t.
Proof. intro t. destruct t; cbn; lia. Qed.
Lemma bits_lt : forall w x, 0 <= w -> 0 <= x -> (x < 2 ^ w <-> Z.shiftr x w = 0).
Proof.
  intros w x Hw Hx. rewrite Z.shiftr_div_pow2 by exact Hw. pose proof (Z.pow_pos_nonneg 2 w ltac:(lia) Hw). split; intro H1.
  - apply Z.div_small. lia.
  - pose proof (Z.div_mod x (2 ^ w) ltac:(lia)). pose proof (Z.mod_pos_bound x (2 ^ w) ltac:(lia)). nia.
Qed.
Lemma land_range : forall x y a b, 0 <= a -> 0 <= b -> 0 <= x < 2 ^ a -> 0 <= y < 2 ^ b -> 0 <= Z.land x y < 2 ^ Z.min a b.
Proof.
  intros x y a b Ha Hb Hx Hy. assert (N : 0 <= Z.land x y) by (apply Z.land_nonneg; lia). split; [exact N|]. apply bits_lt; [lia|exact N|]. rewrite Z.shiftr_land.
  destruct (Z.min_spec a b) as [[L ->]|[L ->]].
  - rewrite (proj1 (bits_lt a x Ha ltac:(lia)) ltac:(lia)). apply Z.land_0_l.
  - rewrite (proj1 (bits_lt b y Hb ltac:(lia)) ltac:(lia)). apply Z.land_0_r.
Qed.
Lemma lor_range : forall x y a b, 0 <= a -> 0 <= b -> 0 <= x < 2 ^ a -> 0 <= y < 2 ^ b -> 0 <= Z.lor x y < 2 ^ Z.max a b /\ 0 <= Z.lxor x y < 2 ^ Z.max a b.
Proof.
  intros x y a b Ha Hb Hx Hy. pose proof (pow_le a (Z.max a b) ltac:(lia)). pose proof (pow_le b (Z.max a b) ltac:(lia)).
  assert (E1 := proj1 (bits_lt (Z.max a b) x ltac:(lia) ltac:(lia)) ltac:(lia)). assert (E2 := proj1 (bits_lt (Z.max a b) y ltac:(lia) ltac:(lia)) ltac:(lia)).
  split; (split; [(apply Z.lor_nonneg; lia) || (apply Z.lxor_nonneg; lia)|]).
  - apply bits_lt; [lia|apply Z.lor_nonneg; lia|]. rewrite Z.shiftr_lor, E1, E2. reflexivity.
  - apply bits_lt; [lia|apply Z.lxor_nonneg; lia|]. rewrite Z.shiftr_lxor, E1, E2. reflexivity.
Qed.
Lemma shr_range : forall x a k, 0 <= k <= a -> 0 <= x < 2 ^ a -> 0 <= Z.shiftr x k < 2 ^ (a - k).
Proof.
  intros x a k Hk Hx. rewrite Z.shiftr_div_pow2 by lia. pose proof (Z.pow_pos_nonneg 2 k ltac:(lia) ltac:(lia)). split; [apply Z.div_pos; lia|]. apply Z.div_lt_upper_bound; [lia|].
  rewrite <- Z.pow_add_r by lia. replace (k + (a - k)) with a by lia. lia.
Qed.
Lemma shr_le : forall x k, 0 <= x -> 0 <= k -> 0 <= Z.shiftr x k <= x.
Proof. intros x k Hx Hk. rewrite Z.shiftr_div_pow2 by lia. pose proof (Z.pow_pos_nonneg 2 k ltac:(lia) ltac:(lia)). split; [apply Z.div_pos; lia|]. apply Z.div_le_upper_bound; nia. Qed.

Lemma bits_sound : forall a, 0 <= bits a -> 0 <= den sg rho a < 2 ^ bits a.
Proof.
  intro a. induction a as [z|n|t op a IHa b IHb|t a IH|t a IH|t a IH]; cbn [bits den]; intro H.
  - destruct (0 <=? z) eqn:E; [|lia]. apply Z.leb_le in E. destruct (Z.eqb_spec z 0) as [->|N]; [cbn; lia|]. pose proof (Z.log2_spec z ltac:(lia)). replace (Z.log2 z + 1) with (Z.succ (Z.log2 z)) by lia. lia.
  - exact (typed n H).
  - revert H. cbv zeta. unfold bits_op, bits_arg. set (w := if unsigned t then width t else -1). set (x := if (0 <=? bits a) && ((bits a <=? w) || negb (unsigned t)) then bits a else w).
    set (y := if (0 <=? bits b) && ((bits b <=? w) || negb (unsigned t)) then bits b else w).
    assert (X : 0 <= x -> 0 <= v_fits t (den sg rho a) < 2 ^ x).
    { unfold x. destruct ((0 <=? bits a) && _) eqn:E; intro P.
      - apply andb_true_iff in E. destruct E as [E1 E2]. specialize (IHa P). destruct (unsigned t) eqn:U.
        + rewrite orb_false_r in E2. apply Z.leb_le in E2. unfold w in E2. rewrite (fits_small _ _ (bits a)); [exact IHa|lia|exact IHa].
        + destruct t; try discriminate; exact IHa.
      - unfold w in *. destruct (unsigned t) eqn:U; [|lia]. apply fits_range. exact U. }
    assert (Y : 0 <= y -> 0 <= v_fits t (den sg rho b) < 2 ^ y).
    { unfold y. destruct ((0 <=? bits b) && _) eqn:E; intro P.
      - apply andb_true_iff in E. destruct E as [E1 E2]. specialize (IHb P). destruct (unsigned t) eqn:U.
        + rewrite orb_false_r in E2. apply Z.leb_le in E2. unfold w in E2. rewrite (fits_small _ _ (bits b)); [exact IHb|lia|exact IHb].
        + destruct t; try discriminate; exact IHb.
      - unfold w in *. destruct (unsigned t) eqn:U; [|lia]. apply fits_range. exact U. }
    assert (Wx : x <= w \/ unsigned t = false).
    { unfold x. destruct ((0 <=? bits a) && _) eqn:E; [|left; lia]. apply andb_true_iff in E. destruct E as [_ E2]. destruct (unsigned t); [left|right; reflexivity]. rewrite orb_false_r in E2. apply Z.leb_le. exact E2. }
    assert (Wy : y <= w \/ unsigned t = false).
    { unfold y. destruct ((0 <=? bits b) && _) eqn:E; [|left; lia]. apply andb_true_iff in E. destruct E as [_ E2]. destruct (unsigned t); [left|right; reflexivity]. rewrite orb_false_r in E2. apply Z.leb_le. exact E2. }
    assert (D : forall z, 0 <= w -> 0 <= v_fits t z < 2 ^ w).
    { intros z P. unfold w in *. destruct (unsigned t) eqn:U; [|lia]. apply fits_range. exact U. }
    assert (F : forall z k, 0 <= k -> (k <= w \/ unsigned t = false) -> 0 <= z < 2 ^ k -> 0 <= v_fits t z < 2 ^ k).
    { intros z k Pk Hk Hz. unfold w in Hk. destruct (unsigned t) eqn:U; [destruct Hk as [Hk|Hk]; [|discriminate]; rewrite (fits_small _ _ k); [exact Hz|lia|exact Hz]|]. destruct t; try discriminate; exact Hz. }
    clearbody x y. destruct op; try (intro P; apply D; exact P).
    + destruct ((0 <=? x) && (0 <=? y)) eqn:E; intro P; [|apply D; exact P]. apply andb_true_iff in E. destruct E as [E1 E2]. apply Z.leb_le in E1, E2. cbn [v_exact]. apply F; [exact P| |apply land_range; auto]. destruct (unsigned t); [left; destruct Wx; [lia|discriminate]|right; reflexivity].
    + destruct ((0 <=? x) && (0 <=? y)) eqn:E; intro P; [|apply D; exact P]. apply andb_true_iff in E. destruct E as [E1 E2]. apply Z.leb_le in E1, E2. cbn [v_exact]. apply F; [exact P| |apply lor_range; auto]. destruct (unsigned t); [left; destruct Wx; [|discriminate]; destruct Wy; [lia|discriminate]|right; reflexivity].
    + destruct ((0 <=? x) && (0 <=? y)) eqn:E; intro P; [|apply D; exact P]. apply andb_true_iff in E. destruct E as [E1 E2]. apply Z.leb_le in E1, E2. cbn [v_exact]. apply F; [exact P| |apply lor_range; auto]. destruct (unsigned t); [left; destruct Wx; [|discriminate]; destruct Wy; [lia|discriminate]|right; reflexivity].
    + destruct b as [k| | | | |]; try (intro P; apply D; exact P). destruct (_ && _) eqn:E; intro P; [|apply D; exact P]. apply andb_true_iff in E; destruct E as [E _]. apply andb_true_iff in E; destruct E as [E H0]. apply andb_true_iff in E; destruct E as [E H1]. apply andb_true_iff in E; destruct E as [E H2]. apply Z.leb_le in E, H0, H1, H2. cbn [v_exact den] in *.
      assert (K : v_fits t k = k).
      { destruct (unsigned t) eqn:U; [|destruct t; try discriminate; reflexivity].
        assert (Bk : 0 <= bits (TC k)) by (cbn [bits]; replace (0 <=? k) with true by (symmetry; apply Z.leb_le; lia); destruct (k =? 0); [lia|pose proof (Z.log2_nonneg k); lia]).
        specialize (IHb Bk). cbn [den] in IHb. destruct Wy as [Wy|Wy]; [|discriminate]. apply (fits_small t k (width t)); [pose proof (width_nonneg t); lia|]. split; [lia|].
        pose proof (Z.pow_le_mono_r 2 x (width t) ltac:(lia)). unfold w in Wx. destruct Wx as [Wx|Wx]; [|discriminate]. pose proof (pow_le x (width t) ltac:(lia)). pose proof (Z.pow_gt_lin_r 2 x ltac:(lia) ltac:(lia)). lia. }
      rewrite K. apply F; [lia| |apply shr_range; [lia|apply X; lia]]. destruct (unsigned t); [left; destruct Wx; [lia|discriminate]|right; reflexivity].
  - destruct (unsigned t) eqn:U; [apply fits_range; exact U|]. destruct t; try discriminate; exact (IH H).
  - apply stored_range.
  - destruct (unsigned t) eqn:U; [|lia]. destruct t; try discriminate; exact (IH H).
Qed.
Lemma small_sound : forall a w, small a w = true -> 0 <= bits a <= w /\ 0 <= den sg rho a < 2 ^ bits a.
Proof. intros a w H. unfold small, between in H. apply andb_true_iff in H. destruct H as [H1 H2]. apply Z.leb_le in H1, H2. split; [lia|]. apply bits_sound. exact H1. Qed.
Theorem nice_den : forall a, nice a = den sg rho a.
Proof.
  intro a. induction a as [z|n|t op a IHa b IHb|t a IH|t a IH|t a IH]; cbn [nice den].
  - reflexivity.
  - reflexivity.
  - cbv zeta. rewrite IHa, IHb.
    assert (X : (if negb (unsigned t) || small a (width t) then den sg rho a else v_fits t (den sg rho a)) = v_fits t (den sg rho a)).
    { destruct (unsigned t) eqn:U; cbn [negb orb]; [|destruct t; try discriminate; reflexivity]. destruct (small a (width t)) eqn:S; [|reflexivity]. destruct (small_sound _ _ S) as [H1 H2]. symmetry. apply (fits_small _ _ (bits a)); assumption. }
    assert (Y : (if negb (unsigned t) || small b (width t) then den sg rho b else v_fits t (den sg rho b)) = v_fits t (den sg rho b)).
    { destruct (unsigned t) eqn:U; cbn [negb orb]; [|destruct t; try discriminate; reflexivity]. destruct (small b (width t)) eqn:S; [|reflexivity]. destruct (small_sound _ _ S) as [H1 H2]. symmetry. apply (fits_small _ _ (bits b)); assumption. }
    rewrite X, Y. destruct (unsigned t) eqn:U; cbn [negb]; [|destruct t; try discriminate; reflexivity].
    pose proof (fits_range t (den sg rho a) U) as RX. pose proof (fits_range t (den sg rho b) U) as RY. pose proof (width_nonneg t) as WN.
    destruct op; try reflexivity; symmetry.
    + apply (fits_small _ _ (width t)); [lia|]. cbn [v_exact]. pose proof (land_range _ _ _ _ WN WN RX RY) as L. rewrite Z.min_id in L. exact L.
    + apply (fits_small _ _ (width t)); [lia|]. cbn [v_exact]. pose proof (proj1 (lor_range _ _ _ _ WN WN RX RY)) as L. rewrite Z.max_id in L. exact L.
    + apply (fits_small _ _ (width t)); [lia|]. cbn [v_exact]. pose proof (proj2 (lor_range _ _ _ _ WN WN RX RY)) as L. rewrite Z.max_id in L. exact L.
    + destruct b as [k| | | | |]; try reflexivity. destruct (0 <=? k) eqn:E; [|reflexivity]. apply (fits_small _ _ (width t)); [lia|]. cbn [v_exact]. pose proof (shr_le (v_fits t (den sg rho a)) (v_fits t (den sg rho (TC k))) ltac:(lia) ltac:(lia)). lia.
  - rewrite IH. destruct (unsigned t) eqn:U; cbn [negb orb]; [|destruct t; try discriminate; reflexivity]. destruct (small a (width t)) eqn:S; [|reflexivity]. destruct (small_sound _ _ S) as [H1 H2]. symmetry. apply (fits_small _ _ (bits a)); assumption.
  - rewrite IH. destruct (small a (width t)) eqn:S; [|reflexivity]. destruct (small_sound _ _ S) as [H1 H2]. symmetry. apply (stored_small _ _ (bits a)); assumption.
  - rewrite IH. destruct t; reflexivity.
Qed.
End Nice.

(** ** Symbolic runs *)
Section Sim.
Variable sg : bool.
Variable fuel : nat.
Variable rho : nat -> Z.
(** Nothing is said of variables and arrays that the formulas do not speak of. *)
Definition sim (s : state) (S : sstate) : Prop :=
  (forall a l, get (s_arrays S) a = Some l -> get (st_arrays s) a = Some (map (den sg rho) l)) /\ forall x t, get (s_vars S) x = Some t -> get (st_vars s) x = Some (den sg rho t).
Lemma s_eval_sim : forall e s S a, sim s S -> s_eval e S = Some a -> value sg e s = den sg rho a.
Proof.
  intro e. induction e as [z|x|t b e IH|t op e1 IH1 e2 IH2|t e IH]; intros s S a M E; cbn [s_eval value] in *.
  - injection E as <-. reflexivity.
  - unfold lookup_. rewrite (proj2 M _ _ E). reflexivity.
  - destruct (s_eval e S) as [i|] eqn:Ee; [|discriminate]. rewrite (IH _ _ _ M Ee). destruct i as [n| | | | |]; try discriminate. cbn [den]. unfold lookup_.
    destruct (get (s_arrays S) b) as [c|] eqn:Eg; [|discriminate]. rewrite (proj1 M _ _ Eg). destruct (_ <? _)%nat eqn:L; [|discriminate]. apply Nat.ltb_lt in L. injection E as <-. cbn [den]. f_equal.
    rewrite (nth_indep _ 0 (den sg rho (TC 0))) by (rewrite map_length; exact L). apply map_nth.
  - destruct (s_eval e1 S) as [x|] eqn:E1; [|discriminate]. destruct (s_eval e2 S) as [y|] eqn:E2; [|discriminate]. injection E as <-. rewrite s_bin_den, (IH1 _ _ _ M E1), (IH2 _ _ _ M E2). reflexivity.
  - destruct (s_eval e S) as [x|] eqn:E1; [|discriminate]. injection E as <-. rewrite s_fits_den, (IH _ _ _ M E1). reflexivity.
Qed.
Theorem s_exec_sim : forall c s S S1 r, sim s S -> s_exec fuel c S = Some (S1, r) -> exists s1, v_exec sg fuel c s = (s1, den_out sg rho r) /\ sim s1 S1.
Proof.
  intro c. induction c as [|t x e|t b i e|c1 IH1 c2 IH2|e c1 IH1 c2 IH2|e c1 IH1|x b|e]; intros s S S1 r M E; cbn [s_exec v_exec] in *.
  - injection E as <- <-. exists s. split; [reflexivity|exact M].
  - destruct (s_eval e S) as [z|] eqn:Ee; [|discriminate]. rewrite (s_eval_sim _ _ _ _ M Ee). injection E as <- <-. eexists. split; [reflexivity|]. destruct M as [M1 M2]. split; cbn [st_arrays s_arrays st_vars s_vars]; [exact M1|].
    intros y q G. destruct (String.string_dec x y) as [<-|N].
    + rewrite get_put_same in *. injection G as <-. rewrite s_fits_den. reflexivity.
    + rewrite get_put_other in * by exact N. exact (M2 _ _ G).
  - destruct (s_eval i S) as [n|] eqn:Ei; [|discriminate]. rewrite (s_eval_sim _ _ _ _ M Ei). destruct n as [n| | | | |]; try discriminate. destruct (s_eval e S) as [z|] eqn:Ee; [|discriminate]. rewrite (s_eval_sim _ _ _ _ M Ee).
    destruct (get (s_arrays S) b) as [cs|] eqn:Eg; [|discriminate]. injection E as <- <-. eexists. split; [reflexivity|]. destruct M as [M1 M2]. split; cbn [st_arrays s_arrays st_vars s_vars]; [|exact M2].
    unfold lookup_. rewrite (M1 _ _ Eg). intros y q G. destruct (String.string_dec b y) as [<-|N].
    + rewrite get_put_same in *. injection G as <-. cbn [den]. change (stored t (den sg rho z)) with (den sg rho (TStored t z)). rewrite map_replace. reflexivity.
    + rewrite get_put_other in * by exact N. exact (M1 _ _ G).
  - destruct (s_exec fuel c1 S) as [[S2 r2]|] eqn:E1; [|discriminate]. destruct (IH1 _ _ _ _ M E1) as (s2 & -> & M2). destruct r2 as [x|]; cbn [den_out]; [|exact (IH2 _ _ _ _ M2 E)]. injection E as <- <-. exists s2. split; [reflexivity|exact M2].
  - destruct (s_eval e S) as [z|] eqn:Ee; [|discriminate]. rewrite (s_eval_sim _ _ _ _ M Ee). destruct z as [z| | | | |]; try discriminate. cbn [den]. destruct (negb (z =? 0)); [exact (IH1 _ _ _ _ M E)|exact (IH2 _ _ _ _ M E)].
  - revert s S M E. generalize fuel at 2 4. intro n. induction n as [|n IH]; intros s S M E; cbn [s_loop v_loop] in *; [discriminate|]. destruct (s_eval e S) as [z|] eqn:Ee; [|discriminate].
    rewrite (s_eval_sim _ _ _ _ M Ee). destruct z as [z| | | | |]; try discriminate. cbn [den]. destruct (z =? 0); [injection E as <- <-; exists s; split; [reflexivity|exact M]|].
    destruct (s_exec fuel c1 S) as [[S2 r2]|] eqn:E1; [|discriminate]. destruct (IH1 _ _ _ _ M E1) as (s2 & -> & M2). destruct r2 as [x|]; cbn [den_out]; [injection E as <- <-; exists s2; split; [reflexivity|exact M2]|]. exact (IH s2 S2 M2 E).
  - discriminate.
  - destruct (s_eval e S) as [z|] eqn:Ee; [|discriminate]. rewrite (s_eval_sim _ _ _ _ M Ee). injection E as <- <-. exists s. split; [reflexivity|exact M].
Qed.
End Sim.

(** ** What a program leaves alone *)
Fixpoint written (c : stmt) : list string :=
  match c with Put _ a _ _ => [a] | Seq a b | If _ a b => (written a ++ written b)%list | While _ a => written a | _ => [] end.
Section Frames.
Variable sg : bool.
Variable fuel : nat.
Lemma v_frame : forall c s x, ~ In x (assigned c) -> get (st_vars (fst (v_exec sg fuel c s))) x = get (st_vars s) x.
Proof.
  intro c. induction c as [|t y e|t b i e|c1 IH1 c2 IH2|e c1 IH1 c2 IH2|e c1 IH1|y b|e]; intros s x N; cbn [v_exec assigned fst st_vars] in *; try reflexivity.
  - apply get_put_other. intro H. apply N. left. exact H.
  - rewrite in_app_iff in N. specialize (IH1 s x ltac:(tauto)). destruct (v_exec sg fuel c1 s) as [s1 [r|]]; [exact IH1|]. rewrite (IH2 s1 x ltac:(tauto)). exact IH1.
  - rewrite in_app_iff in N. destruct (negb _); [apply IH1|apply IH2]; tauto.
  - revert s. generalize fuel at 2. intro n. induction n as [|n IH]; intro s; cbn [v_loop]; [reflexivity|]. destruct (value sg e s =? 0); [reflexivity|]. specialize (IH1 s x N). destruct (v_exec sg fuel c1 s) as [s1 [r|]]; [exact IH1|]. rewrite IH. exact IH1.
  - apply get_put_other. intro H. apply N. left. exact H.
Qed.
Lemma v_frame_arrays : forall c s a, ~ In a (written c) -> get (st_arrays (fst (v_exec sg fuel c s))) a = get (st_arrays s) a.
Proof.
  intro c. induction c as [|t y e|t b i e|c1 IH1 c2 IH2|e c1 IH1 c2 IH2|e c1 IH1|y b|e]; intros s x N; cbn [v_exec written fst st_arrays] in *; try reflexivity.
  - apply get_put_other. intro H. apply N. left. exact H.
  - rewrite in_app_iff in N. specialize (IH1 s x ltac:(tauto)). destruct (v_exec sg fuel c1 s) as [s1 [r|]]; [exact IH1|]. rewrite (IH2 s1 x ltac:(tauto)). exact IH1.
  - rewrite in_app_iff in N. destruct (negb _); [apply IH1|apply IH2]; tauto.
  - revert s. generalize fuel at 2. intro n. induction n as [|n IH]; intro s; cbn [v_loop]; [reflexivity|]. destruct (value sg e s =? 0); [reflexivity|]. specialize (IH1 s x N). destruct (v_exec sg fuel c1 s) as [s1 [r|]]; [exact IH1|]. rewrite IH. exact IH1.
Qed.
(** Arrays keep their lengths and hold numbers of their type, if elements are stored at the type of the array. *)
Definition holds (d : Z * nat) (l : list Z) : Prop := length l = snd d /\ Forall (fun c => 0 <= c < 2 ^ fst d) l.
Fixpoint puts (ty : string -> option (Z * nat)) (c : stmt) : bool :=
  match c with
  | Put t a _ _ => match ty a with Some d => width t =? fst d | None => true end
  | Seq a b | If _ a b => puts ty a && puts ty b | While _ a => puts ty a | _ => true
  end.
Definition ok (ty : string -> option (Z * nat)) (s : state) : Prop := forall a d, ty a = Some d -> exists l, get (st_arrays s) a = Some l /\ holds d l.
Lemma replace_length : forall A (l : list A) n x, length (replace_at l n x) = length l.
Proof. intros A l. induction l as [|y l IH]; intros [|n] x; cbn; congruence. Qed.
Lemma replace_Forall : forall A (P : A -> Prop) l n x, Forall P l -> P x -> Forall P (replace_at l n x).
Proof. intros A P l n x H Hx. revert n. induction H as [|y l Hy F IH]; intros [|n]; cbn; constructor; auto. Qed.
Lemma v_exec_ok : forall ty c s, puts ty c = true -> ok ty s -> ok ty (fst (v_exec sg fuel c s)).
Proof.
  intros ty c. induction c as [|t y e|t b i e|c1 IH1 c2 IH2|e c1 IH1 c2 IH2|e c1 IH1|y b|e]; intros s P O; cbn [v_exec puts fst] in *; try exact O.
  - intros a d G. cbn [st_arrays]. destruct (O a d G) as (l & El & Hl & Hf). destruct (String.string_dec b a) as [->|N].
    + rewrite get_put_same. eexists. split; [reflexivity|]. unfold lookup_. rewrite El. rewrite G in P. apply Z.eqb_eq in P. split; [rewrite replace_length; exact Hl|]. apply replace_Forall; [exact Hf|]. rewrite <- P. apply stored_range.
    + rewrite get_put_other by exact N. exists l. split; [exact El|split; assumption].
  - apply andb_true_iff in P. destruct P as [P1 P2]. specialize (IH1 s P1 O). destruct (v_exec sg fuel c1 s) as [s1 [r|]]; [exact IH1|]. exact (IH2 s1 P2 IH1).
  - apply andb_true_iff in P. destruct P as [P1 P2]. destruct (negb _); [exact (IH1 s P1 O)|exact (IH2 s P2 O)].
  - revert s O. generalize fuel at 2. intro n. induction n as [|n IH]; intros s O; cbn [v_loop]; [exact O|]. destruct (value sg e s =? 0); [exact O|]. specialize (IH1 s P O). destruct (v_exec sg fuel c1 s) as [s1 [r|]]; [exact IH1|]. exact (IH s1 IH1).
Qed.
Lemma v_app : forall l1 l2 s s1, v_exec sg fuel (block l1) s = (s1, None) -> v_exec sg fuel (block (l1 ++ l2)) s = v_exec sg fuel (block l2) s1.
Proof.
  intro l1. induction l1 as [|c l1 IH]; intros l2 s s1 E; cbn [block fold_right app v_exec] in *; [injection E as <-; reflexivity|].
  destruct (v_exec sg fuel c s) as [s2 [r|]]; [discriminate|]. exact (IH l2 s2 s1 E).
Qed.
Lemma v_one : forall c s, v_exec sg fuel (block [c]) s = v_exec sg fuel c s.
Proof. intros c s. cbn [block fold_right v_exec]. destruct (v_exec sg fuel c s) as [s1 [r|]]; reflexivity. Qed.
End Frames.
