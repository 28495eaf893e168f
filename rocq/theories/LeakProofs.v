(** Running a program of Leak.v on intervals: if that works out, every run on values in those intervals is defined, ends, and shows the same
    to an observer. *)
From Coq Require Import String ZArith List Bool Lia.
From Verif Require Import Base Leak.
Import ListNotations.
Open Scope Z_scope.

Definition itv : Type := Z * Z.
Definition inside (v : Z) (i : itv) : Prop := fst i <= v <= snd i.
Definition single (i : itv) : option Z := if fst i =? snd i then Some (fst i) else None.
Lemma single_inside : forall i z v, single i = Some z -> inside v i -> v = z.
Proof. intros [l h] z v. unfold single, inside. cbn [fst snd]. destruct (Z.eqb_spec l h); [|discriminate]. intros E H. injection E as <-. lia. Qed.

Definition kbits (z : Z) : Z := Z.log2_up (Z.max (z + 1) (- z)).
Definition hull (i j : itv) : Z := Z.max (Z.max (kbits (fst i)) (kbits (snd i))) (Z.max (kbits (fst j)) (kbits (snd j))).

Section Intervals.
Variable sg : bool.
Variable fuel : nat.

Definition a_stored (t : ctype) (i : itv) : itv :=
  let hi := match t with I32 | U32 => 2 ^ 32 - 1 | U8 | CHAR => 255 | U64 => 2 ^ 64 - 1 | U128 => 2 ^ 128 - 1 end in
  if (0 <=? fst i) && (snd i <=? hi) then i else (0, hi).
Definition a_exact (t : ctype) (op : binop) (i j : itv) : option itv :=
  match op with
  | Add => Some (fst i + fst j, snd i + snd j)
  | Sub => Some (fst i - snd j, snd i - fst j)
  | Mul => if (0 <=? fst i) && (0 <=? fst j) then Some (fst i * fst j, snd i * snd j) else None
  | And => if 0 <=? fst i then (if 0 <=? fst j then Some (0, Z.min (snd i) (snd j)) else Some (0, snd i))
           else if 0 <=? fst j then Some (0, snd j) else Some (- 2 ^ hull i j, 2 ^ hull i j - 1)
  | Or | Xor => if (0 <=? fst i) && (0 <=? fst j) then Some (0, 2 ^ hull i j - 1) else Some (- 2 ^ hull i j, 2 ^ hull i j - 1)
  | Shl => match single j with
           | Some n => if (0 <=? n) && (n <? width t) then Some (Z.shiftl (fst i) n, Z.shiftl (snd i) n) else None
           | None => None
           end
  | Shr => match single j with
           | Some n => if (0 <=? n) && (n <? width t) then Some (Z.shiftr (fst i) n, Z.shiftr (snd i) n) else None
           | None => None
           end
  | Lt => Some (0, 1)
  | Ne => if (snd i <? fst j) || (snd j <? fst i) then Some (1, 1) else Some (0, 1)
  | Quot => None
  end.
Definition a_fits (t : ctype) (i : itv) : option itv :=
  match t with
  | I32 | CHAR => if (lowest sg t <=? fst i) && (snd i <=? highest sg t) then Some i else None
  | _ => Some (a_stored t i)
  end.
Definition a_loaded (t : ctype) (i : itv) : option itv :=
  match t with
  | CHAR => if (0 <=? fst i) && (snd i <=? 255) then (if snd i <=? 127 then Some i else Some (lowest sg t, highest sg t)) else None
  | I32 => None
  | _ => Some i
  end.
Definition a_compute (t : ctype) (op : binop) (i j : itv) : option itv :=
  match single i, single j with
  | Some a, Some b => match compute sg t op a b with Some v => Some (v, v) | None => None end
  | _, _ =>
      match a_fits t i, a_fits t j with
      | Some a, Some b => match a_exact t op a b with Some r => a_fits t r | None => None end
      | _, _ => None
      end
  end.

Lemma fits_id : forall t z, lowest sg t <= z <= highest sg t -> fits sg t z = Some z.
Proof.
  intros t z H. assert (B : (lowest sg t <=? z) && (z <=? highest sg t) = true) by (apply andb_true_iff; split; apply Z.leb_le; lia).
  destruct t; cbn [fits]; rewrite ?B; try reflexivity; f_equal; cbn [stored lowest highest] in *; unfold u32, u8, u64; apply Z.mod_small; change (2 ^ 8) with 256; lia.
Qed.
Lemma a_stored_sound : forall t i v, inside v i -> inside (stored t v) (a_stored t i).
Proof.
  intros t i v H. unfold a_stored. cbv zeta. destruct (andb _ _) eqn:E.
  - apply andb_true_iff in E. destruct E as [E1 E2]. apply Z.leb_le in E1, E2. unfold inside in *.
    assert (S : stored t v = v); [|rewrite S; exact H]. destruct t; cbn [stored]; unfold u32, u8, u64; apply Z.mod_small; change (2 ^ 8) with 256 in *; lia.
  - unfold inside. cbn [fst snd]. destruct t; cbn [stored]; unfold u32, u8, u64.
    + pose proof (Z.mod_pos_bound v (2 ^ 32) eq_refl). lia.
    + pose proof (Z.mod_pos_bound v (2 ^ 32) eq_refl). lia.
    + pose proof (Z.mod_pos_bound v (2 ^ 8) eq_refl). change (2 ^ 8) with 256 in *. lia.
    + pose proof (Z.mod_pos_bound v (2 ^ 8) eq_refl). change (2 ^ 8) with 256 in *. lia.
    + pose proof (Z.mod_pos_bound v (2 ^ 64) eq_refl). lia.
    + pose proof (Z.mod_pos_bound v (2 ^ 128) eq_refl). lia.
Qed.

Lemma kbits_fits : forall z k, kbits z <= k -> - 2 ^ k <= z < 2 ^ k.
Proof.
  intros z k H. unfold kbits in H. assert (P : 0 < Z.max (z + 1) (- z)) by lia. pose proof (Z.log2_up_nonneg (Z.max (z + 1) (- z))) as N.
  destruct (Z.le_gt_cases (Z.max (z + 1) (- z)) 1) as [L|G].
  - pose proof (Z.pow_pos_nonneg 2 k ltac:(lia) ltac:(lia)). lia.
  - pose proof (Z.log2_up_spec _ G) as [_ S]. pose proof (Z.pow_le_mono_r 2 _ _ ltac:(lia) H). lia.
Qed.
Lemma fits_shift : forall z k, 0 <= k -> - 2 ^ k <= z < 2 ^ k <-> Z.shiftr z k = 0 \/ Z.shiftr z k = -1.
Proof.
  intros z k K. pose proof (Z.pow_pos_nonneg 2 k ltac:(lia) K) as P. rewrite Z.shiftr_div_pow2 by exact K. pose proof (Z.div_mod z (2 ^ k) ltac:(lia)) as D. pose proof (Z.mod_pos_bound z (2 ^ k) P) as M. split.
  - intro H. assert (-1 <= z / 2 ^ k < 1); [|lia]. split; [apply Z.div_le_lower_bound; lia|apply Z.div_lt_upper_bound; lia].
  - intros [E|E]; rewrite E in D; lia.
Qed.
Lemma in_hull : forall i j x y, inside x i -> inside y j -> 0 <= hull i j /\ - 2 ^ hull i j <= x < 2 ^ hull i j /\ - 2 ^ hull i j <= y < 2 ^ hull i j.
Proof.
  intros i j x y Hx Hy. unfold inside in *. assert (B : forall z, kbits z <= hull i j -> - 2 ^ hull i j <= z < 2 ^ hull i j) by (intros; apply kbits_fits; assumption).
  assert (B1 := B (fst i) ltac:(unfold hull; lia)). assert (B2 := B (snd i) ltac:(unfold hull; lia)). assert (B3 := B (fst j) ltac:(unfold hull; lia)). assert (B4 := B (snd j) ltac:(unfold hull; lia)).
  split; [|split; lia]. pose proof (Z.log2_up_nonneg (Z.max (fst i + 1) (- fst i))). unfold hull, kbits. lia.
Qed.
Lemma bitwise_hull : forall i j x y, inside x i -> inside y j ->
  - 2 ^ hull i j <= Z.land x y <= 2 ^ hull i j - 1 /\ - 2 ^ hull i j <= Z.lor x y <= 2 ^ hull i j - 1 /\ - 2 ^ hull i j <= Z.lxor x y <= 2 ^ hull i j - 1.
Proof.
  intros i j x y Hx Hy. destruct (in_hull i j x y Hx Hy) as (K & Bx & By). apply fits_shift in Bx; [|exact K]. apply fits_shift in By; [|exact K].
  assert (G : forall z, Z.shiftr z (hull i j) = 0 \/ Z.shiftr z (hull i j) = -1 -> - 2 ^ hull i j <= z <= 2 ^ hull i j - 1).
  { intros z Hz. apply fits_shift in Hz; [lia|exact K]. }
  split; [|split]; apply G; rewrite ?Z.shiftr_land, ?Z.shiftr_lor, ?Z.shiftr_lxor; destruct Bx as [-> | ->], By as [-> | ->]; cbn; auto.
Qed.
Lemma land_le_l : forall x y, 0 <= x -> 0 <= Z.land x y <= x.
Proof.
  intros x y H. split; [apply Z.land_nonneg; left; exact H|]. replace x with (Z.land x y + Z.ldiff x y) at 2.
  - assert (0 <= Z.ldiff x y) by (apply Z.ldiff_nonneg; left; exact H). lia.
  - rewrite Z.add_nocarry_lxor.
    + apply Z.bits_inj'. intros n Hn. rewrite Z.lxor_spec, Z.land_spec, Z.ldiff_spec. destruct (Z.testbit x n), (Z.testbit y n); reflexivity.
    + apply Z.bits_inj'. intros n Hn. rewrite Z.land_spec, Z.land_spec, Z.ldiff_spec, Z.bits_0. destruct (Z.testbit x n), (Z.testbit y n); reflexivity.
Qed.

Lemma a_exact_sound : forall t op i j r x y, a_exact t op i j = Some r -> inside x i -> inside y j -> exists v, exact t op x y = Some v /\ inside v r.
Proof.
  intros t op i j r x y E Hx Hy. pose proof (bitwise_hull i j x y Hx Hy) as (B1 & B2 & B3). destruct op; cbn [a_exact exact] in *; unfold inside in *.
  - injection E as <-. eexists. split; [reflexivity|]. cbn [fst snd]. lia.
  - injection E as <-. eexists. split; [reflexivity|]. cbn [fst snd]. lia.
  - destruct (andb _ _) eqn:Z0; [|discriminate]. apply andb_true_iff in Z0. destruct Z0 as [E1 E2]. apply Z.leb_le in E1, E2. injection E as <-. eexists. split; [reflexivity|]. cbn [fst snd]. nia.
  - eexists. split; [reflexivity|]. destruct (0 <=? fst i) eqn:E1; [apply Z.leb_le in E1|apply Z.leb_gt in E1]; (destruct (0 <=? fst j) eqn:E2; [apply Z.leb_le in E2|apply Z.leb_gt in E2]); injection E as <-; cbn [fst snd].
    + pose proof (land_le_l x y ltac:(lia)). pose proof (land_le_l y x ltac:(lia)). rewrite (Z.land_comm y x) in *. lia.
    + pose proof (land_le_l x y ltac:(lia)). lia.
    + pose proof (land_le_l y x ltac:(lia)). rewrite (Z.land_comm y x) in *. lia.
    + lia.
  - eexists. split; [reflexivity|]. destruct (andb _ _) eqn:Z0; injection E as <-; cbn [fst snd]; [|lia]. apply andb_true_iff in Z0. destruct Z0 as [E1 E2]. apply Z.leb_le in E1, E2.
    split; [|lia]. apply Z.lor_nonneg. lia.
  - eexists. split; [reflexivity|]. destruct (andb _ _) eqn:Z0; injection E as <-; cbn [fst snd]; [|lia]. apply andb_true_iff in Z0. destruct Z0 as [E1 E2]. apply Z.leb_le in E1, E2.
    split; [|lia]. apply Z.lxor_nonneg. lia.
  - destruct (single j) as [n|] eqn:Es; [|discriminate]. pose proof (single_inside _ _ _ Es Hy) as ->. destruct (andb _ _) eqn:Z0; [|discriminate]. injection E as <-. eexists. split; [reflexivity|].
    apply andb_true_iff in Z0. destruct Z0 as [E1 _]. apply Z.leb_le in E1. cbn [fst snd]. rewrite !Z.shiftl_mul_pow2 by exact E1. pose proof (Z.pow_pos_nonneg 2 n ltac:(lia) E1). nia.
  - destruct (single j) as [n|] eqn:Es; [|discriminate]. pose proof (single_inside _ _ _ Es Hy) as ->. destruct (andb _ _) eqn:Z0; [|discriminate]. injection E as <-. eexists. split; [reflexivity|].
    apply andb_true_iff in Z0. destruct Z0 as [E1 _]. apply Z.leb_le in E1. cbn [fst snd]. rewrite !Z.shiftr_div_pow2 by exact E1. pose proof (Z.pow_pos_nonneg 2 n ltac:(lia) E1).
    split; apply Z.div_le_mono; lia.
  - injection E as <-. eexists. split; [reflexivity|]. cbn [fst snd]. destruct (x <? y); cbn [b2z]; lia.
  - eexists. split; [reflexivity|]. destruct (orb _ _) eqn:Z0; injection E as <-; cbn [fst snd].
    + apply orb_true_iff in Z0. destruct (Z.eqb_spec x y) as [->|N]; cbn [negb b2z]; [|lia]. destruct Z0 as [Z0|Z0]; apply Z.ltb_lt in Z0; lia.
    + destruct (x =? y); cbn [negb b2z]; lia.
  - discriminate.
Qed.
Lemma a_fits_sound : forall t i r v, a_fits t i = Some r -> inside v i -> exists w, fits sg t v = Some w /\ inside w r.
Proof.
  intros t i r v E H. destruct t; cbn [a_fits fits] in *;
    try (injection E as <-; eexists; split; [reflexivity|]; match goal with |- inside (stored ?t _) _ => exact (a_stored_sound t i v H) end).
  - destruct (andb _ _) eqn:Z0; [|discriminate]. injection E as <-. apply andb_true_iff in Z0. destruct Z0 as [E1 E2]. apply Z.leb_le in E1, E2. unfold inside in *.
    replace (andb _ _) with true; [eexists; split; [reflexivity|exact H]|]. symmetry. apply andb_true_iff. split; apply Z.leb_le; lia.
  - destruct (andb _ _) eqn:Z0; [|discriminate]. injection E as <-. apply andb_true_iff in Z0. destruct Z0 as [E1 E2]. apply Z.leb_le in E1, E2. unfold inside in *.
    replace (andb _ _) with true; [eexists; split; [reflexivity|exact H]|]. symmetry. apply andb_true_iff. split; apply Z.leb_le; lia.
Qed.
Lemma a_compute_sound : forall t op i j r x y, a_compute t op i j = Some r -> inside x i -> inside y j -> exists v, compute sg t op x y = Some v /\ inside v r.
Proof.
  intros t op i j r x y E Hx Hy. unfold a_compute in E.
  assert (G : match a_fits t i, a_fits t j with Some a, Some b => match a_exact t op a b with Some r => a_fits t r | None => None end | _, _ => None end = Some r ->
              exists v, compute sg t op x y = Some v /\ inside v r).
  { intro E1. destruct (a_fits t i) as [a|] eqn:Ea; [|discriminate]. destruct (a_fits t j) as [b|] eqn:Eb; [|discriminate]. destruct (a_exact _ _ _ _) as [q|] eqn:Eq; [|discriminate].
    destruct (a_fits_sound _ _ _ _ Ea Hx) as (x1 & Ex & Hx1). destruct (a_fits_sound _ _ _ _ Eb Hy) as (y1 & Ey & Hy1). destruct (a_exact_sound _ _ _ _ _ _ _ Eq Hx1 Hy1) as (v & Ev & Hv).
    unfold compute, operand. rewrite Ex, Ey, Ev. exact (a_fits_sound _ _ _ _ E1 Hv). }
  destruct (single i) as [a|] eqn:Ei; [|exact (G E)]. destruct (single j) as [b|] eqn:Ej; [|exact (G E)].
  rewrite (single_inside _ _ _ Ei Hx), (single_inside _ _ _ Ej Hy). destruct (compute sg t op a b) as [v|]; [|discriminate]. injection E as <-. exists v. split; [reflexivity|]. unfold inside. cbn [fst snd]. lia.
Qed.
Lemma a_loaded_sound : forall t i r v, a_loaded t i = Some r -> inside v i -> inside (loaded sg t v) r.
Proof.
  intros t i r v E H. destruct t; cbn [a_loaded loaded] in *; try (injection E as <-; exact H); [discriminate|].
  destruct (andb _ _) eqn:Z0; [|discriminate]. apply andb_true_iff in Z0. destruct Z0 as [E1 E2]. apply Z.leb_le in E1, E2. unfold char_val, inside in *.
  destruct (snd i <=? 127) eqn:E3; injection E as <-; cbn [fst snd]; [apply Z.leb_le in E3|apply Z.leb_gt in E3]; cbn [lowest highest]; destruct sg; cbn [andb]; try lia.
  - destruct (128 <=? v) eqn:E4; [apply Z.leb_le in E4|]; lia.
  - destruct (128 <=? v) eqn:E4; [apply Z.leb_le in E4|apply Z.leb_gt in E4]; lia.
Qed.

(** ** Programs *)
Record astate := mk_astate { a_vars : env itv; a_arrays : env (list itv) }.
Fixpoint a_eval (e : expr) (s : astate) : option (itv * trace) :=
  match e with
  | Lit z => Some ((z, z), [])
  | Var x => match get (a_vars s) x with Some v => Some (v, []) | None => None end
  | At t a i =>
      match a_eval i s, get (a_arrays s) a with
      | Some (j, l), Some c =>
          match single j with
          | Some n => if (0 <=? n) && (n <? Z.of_nat (length c)) then match a_loaded t (nth (Z.to_nat n) c (0, 0)) with Some v => Some (v, l ++ [SawIndex a n]) | None => None end else None
          | None => None
          end
      | _, _ => None
      end
  | Bin t op e1 e2 =>
      match a_eval e1 s, a_eval e2 s with
      | Some (v1, l1), Some (v2, l2) => match a_compute t op v1 v2 with Some v => Some (v, l1 ++ l2) | None => None end
      | _, _ => None
      end
  | Conv t e1 => match a_eval e1 s with Some (v, l) => match a_fits t v with Some w => Some (w, l) | None => None end | None => None end
  end.
Fixpoint a_strlen (c : list itv) : option Z :=
  match c with
  | [] => None
  | i :: c' => match single i with
               | Some 0 => Some 0
               | _ => if (0 <? fst i) || (snd i <? 0) then match a_strlen c' with Some n => Some (n + 1) | None => None end else None
               end
  end.
(** Is the condition decided? *)
Definition truth (i : itv) : option bool :=
  match single i with
  | Some v => Some (negb (v =? 0))
  | None => if (0 <? fst i) || (snd i <? 0) then Some true else None
  end.
Definition a_outcome : Type := option (astate * option itv * trace).
Fixpoint a_loop (cond : astate -> option (itv * trace)) (body : astate -> a_outcome) (n : nat) (s : astate) : a_outcome :=
  match n with
  | O => None
  | S n' =>
      match cond s with
      | None => None
      | Some (v, l) =>
          match truth v with
          | None => None
          | Some false => Some (s, None, l ++ [SawBranch false])
          | Some true =>
              match body s with
              | None => None
              | Some (s1, Some r, l1) => Some (s1, Some r, l ++ [SawBranch true] ++ l1)
              | Some (s1, None, l1) =>
                  match a_loop cond body n' s1 with
                  | None => None
                  | Some (s2, r, l2) => Some (s2, r, l ++ [SawBranch true] ++ l1 ++ l2)
                  end
              end
          end
      end
  end.
Fixpoint a_exec (c : stmt) (s : astate) {struct c} : a_outcome :=
  match c with
  | Skip => Some (s, None, [])
  | Set_ t x e => match a_eval e s with Some (v, l) => match a_fits t v with Some w => Some (mk_astate (put (a_vars s) x w) (a_arrays s), None, l) | None => None end | None => None end
  | Put t a i e =>
      match a_eval i s, a_eval e s, get (a_arrays s) a with
      | Some (j, l1), Some (v, l2), Some cells =>
          match single j with
          | Some n =>
              if (0 <=? n) && (n <? Z.of_nat (length cells))
              then Some (mk_astate (a_vars s) (put (a_arrays s) a (replace_at cells (Z.to_nat n) (a_stored t v))), None, l1 ++ l2 ++ [SawIndex a n])
              else None
          | None => None
          end
      | _, _, _ => None
      end
  | Seq c1 c2 =>
      match a_exec c1 s with
      | None => None
      | Some (s1, Some r, l1) => Some (s1, Some r, l1)
      | Some (s1, None, l1) => match a_exec c2 s1 with None => None | Some (s2, r, l2) => Some (s2, r, l1 ++ l2) end
      end
  | If e c1 c2 =>
      match a_eval e s with
      | None => None
      | Some (v, l) =>
          match truth v with
          | None => None
          | Some b => match a_exec (if b then c1 else c2) s with None => None | Some (s1, r, l1) => Some (s1, r, l ++ [SawBranch b] ++ l1) end
          end
      end
  | While e c1 => a_loop (a_eval e) (a_exec c1) fuel s
  | Strlen x a =>
      match get (a_arrays s) a with
      | None => None
      | Some cells =>
          match a_strlen cells with
          | None => None
          | Some n => Some (mk_astate (put (a_vars s) x (n, n)) (a_arrays s), None, [SawLength a n])
          end
      end
  | Return e => match a_eval e s with Some (v, l) => Some (s, Some v, l) | None => None end
  end.

(** ** Soundness *)
Definition agree {A B} (P : A -> B -> Prop) (m : env A) (am : env B) : Prop := Forall2 (fun p q => fst p = fst q /\ P (snd p) (snd q)) m am.
Definition within (s : state) (a : astate) : Prop := agree inside (st_vars s) (a_vars a) /\ agree (Forall2 inside) (st_arrays s) (a_arrays a).
Lemma agree_get : forall A B (P : A -> B -> Prop) m am x b, agree P m am -> get am x = Some b -> exists a, get m x = Some a /\ P a b.
Proof.
  intros A B P m am x b H. induction H as [|[y v] [z w] m am [E Hp] F IH]; cbn [get]; [discriminate|]. cbn [fst snd] in *. subst z. destruct (String.eqb x y); [|exact IH].
  intro E. injection E as <-. exists v. split; [reflexivity|exact Hp].
Qed.
Lemma agree_put : forall A B (P : A -> B -> Prop) m am x a b, agree P m am -> P a b -> agree P (put m x a) (put am x b).
Proof.
  intros A B P m am x a b H Hp. induction H as [|[y v] [z w] m am [E Hv] F IH]; cbn [put].
  - constructor; [split; [reflexivity|exact Hp]|constructor].
  - cbn [fst snd] in *. subst z. destruct (String.eqb x y); constructor; try assumption; split; cbn [fst snd]; auto.
Qed.
Lemma F2_replace : forall A B (P : A -> B -> Prop) l al n a b, Forall2 P l al -> P a b -> Forall2 P (replace_at l n a) (replace_at al n b).
Proof.
  intros A B P l al n a b H Hp. revert n. induction H as [|x y l al Hxy F IH]; intros [|n]; cbn [replace_at]; constructor; auto.
Qed.
Lemma F2_nth : forall A B (P : A -> B -> Prop) l al n a b, Forall2 P l al -> (n < length al)%nat -> P (nth n l a) (nth n al b).
Proof.
  intros A B P l al n a b H. revert n. induction H as [|x y l al Hxy F IH]; intros [|n] L; cbn [nth length] in *; try lia; [exact Hxy|]. apply IH. lia.
Qed.
Lemma F2_len : forall A B (P : A -> B -> Prop) l al, Forall2 P l al -> length l = length al.
Proof. intros A B P l al H. induction H; cbn; congruence. Qed.

Lemma a_eval_sound : forall e s a i l, within s a -> a_eval e a = Some (i, l) -> exists v, eval sg e s = Some (v, l) /\ inside v i.
Proof.
  intro e. induction e as [z|x|t b e IH|t op e1 IH1 e2 IH2|t e IH]; intros s a i l W E; cbn [a_eval eval] in *.
  - injection E as <- <-. exists z. split; [reflexivity|]. unfold inside. cbn [fst snd]. lia.
  - destruct (get (a_vars a) x) as [v|] eqn:Eg; [|discriminate]. injection E as <- <-. destruct (agree_get _ _ _ _ _ _ _ (proj1 W) Eg) as (w & Ew & Hw). rewrite Ew. exists w. split; [reflexivity|exact Hw].
  - destruct (a_eval e a) as [[j l1]|] eqn:Ee; [|discriminate]. destruct (IH s a j l1 W Ee) as (n & En & Hn). rewrite En.
    destruct (get (a_arrays a) b) as [c|] eqn:Eg; [|discriminate]. destruct (agree_get _ _ _ _ _ _ _ (proj2 W) Eg) as (w & Ew & Hw). rewrite Ew.
    destruct (single j) as [m|] eqn:Es; [|discriminate]. rewrite (single_inside _ _ _ Es Hn). pose proof (F2_len _ _ _ _ _ Hw) as EL. rewrite EL.
    destruct (andb _ _) eqn:Z0; [|discriminate]. destruct (a_loaded t _) as [q|] eqn:Eq; [|discriminate]. injection E as <- <-. eexists. split; [reflexivity|]. eapply a_loaded_sound; [exact Eq|]. apply F2_nth; [exact Hw|].
    apply andb_true_iff in Z0. destruct Z0 as [E1 E2]. apply Z.leb_le in E1. apply Z.ltb_lt in E2. lia.
  - destruct (a_eval e1 a) as [[i1 l1]|] eqn:E1; [|discriminate]. destruct (a_eval e2 a) as [[i2 l2]|] eqn:E2; [|discriminate].
    destruct (IH1 s a _ _ W E1) as (v1 & Ev1 & H1). destruct (IH2 s a _ _ W E2) as (v2 & Ev2 & H2). rewrite Ev1, Ev2.
    destruct (a_compute t op i1 i2) as [r|] eqn:Ec; [|discriminate]. injection E as <- <-. destruct (a_compute_sound _ _ _ _ _ _ _ Ec H1 H2) as (v & Ev & Hv). rewrite Ev. exists v. split; [reflexivity|exact Hv].
  - destruct (a_eval e a) as [[j l1]|] eqn:Ee; [|discriminate]. destruct (a_fits t j) as [q|] eqn:Eq; [|discriminate]. injection E as <- <-. destruct (IH s a _ _ W Ee) as (v & Ev & Hv). rewrite Ev. destruct (a_fits_sound _ _ _ _ Eq Hv) as (w & Ew & Hw). rewrite Ew. exists w. split; [reflexivity|exact Hw].
Qed.
Lemma truth_sound : forall i b v, truth i = Some b -> inside v i -> negb (v =? 0) = b.
Proof.
  intros i b v E H. unfold truth in E. destruct (single i) as [z|] eqn:Es.
  - rewrite (single_inside _ _ _ Es H). congruence.
  - destruct (orb _ _) eqn:Z0; [|discriminate]. injection E as <-. apply orb_true_iff in Z0. unfold inside in H. destruct (Z.eqb_spec v 0); [|reflexivity]. destruct Z0 as [Z0|Z0]; apply Z.ltb_lt in Z0; lia.
Qed.
Lemma a_strlen_sound : forall c ac n, Forall2 inside c ac -> a_strlen ac = Some n -> strlen_of c = Some n.
Proof.
  intros c ac n H. revert n. induction H as [|x i c ac Hx F IH]; intros n E; cbn [a_strlen strlen_of] in *; [discriminate|].
  assert (G : (if (0 <? fst i) || (snd i <? 0) then match a_strlen ac with Some n => Some (n + 1) | None => None end else None) = Some n ->
              (if x =? 0 then Some 0 else match strlen_of c with Some n0 => Some (n0 + 1) | None => None end) = Some n).
  { destruct (orb _ _) eqn:Z0; [|discriminate]. intro E1. destruct (a_strlen ac) as [m|] eqn:Em; [|discriminate]. rewrite (IH m eq_refl).
    destruct (Z.eqb_spec x 0) as [->|N]; [|exact E1]. unfold inside in Hx. apply orb_true_iff in Z0. destruct Z0 as [Z0|Z0]; apply Z.ltb_lt in Z0; lia. }
  destruct (single i) as [z|] eqn:Es; [|exact (G E)]. destruct z as [|q|q]; [|exact (G E)|exact (G E)]. rewrite (single_inside _ _ _ Es Hx). exact E.
Qed.
Definition fine (o : outcome) (a : astate) (r : option itv) (l : trace) : Prop :=
  exists s v, o = Some (s, v, l) /\ within s a /\ match v, r with Some x, Some i => inside x i | None, None => True | _, _ => False end.
Lemma loop_sound : forall cond body acond abody,
  (forall s a i l, within s a -> acond a = Some (i, l) -> exists v, cond s = Some (v, l) /\ inside v i) ->
  (forall s a a1 r l, within s a -> abody a = Some (a1, r, l) -> fine (body s) a1 r l) ->
  forall n s a a1 r l, within s a -> a_loop acond abody n a = Some (a1, r, l) -> fine (loop cond body n s) a1 r l.
Proof.
  intros cond body acond abody Hc Hb n. induction n as [|n IH]; intros s a a1 r l W E; cbn [a_loop loop] in *; [discriminate|].
  destruct (acond a) as [[i l1]|] eqn:Ec; [|discriminate]. destruct (Hc s a i l1 W Ec) as (v & Ev & Hv). rewrite Ev. destruct (truth i) as [b|] eqn:Et; [|discriminate].
  pose proof (truth_sound _ _ _ Et Hv) as Hb1. destruct b.
  - destruct (v =? 0); [discriminate|]. destruct (abody a) as [[[a2 r2] l2]|] eqn:Eb; [|discriminate]. destruct (Hb s a a2 r2 l2 W Eb) as (s2 & v2 & Es & W2 & Hr). rewrite Es.
    destruct r2 as [j|], v2 as [x|]; try contradiction.
    + injection E as <- <- <-. exists s2, (Some x). split; [reflexivity|]. split; assumption.
    + destruct (a_loop acond abody n a2) as [[[a3 r3] l3]|] eqn:El; [|discriminate]. injection E as <- <- <-. destruct (IH s2 a2 a3 r3 l3 W2 El) as (s3 & v3 & Es3 & W3 & Hr3). rewrite Es3.
      exists s3, v3. split; [reflexivity|]. split; assumption.
  - destruct (v =? 0); [|discriminate]. injection E as <- <- <-. exists s, None. split; [reflexivity|]. split; [exact W|exact I].
Qed.
Theorem a_exec_sound : forall c s a a1 r l, within s a -> a_exec c a = Some (a1, r, l) -> fine (exec sg fuel c s) a1 r l.
Proof.
  intro c. induction c as [|t x e|t b i e|c1 IH1 c2 IH2|e c1 IH1 c2 IH2|e c1 IH1|x b|e]; intros s a a1 r l W E; cbn [a_exec exec] in *.
  - injection E as <- <- <-. exists s, None. split; [reflexivity|]. split; [exact W|exact I].
  - destruct (a_eval e a) as [[i l1]|] eqn:Ee; [|discriminate]. destruct (a_fits t i) as [q|] eqn:Eq; [|discriminate]. injection E as <- <- <-. destruct (a_eval_sound _ _ _ _ _ W Ee) as (v & Ev & Hv). rewrite Ev.
    destruct (a_fits_sound _ _ _ _ Eq Hv) as (w & Ew & Hw). rewrite Ew. eexists; exists None. split; [reflexivity|].
    split; [|exact I]. split; cbn [st_vars st_arrays a_vars a_arrays]; [|exact (proj2 W)]. apply agree_put; [exact (proj1 W)|exact Hw].
  - destruct (a_eval i a) as [[j l1]|] eqn:Ei; [|discriminate]. destruct (a_eval e a) as [[v l2]|] eqn:Ee; [|discriminate]. destruct (get (a_arrays a) b) as [cells|] eqn:Eg; [|discriminate].
    destruct (a_eval_sound _ _ _ _ _ W Ei) as (n & En & Hn). destruct (a_eval_sound _ _ _ _ _ W Ee) as (w & Ew & Hw). destruct (agree_get _ _ _ _ _ _ _ (proj2 W) Eg) as (cs & Ecs & Hcs). rewrite En, Ew, Ecs.
    destruct (single j) as [m|] eqn:Es; [|discriminate]. rewrite (single_inside _ _ _ Es Hn). rewrite (F2_len _ _ _ _ _ Hcs). destruct (andb _ _) eqn:Z0; [|discriminate]. injection E as <- <- <-.
    eexists; exists None. split; [reflexivity|]. split; [|exact I]. split; cbn [st_vars st_arrays a_vars a_arrays]; [exact (proj1 W)|]. apply agree_put; [exact (proj2 W)|]. apply F2_replace; [exact Hcs|apply a_stored_sound; exact Hw].
  - destruct (a_exec c1 a) as [[[a2 r2] l2]|] eqn:E1; [|discriminate]. destruct (IH1 s a a2 r2 l2 W E1) as (s2 & v2 & Es & W2 & Hr). rewrite Es. destruct r2 as [j|], v2 as [x|]; try contradiction.
    + injection E as <- <- <-. exists s2, (Some x). split; [reflexivity|]. split; assumption.
    + destruct (a_exec c2 a2) as [[[a3 r3] l3]|] eqn:E2; [|discriminate]. injection E as <- <- <-. destruct (IH2 s2 a2 a3 r3 l3 W2 E2) as (s3 & v3 & Es3 & W3 & Hr3). rewrite Es3. exists s3, v3. split; [reflexivity|]. split; assumption.
  - destruct (a_eval e a) as [[i l1]|] eqn:Ee; [|discriminate]. destruct (a_eval_sound _ _ _ _ _ W Ee) as (v & Ev & Hv). rewrite Ev. destruct (truth i) as [b|] eqn:Et; [|discriminate].
    rewrite (truth_sound _ _ _ Et Hv). destruct (a_exec (if b then c1 else c2) a) as [[[a2 r2] l2]|] eqn:E1; [|discriminate]. injection E as <- <- <-.
    assert (F : fine (exec sg fuel (if b then c1 else c2) s) a2 r2 l2) by (destruct b; [exact (IH1 s a a2 r2 l2 W E1)|exact (IH2 s a a2 r2 l2 W E1)]).
    destruct F as (s2 & v2 & Es & W2 & Hr). cbv zeta. rewrite Es. exists s2, v2. split; [reflexivity|]. split; assumption.
  - eapply loop_sound; [| |exact W|exact E].
    + intros. eapply a_eval_sound; eassumption.
    + intros. eapply IH1; eassumption.
  - destruct (get (a_arrays a) b) as [cells|] eqn:Eg; [|discriminate]. destruct (agree_get _ _ _ _ _ _ _ (proj2 W) Eg) as (cs & Ecs & Hcs). rewrite Ecs. destruct (a_strlen cells) as [n|] eqn:En; [|discriminate].
    rewrite (a_strlen_sound _ _ _ Hcs En). injection E as <- <- <-. eexists; exists None. split; [reflexivity|]. split; [|exact I]. split; cbn [st_vars st_arrays a_vars a_arrays]; [|exact (proj2 W)].
    apply agree_put; [exact (proj1 W)|]. unfold inside. cbn [fst snd]. lia.
  - destruct (a_eval e a) as [[i l1]|] eqn:Ee; [|discriminate]. injection E as <- <- <-. destruct (a_eval_sound _ _ _ _ _ W Ee) as (v & Ev & Hv). rewrite Ev. exists s, (Some v). split; [reflexivity|]. split; [exact W|exact Hv].
Qed.
End Intervals.
