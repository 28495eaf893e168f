(** The programs of LeakCurve.v on five-limb numbers compute the functions of Curve.v: one operation at a time. *)
From Coq Require Import String ZArith List Bool Lia.
From Verif Require Import Base Keys Curve Leak LeakProofs LeakRuns LeakValue LeakSym LeakNice LeakCurve.
Import ListNotations.
Open Scope string_scope.
Open Scope list_scope.
Open Scope Z_scope.

(** ** Formulas for the operations *)
Definition ins (o n : nat) : list term := map TIn (List.seq o n).
Definition little : env (list term) :=
  [("a", ins 0 10); ("b", ins 10 10); ("o", ins 30 5); ("fmtmp", ins 40 5); ("fmt", ins 50 5); ("fst", ins 60 5); ("fdtmp", ins 70 5); ("fctmp", ins 80 5)].
Definition cells_of (o : s_outcome) (a : string) : list term := match o with Some (s, _) => match get (s_arrays s) a with Some l => l | None => [] end | None => [] end.
Definition run_little (c : stmt) : s_outcome := s_exec 101 c (mk_sstate [("byt", TIn 20)] little).
Definition t_mul : list term := Eval vm_compute in cells_of (run_little (fmul_ ("o", 0) ("a", 0) ("b", 0))) "o".
Definition t_sq : list term := Eval vm_compute in cells_of (run_little (fsquare_times ("o", 0) ("a", 0) 1)) "o".
Definition t_sq1 : list term := Eval vm_compute in firstn 5 (cells_of (run_little (fsquare_ ("fst", 0) ("a", 0))) "a").
Definition t_sum : list term := Eval vm_compute in firstn 5 (cells_of (run_little (fsum_ ("a", 0) ("b", 0))) "a").
Definition t_diff : list term := Eval vm_compute in firstn 5 (cells_of (run_little (fdifference_ ("a", 0) ("b", 0))) "a").
Definition t_scal : list term := Eval vm_compute in cells_of (run_little (block [u "scalar" (Lit 121665); fscalar_ ("o", 0) ("a", 0) "scalar"])) "o".
Definition t_copy : list term := Eval vm_compute in cells_of (run_little (copy U64 ("o", 0) ("a", 0) 5)) "o".
Definition swap_prog (a b : ptr) (bit byt : string) : list stmt := [u bit (Conv U64 (Bin I32 Shr (v byt) (Lit 7))); swap_points_ a b bit].
Definition swapped : s_outcome := run_little (block (swap_prog ("a", 0) ("b", 0) "bit0" "byt")).
Definition t_swap (k : nat) : list term := match k with
  | 0 => firstn 5 (cells_of swapped "a") | 1 => skipn 5 (cells_of swapped "a") | 2 => firstn 5 (cells_of swapped "b") | _ => skipn 5 (cells_of swapped "b") end%nat.
Definition t_carry1 : list term := Eval vm_compute in firstn 5 (cells_of (run_little (first_carry_full_ ("a", 0))) "a").
Definition t_carry2 : list term := Eval vm_compute in firstn 5 (cells_of (run_little (second_carry_full_ ("a", 0))) "a").
Definition t_trim : list term := Eval vm_compute in firstn 5 (cells_of (run_little (trim_ ("a", 0))) "a").

Definition limbs (x : fe) : list Z := [f0 x; f1 x; f2 x; f3 x; f4 x].
Definition fe5 (rho : nat -> Z) (k : nat) : fe := Fe (rho k) (rho (k + 1)%nat) (rho (k + 2)%nat) (rho (k + 3)%nat) (rho (k + 4)%nat).
(** Inputs are of 64 bits, input 20 of 8. *)
Definition win (n : nat) : Z := if Nat.eqb n 20 then 8 else 64.
Definition typed (rho : nat -> Z) : Prop := forall n, 0 <= win n -> 0 <= rho n < 2 ^ win n.

Ltac tmpl :=
  intros sg rho H; rewrite (map_ext_in _ (fun a => nden sg rho (simp win a))) by (intros a _; rewrite nden_simp; symmetry; apply nice_den; exact H); rewrite <- (map_map (simp win));
  match goal with |- map _ ?x = _ => let y := eval vm_compute in x in change x with y end;
  cbv [map nden v_exact v_fits stored limbs fsum fdifference fscalar fmul fsquare Curve.fsquare_times fsquare_wide carry_0_to_1 mul_shift_reduce sum_scalar shift_reduce copy_from_wide wide_carry_top carry_wide f0 f1 f2 f3 f4 fe5
       swap_points swap5 swap_step px pz fst snd first_carry_full second_carry_full modulo_carry_top carry_pass trim u64_gte_mask Nat.add u64 u128 MASK].
Lemma t_sum_ok : forall sg rho, typed rho -> map (den sg rho) t_sum = limbs (fsum (fe5 rho 0) (fe5 rho 10)).
Proof. tmpl. reflexivity. Qed.
Lemma t_diff_ok : forall sg rho, typed rho -> map (den sg rho) t_diff = limbs (fdifference (fe5 rho 0) (fe5 rho 10)).
Proof. tmpl. reflexivity. Qed.
Lemma t_scal_ok : forall sg rho, typed rho -> map (den sg rho) t_scal = limbs (fscalar (fe5 rho 0) 121665).
Proof. tmpl. reflexivity. Qed.
Lemma t_copy_ok : forall sg rho, typed rho -> map (den sg rho) t_copy = limbs (fe5 rho 0).
Proof. tmpl. reflexivity. Qed.
Lemma t_sq_ok : forall sg rho, typed rho -> map (den sg rho) t_sq = limbs (Curve.fsquare_times (fe5 rho 0) 0).
Proof. tmpl. reflexivity. Qed.
Lemma t_sq1_ok : forall sg rho, typed rho -> map (den sg rho) t_sq1 = limbs (fsquare (fe5 rho 0)).
Proof. tmpl. reflexivity. Qed.
Lemma t_mul_ok : forall sg rho, typed rho -> map (den sg rho) t_mul = limbs (fmul (fe5 rho 0) (fe5 rho 10)).
Proof. tmpl. reflexivity. Qed.
Definition swap_of (rho : nat -> Z) := swap_points (Pt (fe5 rho 0) (fe5 rho 5)) (Pt (fe5 rho 10) (fe5 rho 15)) (Z.shiftr (rho 20%nat) 7).
Lemma t_swap0_ok : forall sg rho, typed rho -> map (den sg rho) (t_swap 0) = limbs (px (fst (swap_of rho))).
Proof. unfold swap_of. tmpl. reflexivity. Qed.
Lemma t_swap1_ok : forall sg rho, typed rho -> map (den sg rho) (t_swap 1) = limbs (pz (fst (swap_of rho))).
Proof. unfold swap_of. tmpl. reflexivity. Qed.
Lemma t_swap2_ok : forall sg rho, typed rho -> map (den sg rho) (t_swap 2) = limbs (px (snd (swap_of rho))).
Proof. unfold swap_of. tmpl. reflexivity. Qed.
Lemma t_swap3_ok : forall sg rho, typed rho -> map (den sg rho) (t_swap 3) = limbs (pz (snd (swap_of rho))).
Proof. unfold swap_of. tmpl. reflexivity. Qed.
Lemma t_carry1_ok : forall sg rho, typed rho -> map (den sg rho) t_carry1 = limbs (first_carry_full (fe5 rho 0)).
Proof. tmpl. reflexivity. Qed.
Lemma t_carry2_ok : forall sg rho, typed rho -> map (den sg rho) t_carry2 = limbs (second_carry_full (fe5 rho 0)).
Proof. tmpl. reflexivity. Qed.
(** ~x is 2^64 - 1 - x. *)
Lemma cpl64 : forall x, 0 <= x < 2 ^ 64 -> Z.lxor x 18446744073709551615 = 2 ^ 64 - 1 - x.
Proof.
  intros x H. assert (E : Z.land x (Z.lxor x 18446744073709551615) = 0).
  { apply Z.bits_inj'. intros n Hn. rewrite Z.land_spec, Z.lxor_spec, Z.bits_0. destruct (Z.lt_ge_cases n 64) as [L|G].
    - change 18446744073709551615 with (Z.ones 64). rewrite Z.ones_spec_low by lia. destruct (Z.testbit x n); reflexivity.
    - rewrite (Z.bits_above_log2 x n); [reflexivity|lia|]. destruct (Z.eq_dec x 0) as [->|N]; [cbn; lia|]. apply Z.log2_lt_pow2; [lia|]. pose proof (Z.pow_le_mono_r 2 64 n ltac:(lia) G). lia. }
  assert (S : x + Z.lxor x 18446744073709551615 = 18446744073709551615).
  { rewrite Z.add_nocarry_lxor by exact E. rewrite <- Z.lxor_assoc, Z.lxor_nilpotent. apply Z.lxor_0_l. }
  change (2 ^ 64 - 1) with 18446744073709551615. lia.
Qed.
Lemma xor_range : forall x y, 0 <= x < 2 ^ 64 -> 0 <= y < 2 ^ 64 -> 0 <= Z.lxor x y < 2 ^ 64.
Proof. intros x y Hx Hy. pose proof (proj2 (lor_range x y 64 64 ltac:(lia) ltac:(lia) Hx Hy)) as H. rewrite Z.max_id in H. exact H. Qed.
Lemma t_trim_ok : forall sg rho, typed rho -> map (den sg rho) t_trim = limbs (trim (fe5 rho 0)).
Proof.
  tmpl. cbv [u64_eq_mask u64].
  assert (C : forall k, k <> 20%nat -> Z.lxor (Z.lxor (rho k) 2251799813685247) 18446744073709551615 = 2 ^ 64 - 1 - Z.lxor (rho k) 2251799813685247).
  { intros k N. apply cpl64. apply xor_range; [|split; [lia|reflexivity]]. specialize (H k). unfold win in H. destruct (Nat.eqb_spec k 20); [contradiction|]. apply H. lia. }
  rewrite !C by lia. reflexivity.
Qed.

(** ** The arrays as a list of twenty-seven numbers *)
Definition main : env (Z * nat) := [("pbuf", (64, 40%nat)); ("abuf", (64, 40%nat)); ("buf0", (64, 10%nat)); ("buf", (64, 15%nat)); ("zbuf", (64, 10%nat)); ("rbuf", (64, 20%nat))].
Definition scratch : env (Z * nat) := [("fmtmp", (64, 5%nat)); ("fmt", (128, 5%nat)); ("fst", (128, 5%nat)); ("fdtmp", (64, 5%nat)); ("fctmp", (128, 5%nat))].
Definition lay : env (Z * nat) := main ++ scratch.
Definition slots : nat := 27.
Definition good (s : state) : Prop := ok (get lay) s.
Definition cells_in (l : list (string * (Z * nat))) (s : state) : list Z := concat (map (fun d => lookup_ [] (st_arrays s) (fst d)) l).
Definition cells (s : state) : list Z := cells_in lay s.
Fixpoint fes (l : list Z) : list fe := match l with a :: b :: c :: d :: e :: r => Fe a b c d e :: fes r | _ => [] end.
Definition mem (s : state) : list fe := fes (cells_in main s).
(** Input 0 is a variable, the others the cells. *)
Definition rho (s : state) (b : Z) (n : nat) : Z := match n with O => b | S m => nth m (cells s) 0 end.
Fixpoint sym (l : list (string * (Z * nat))) (base : nat) : env (list term) := match l with [] => [] | (a, (_, n)) :: l' => (a, ins base n) :: sym l' (base + n) end.
Definition S0 (x : option string) : sstate := mk_sstate (match x with Some x => [(x, TIn 0)] | None => [] end) (sym lay 1).
Definition is_var (s : state) (x : option string) (b : Z) : Prop := match x with Some x => get (st_vars s) x = Some b | None => True end.
Definition sym_cells (S : sstate) : list term := concat (map (fun d => match get (s_arrays S) (fst d) with Some l => l | None => [] end) main).
Definition present (S : sstate) : bool := forallb (fun d => match get (s_arrays S) (fst d) with Some _ => true | None => false end) main.

Lemma nth_window : forall (pre x rest : list Z) i, (i < length x)%nat -> nth (length pre + i) (pre ++ x ++ rest) 0 = nth i x 0.
Proof. intros pre x rest i H. rewrite app_nth2_plus. apply app_nth1. exact H. Qed.
Lemma map_window : forall (f : nat -> Z) x k, (forall i, (i < length x)%nat -> f (k + i)%nat = nth i x 0) -> map f (List.seq k (length x)) = x.
Proof.
  intros f x. induction x as [|y x IH]; intros k H; [reflexivity|]. cbn [length List.seq map]. f_equal.
  - specialize (H 0%nat ltac:(cbn; lia)). rewrite Nat.add_0_r in H. exact H.
  - apply IH. intros i Hi. specialize (H (S i) ltac:(cbn; lia)). rewrite <- plus_n_Sm in H. exact H.
Qed.
Lemma sym_ok : forall sg s b l pre a ts, (forall d, In d l -> exists c, get (st_arrays s) (fst d) = Some c /\ holds (snd d) c) ->
  cells s = pre ++ cells_in l s -> get (sym l (S (length pre))) a = Some ts -> get (st_arrays s) a = Some (map (den sg (rho s b)) ts).
Proof.
  intros sg s b l. induction l as [|[x [t n]] l IH]; intros pre a ts H E G; cbn [sym get] in G; [discriminate|]. destruct (H (x, (t, n)) (or_introl eq_refl)) as (c & Ec & Hc & _). cbn [fst snd] in *.
  assert (EL : cells_in ((x, (t, n)) :: l) s = c ++ cells_in l s) by (unfold cells_in; cbn [map concat fst]; unfold lookup_ at 1; rewrite Ec; reflexivity). rewrite EL in E.
  destruct (String.eqb_spec a x) as [->|N].
  - injection G as <-. rewrite Ec. f_equal. unfold ins. rewrite map_map. rewrite <- Hc. symmetry. apply map_window. intros i Hi. cbn [den rho plus]. rewrite E. apply nth_window. exact Hi.
  - apply (IH (pre ++ c)) with (a := a); [intros d Hd; apply H; right; exact Hd|rewrite E, app_assoc; reflexivity|]. rewrite app_length, Hc. exact G.
Qed.
Lemma good_all : forall s, good s -> forall d, In d lay -> exists c, get (st_arrays s) (fst d) = Some c /\ holds (snd d) c.
Proof. intros s G d H. apply G. unfold lay in *. repeat (destruct H as [<-|H]; [reflexivity|]). destruct H. Qed.
Lemma sim0 : forall sg s b x, good s -> is_var s x b -> sim sg (rho s b) s (S0 x).
Proof.
  intros sg s b x G V. split; cbn [S0 s_arrays s_vars].
  - intros a l E. apply (sym_ok sg s b lay [] a l (good_all s G) eq_refl E).
  - intros y t E. destruct x as [x|]; [|discriminate]. cbn [get is_var] in *. destruct (String.eqb_spec y x) as [->|N]; [|discriminate]. injection E as <-. exact V.
Qed.
Lemma sim_cells : forall sg r s1 S1, sim sg r s1 S1 -> present S1 = true -> cells_in main s1 = map (den sg r) (sym_cells S1).
Proof.
  intros sg r s1 S1 M P. unfold cells_in, sym_cells, present in *. revert P. induction main as [|d l IH]; intro P; [reflexivity|]. cbn [forallb map concat] in *. apply andb_true_iff in P. destruct P as [P1 P2].
  rewrite map_app, <- (IH P2). f_equal. destruct (get (s_arrays S1) (fst d)) as [t|] eqn:E; [|discriminate]. unfold lookup_. rewrite (proj1 M _ _ E). reflexivity.
Qed.
Lemma cells_app : forall s l m, cells_in (l ++ m) s = cells_in l s ++ cells_in m s.
Proof. intros s l m. unfold cells_in. rewrite map_app, concat_app. reflexivity. Qed.
Lemma cells_holds : forall s l, (forall d, In d l -> exists c, get (st_arrays s) (fst d) = Some c /\ holds (snd d) c) -> Forall (fun d => fst (snd d) = 64) l ->
  length (cells_in l s) = fold_right (fun d n => snd (snd d) + n)%nat 0%nat l /\ Forall (fun c => 0 <= c < 2 ^ 64) (cells_in l s).
Proof.
  intros s l. induction l as [|d l IH]; intros H F; [split; [reflexivity|constructor]|]. destruct (IH (fun x Hx => H x (or_intror Hx)) (Forall_inv_tail F)) as [L1 F1]. destruct (H d (or_introl eq_refl)) as (c & Ec & Lc & Fc).
  unfold cells_in in *. cbn [map concat fold_right]. unfold lookup_ at 1 3. rewrite Ec. rewrite (Forall_inv F) in Fc. split; [rewrite app_length; lia|]. apply Forall_app. split; assumption.
Qed.
Lemma main_holds : forall s, good s -> length (cells_in main s) = 135%nat /\ Forall (fun c => 0 <= c < 2 ^ 64) (cells_in main s).
Proof.
  intros s G. apply (cells_holds s main); [|repeat constructor]. intros d H. apply good_all; [exact G|]. unfold lay. apply in_or_app. left. exact H.
Qed.
Lemma fes_nth : forall n l i, length l = (5 * n)%nat -> (i < n)%nat -> nth i (fes l) zero_fe = Fe (nth (5 * i) l 0) (nth (5 * i + 1) l 0) (nth (5 * i + 2) l 0) (nth (5 * i + 3) l 0) (nth (5 * i + 4) l 0).
Proof.
  intro n. induction n as [|n IH]; intros l i L Hi; [lia|]. destruct l as [|a [|b [|c [|d [|e l]]]]]; cbn [length] in L; try lia. cbn [fes]. destruct i as [|i]; [reflexivity|]. cbn [nth]. rewrite (IH l i ltac:(lia) ltac:(lia)).
  replace (5 * S i)%nat with (S (S (S (S (S (5 * i)))))) by lia. reflexivity.
Qed.
Lemma fes_length : forall n l, length l = (5 * n)%nat -> length (fes l) = n.
Proof. intro n. induction n as [|n IH]; intros l L; destruct l as [|a [|b [|c [|d [|e l]]]]]; cbn [length fes] in *; try lia. rewrite (IH l ltac:(lia)). reflexivity. Qed.
Lemma mem_length : forall s, good s -> length (mem s) = slots.
Proof. intros s G. apply fes_length. apply (main_holds s G). Qed.
(** Slot [i] through the inputs. *)
Lemma mem_nth : forall s b i, good s -> (i < slots)%nat -> nth i (mem s) zero_fe = fe5 (rho s b) (1 + 5 * i).
Proof.
  intros s b i G Hi. unfold mem. rewrite (fes_nth slots) by (exact (proj1 (main_holds s G)) || exact Hi). unfold fe5. cbn [rho plus].
  assert (N : forall k, (k < 135)%nat -> nth k (cells s) 0 = nth k (cells_in main s) 0).
  { intros k Hk. unfold cells, lay. rewrite cells_app. apply app_nth1. rewrite (proj1 (main_holds s G)). exact Hk. }
  unfold slots in Hi. rewrite !N by lia. reflexivity.
Qed.
Lemma rho_range : forall s b k, good s -> (k < 135)%nat -> 0 <= rho s b (S k) < 2 ^ 64.
Proof.
  intros s b k G Hk. cbn [rho]. unfold cells, lay. rewrite cells_app. destruct (main_holds s G) as [L F]. rewrite app_nth1 by lia. rewrite Forall_forall in F. apply F. apply nth_In. lia.
Qed.

(** ** Operations *)
Inductive op :=
| OMul (o a b : nat) | OSq (o a : nat) | OSq1 (o : nat) | OSum (a b : nat) | ODiff (a b : nat) | OScal (o a : nat) | OCopy (o a : nat) | OZero (i n : nat) | OOne (i : nat)
| OSwap (a b : nat) (bit byt : string)   (* the pairs of slots a, a + 1 and b, b + 1 *)
| OCarry1 (a : nat) | OCarry2 (a : nat) | OTrim (a : nat).
Definition where_ (i : nat) : ptr :=
  if (i <? 8)%nat then ("pbuf", 5 * Z.of_nat i) else if (i <? 16)%nat then ("abuf", 5 * (Z.of_nat i - 8)) else if (i <? 18)%nat then ("buf0", 5 * (Z.of_nat i - 16))
  else if (i <? 21)%nat then ("buf", 5 * (Z.of_nat i - 18)) else if (i <? 23)%nat then ("zbuf", 5 * (Z.of_nat i - 21)) else ("rbuf", 5 * (Z.of_nat i - 23)).
Definition op_prog (o : op) : stmt :=
  match o with
  | OMul o a b => fmul_ (where_ o) (where_ a) (where_ b)
  | OSq o a => fsquare_times (where_ o) (where_ a) 1
  | OSq1 o => fsquare_ ("fst", 0) (where_ o)
  | OSum a b => fsum_ (where_ a) (where_ b)
  | ODiff a b => fdifference_ (where_ a) (where_ b)
  | OScal o a => block [u "scalar" (Lit 121665); fscalar_ (where_ o) (where_ a) "scalar"]
  | OCopy o a => copy U64 (where_ o) (where_ a) 5
  | OZero i n => zero U64 (where_ i) (5 * n)
  | OOne i => LeakCurve.st U64 (where_ i) 0 (Lit 1)
  | OSwap a b bit byt => block (swap_prog (where_ a) (where_ b) bit byt)
  | OCarry1 a => first_carry_full_ (where_ a)
  | OCarry2 a => second_carry_full_ (where_ a)
  | OTrim a => trim_ (where_ a)
  end.
Definition op_var (o : op) : option string := match o with OSwap _ _ _ byt => Some byt | _ => None end.
(** What is written: slot, formulas, number. *)
Definition sel (l : list nat) (n : nat) : term :=
  if Nat.eqb n 20 then TIn 0 else match nth_error l (n / 5) with Some i => TIn (1 + 5 * i + n mod 5) | None => TC 0 end.
Definition with_ (l : list nat) (t : list term) : list term := map (subst (sel l)) t.
Definition m_ (m : list fe) (i : nat) : fe := nth i m zero_fe.
Definition op_eff (o : op) : list (nat * (list term * (Z -> list fe -> fe))) :=
  match o with
  | OMul o a b => [(o, (with_ [a; a; b; b] t_mul, fun _ m => fmul (m_ m a) (m_ m b)))]
  | OSq o a => [(o, (with_ [a; a; a; a] t_sq, fun _ m => Curve.fsquare_times (m_ m a) 0))]
  | OSq1 a => [(a, (with_ [a; a; a; a] t_sq1, fun _ m => fsquare (m_ m a)))]
  | OSum a b => [(a, (with_ [a; a; b; b] t_sum, fun _ m => fsum (m_ m a) (m_ m b)))]
  | ODiff a b => [(a, (with_ [a; a; b; b] t_diff, fun _ m => fdifference (m_ m a) (m_ m b)))]
  | OScal o a => [(o, (with_ [a; a; a; a] t_scal, fun _ m => fscalar (m_ m a) 121665))]
  | OCopy o a => [(o, (with_ [a; a; a; a] t_copy, fun _ m => m_ m a))]
  | OZero i n => map (fun k => (k, (repeat (TStored U64 (TC 0)) 5, fun _ _ => zero_fe))) (List.seq i n)
  | OOne i => [(i, (TStored U64 (TC 1) :: ins (2 + 5 * i) 4, fun _ m => let x := m_ m i in Fe 1 (f1 x) (f2 x) (f3 x) (f4 x)))]
  | OSwap a b _ _ =>
      let sw := fun byt m => swap_points (Pt (m_ m a) (m_ m (S a))) (Pt (m_ m b) (m_ m (S b))) (Z.shiftr byt 7) in
      let w_ := with_ [a; S a; b; S b] in
      [(a, (w_ (t_swap 0), fun byt m => px (fst (sw byt m)))); (S a, (w_ (t_swap 1), fun byt m => pz (fst (sw byt m))));
       (b, (w_ (t_swap 2), fun byt m => px (snd (sw byt m)))); (S b, (w_ (t_swap 3), fun byt m => pz (snd (sw byt m))))]
  | OCarry1 a => [(a, (with_ [a; a; a; a] t_carry1, fun _ m => first_carry_full (m_ m a)))]
  | OCarry2 a => [(a, (with_ [a; a; a; a] t_carry2, fun _ m => second_carry_full (m_ m a)))]
  | OTrim a => [(a, (with_ [a; a; a; a] t_trim, fun _ m => trim (m_ m a)))]
  end.
Fixpoint assoc {A} (l : list (nat * A)) (i : nat) : option A := match l with [] => None | (j, x) :: l' => if Nat.eqb i j then Some x else assoc l' i end.
Definition op_sem (b : Z) (o : op) (m : list fe) : list fe := map (fun i => match assoc (op_eff o) i with Some (_, f) => f b m | None => m_ m i end) (List.seq 0 slots).
Definition expected (o : op) : list (list term) := map (fun i => match assoc (op_eff o) i with Some (ts, _) => ts | None => ins (1 + 5 * i) 5 end) (List.seq 0 slots).
Definition in_slots (o : op) : bool :=
  forallb (fun i => Nat.ltb i slots) (match o with OMul o a b => [o; a; b] | OSq a b | OSum a b | ODiff a b | OScal a b | OCopy a b => [a; b] | OSwap a b _ _ => [S a; S b] | OZero i n => [i] | OSq1 a | OOne a | OCarry1 a | OCarry2 a | OTrim a => [a] end).
Definition check (o : op) : bool :=
  in_slots o && puts (get lay) (op_prog o) &&
  match s_exec 101 (op_prog o) (S0 (op_var o)) with
  | Some (S1, None) => present S1 && terms_eqb (sym_cells S1) (concat (expected o))
  | _ => false
  end.

(** The formulas are the numbers. *)
Lemma sel_fe5 : forall sg s b l k i, good s -> nth_error l k = Some i -> (i < slots)%nat -> (k < 4)%nat -> fe5 (fun n => den sg (rho s b) (sel l n)) (5 * k) = m_ (mem s) i.
Proof.
  intros sg s b l k i G E Hi Hk. unfold m_. rewrite (mem_nth s b i G Hi). unfold fe5.
  assert (P : forall j, (j < 5)%nat -> den sg (rho s b) (sel l (5 * k + j)) = rho s b (1 + 5 * i + j)).
  { intros j Hj. unfold sel. replace (Nat.eqb (5 * k + j) 20) with false by (symmetry; apply Nat.eqb_neq; lia).
    replace ((5 * k + j) / 5)%nat with k by (symmetry; rewrite Nat.mul_comm; rewrite Nat.div_add_l by lia; rewrite Nat.div_small by exact Hj; lia). rewrite E. cbn [den]. f_equal.
    replace ((5 * k + j) mod 5)%nat with j by (symmetry; rewrite Nat.add_comm, Nat.mul_comm, Nat.mod_add by lia; apply Nat.mod_small; exact Hj). reflexivity. }
  rewrite <- (Nat.add_0_r (5 * k)) at 1. rewrite !P by lia. rewrite Nat.add_0_r. reflexivity.
Qed.
Lemma sel_typed : forall sg s b l, good s -> 0 <= b < 256 -> Forall (fun i => (i < slots)%nat) l -> typed (fun n => den sg (rho s b) (sel l n)).
Proof.
  intros sg s b l G Hb F n _. unfold win, sel. destruct (Nat.eqb n 20); [exact Hb|]. destruct (nth_error l (n / 5)) as [i|] eqn:E; [|cbn; lia].
  apply nth_error_In in E. rewrite Forall_forall in F. specialize (F i E). unfold slots in F. cbn [den]. pose proof (Nat.mod_upper_bound n 5 ltac:(lia)). apply (rho_range s b (5 * i + n mod 5) G). lia.
Qed.
Lemma with_den : forall sg s b l t x, (forall r, typed r -> map (den sg r) t = limbs (x r)) -> good s -> 0 <= b < 256 -> Forall (fun i => (i < slots)%nat) l ->
  map (den sg (rho s b)) (with_ l t) = limbs (x (fun n => den sg (rho s b) (sel l n))).
Proof.
  intros sg s b l t x H G Hb F. unfold with_. rewrite map_map. rewrite (map_ext _ (den sg (fun n => den sg (rho s b) (sel l n)))) by (intro a; apply den_subst). apply H. apply sel_typed; assumption.
Qed.
Lemma limbs_fe5 : forall r k, limbs (fe5 r k) = map r (List.seq k 5).
Proof. intros r k. unfold limbs, fe5. cbn [f0 f1 f2 f3 f4 List.seq map]. rewrite !Nat.add_succ_r, Nat.add_0_r. reflexivity. Qed.
Ltac fall := repeat (apply Forall_cons; [assumption || lia|]); apply Forall_nil.
Definition eff_right (sg : bool) (s : state) (b : Z) (e : nat * (list term * (Z -> list fe -> fe))) : Prop := map (den sg (rho s b)) (fst (snd e)) = limbs (snd (snd e) b (mem s)).
Lemma eff_ok : forall sg s b o, good s -> 0 <= b < 256 -> in_slots o = true -> Forall (eff_right sg s b) (op_eff o).
Proof.
  intros sg s b o G Hb H.
  assert (L : forall x, (x <? slots)%nat = true -> (x < slots)%nat) by (intros x Hx; apply Nat.ltb_lt; exact Hx).
  destruct o as [o a c|o a|a|a c|a c|o a|o a|k n|a|a c bit byt|a|a|a]; cbn [in_slots forallb] in *; rewrite ?andb_true_r in H; repeat (apply andb_true_iff in H; destruct H as [? H]);
    repeat match goal with X : (_ <? slots)%nat = true |- _ => apply L in X end; cbn [op_eff].
  all: try (apply Forall_cons; [|apply Forall_nil]; unfold eff_right; cbn [fst snd]).
  - rewrite (with_den sg s b _ _ _ (t_mul_ok sg) G Hb) by fall. rewrite (sel_fe5 sg s b _ 0 a), (sel_fe5 sg s b _ 2 c) by (assumption || reflexivity || lia). reflexivity.
  - rewrite (with_den sg s b _ _ _ (t_sq_ok sg) G Hb) by fall. rewrite (sel_fe5 sg s b _ 0 a) by (assumption || reflexivity || lia). reflexivity.
  - rewrite (with_den sg s b _ _ _ (t_sq1_ok sg) G Hb) by fall. rewrite (sel_fe5 sg s b _ 0 a) by (assumption || reflexivity || lia). reflexivity.
  - rewrite (with_den sg s b _ _ _ (t_sum_ok sg) G Hb) by fall. rewrite (sel_fe5 sg s b _ 0 a), (sel_fe5 sg s b _ 2 c) by (assumption || reflexivity || lia). reflexivity.
  - rewrite (with_den sg s b _ _ _ (t_diff_ok sg) G Hb) by fall. rewrite (sel_fe5 sg s b _ 0 a), (sel_fe5 sg s b _ 2 c) by (assumption || reflexivity || lia). reflexivity.
  - rewrite (with_den sg s b _ _ _ (t_scal_ok sg) G Hb) by fall. rewrite (sel_fe5 sg s b _ 0 a) by (assumption || reflexivity || lia). reflexivity.
  - rewrite (with_den sg s b _ _ _ (t_copy_ok sg) G Hb) by fall. rewrite (sel_fe5 sg s b _ 0 a) by (assumption || reflexivity || lia). reflexivity.
  - apply Forall_forall. intros e I. apply in_map_iff in I. destruct I as (j & <- & _). reflexivity.
  - unfold m_. rewrite (mem_nth s b a G) by assumption. cbn [map den]. change (stored U64 1) with 1. unfold ins. rewrite map_map. unfold limbs, fe5. cbn [f0 f1 f2 f3 f4 List.seq map den].
    rewrite !(Nat.add_comm (1 + 5 * a)). reflexivity.
  - assert (SW : swap_of (fun n => den sg (rho s b) (sel [a; S a; c; S c] n)) = swap_points (Pt (m_ (mem s) a) (m_ (mem s) (S a))) (Pt (m_ (mem s) c) (m_ (mem s) (S c))) (Z.shiftr b 7)).
    { unfold swap_of. rewrite (sel_fe5 sg s b _ 0 a), (sel_fe5 sg s b _ 1 (S a)), (sel_fe5 sg s b _ 2 c), (sel_fe5 sg s b _ 3 (S c)) by (assumption || reflexivity || lia). reflexivity. }
    assert (F : Forall (fun i => (i < slots)%nat) [a; S a; c; S c]) by fall.
    apply Forall_cons; [|apply Forall_cons; [|apply Forall_cons; [|apply Forall_cons; [|apply Forall_nil]]]]; unfold eff_right; cbv beta; cbn [fst snd]; rewrite <- SW.
    + exact (with_den sg s b _ _ (fun r => px (fst (swap_of r))) (t_swap0_ok sg) G Hb F).
    + exact (with_den sg s b _ _ (fun r => pz (fst (swap_of r))) (t_swap1_ok sg) G Hb F).
    + exact (with_den sg s b _ _ (fun r => px (snd (swap_of r))) (t_swap2_ok sg) G Hb F).
    + exact (with_den sg s b _ _ (fun r => pz (snd (swap_of r))) (t_swap3_ok sg) G Hb F).
  - rewrite (with_den sg s b _ _ _ (t_carry1_ok sg) G Hb) by fall. rewrite (sel_fe5 sg s b _ 0 a) by (assumption || reflexivity || lia). reflexivity.
  - rewrite (with_den sg s b _ _ _ (t_carry2_ok sg) G Hb) by fall. rewrite (sel_fe5 sg s b _ 0 a) by (assumption || reflexivity || lia). reflexivity.
  - rewrite (with_den sg s b _ _ _ (t_trim_ok sg) G Hb) by fall. rewrite (sel_fe5 sg s b _ 0 a) by (assumption || reflexivity || lia). reflexivity.
Qed.

(** ** One operation run *)
Lemma assoc_in : forall A (l : list (nat * A)) i x, assoc l i = Some x -> In (i, x) l.
Proof. intros A l i x. induction l as [|[j y] l IH]; cbn [assoc]; [discriminate|]. destruct (Nat.eqb_spec i j) as [->|N]; [intro E; injection E as ->; left; reflexivity|]. intro E. right. exact (IH E). Qed.
Lemma fes_limbs : forall l, fes (concat (map limbs l)) = l.
Proof. intro l. induction l as [|[a b c d e] l IH]; [reflexivity|]. cbn [map concat limbs app fes f0 f1 f2 f3 f4]. rewrite IH. reflexivity. Qed.
Theorem op_sound : forall sg o s b, check o = true -> good s -> is_var s (op_var o) b -> 0 <= b < 256 ->
  exists s1, v_exec sg 101 (op_prog o) s = (s1, None) /\ good s1 /\ mem s1 = op_sem b o (mem s).
Proof.
  intros sg o s b C G V Hb. unfold check in C. apply andb_true_iff in C. destruct C as [C C3]. apply andb_true_iff in C. destruct C as [C1 C2].
  destruct (s_exec 101 (op_prog o) (S0 (op_var o))) as [[S1 [r|]]|] eqn:E; try discriminate. apply andb_true_iff in C3. destruct C3 as [C3 C4]. apply terms_eqb_sound in C4.
  destruct (s_exec_sim sg 101 (rho s b) _ _ _ _ _ (sim0 sg s b (op_var o) G V) E) as (s1 & R & M). exists s1. split; [exact R|]. split.
  - pose proof (v_exec_ok sg 101 (get lay) (op_prog o) s C2 G) as O. rewrite R in O. exact O.
  - unfold mem at 1. rewrite (sim_cells sg _ _ _ M C3), C4. rewrite <- (fes_limbs (op_sem b o (mem s))). f_equal. unfold expected, op_sem. rewrite concat_map, !map_map. f_equal. apply map_ext_in. intros i Hi. apply in_seq in Hi.
    pose proof (eff_ok sg s b o G Hb C1) as F. rewrite Forall_forall in F. destruct (assoc (op_eff o) i) as [[ts f]|] eqn:A.
    + apply assoc_in in A. exact (F _ A).
    + unfold m_. rewrite (mem_nth s b i G ltac:(lia)), limbs_fe5. unfold ins. rewrite map_map. reflexivity.
Qed.
