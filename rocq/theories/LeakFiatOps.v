(** The programs of LeakFiat.v on ten-limb numbers compute the functions of Fiat.v: one operation at a time. *)
From Coq Require Import String ZArith List Bool Lia.
From Verif Require Import Base Leak LeakProofs LeakRuns LeakValue LeakSym LeakNice LeakCurve LeakFiat Fiat.
Import ListNotations.
Open Scope string_scope.
Open Scope list_scope.
Open Scope Z_scope.

(** ** Formulas for the operations *)
Definition ins (o n : nat) : list term := map TIn (List.seq o n).
Definition pt (x : string) : ptr := (x, 0).
Definition little : env (list term) := [("a", ins 0 10); ("b", ins 10 10); ("o", ins 30 10)].
Definition cells_of (o : s_outcome) (a : string) : list term := match o with Some (s, _) => match get (s_arrays s) a with Some l => l | None => [] end | None => [] end.
Definition run_little (c : stmt) : s_outcome := s_exec 300 c (mk_sstate [("swap", TIn 20)] little).
Definition t_mul : list term := Eval vm_compute in cells_of (run_little (fe_mul_ (pt "o") (pt "a") (pt "b"))) "o".
Definition t_sqr : list term := Eval vm_compute in cells_of (run_little (fe_sqr_ (pt "o") (pt "a"))) "o".
Definition t_scal : list term := Eval vm_compute in cells_of (run_little (fe_mul121666_ (pt "o") (pt "a"))) "o".
Definition t_add : list term := Eval vm_compute in cells_of (run_little (fe_add_ (pt "o") (pt "a") (pt "b"))) "o".
Definition t_sub : list term := Eval vm_compute in cells_of (run_little (fe_sub_ (pt "o") (pt "a") (pt "b"))) "o".
Definition t_copy : list term := Eval vm_compute in cells_of (run_little (fe_copy_ (pt "o") (pt "a"))) "o".
Definition t_swap0 : list term := Eval vm_compute in cells_of (run_little (fe_cswap_ (pt "a") (pt "b") "swap")) "a".
Definition t_swap1 : list term := Eval vm_compute in cells_of (run_little (fe_cswap_ (pt "a") (pt "b") "swap")) "b".
Definition t_freeze : list term := Eval vm_compute in cells_of (run_little (fe_freeze_ (pt "o") (pt "a"))) "o".

Definition limbs (x : fx) : list Z := [g0 x; g1 x; g2 x; g3 x; g4 x; g5 x; g6 x; g7 x; g8 x; g9 x].
Definition fx10 (rho : nat -> Z) (k : nat) : fx :=
  Fx (rho k) (rho (k + 1)%nat) (rho (k + 2)%nat) (rho (k + 3)%nat) (rho (k + 4)%nat) (rho (k + 5)%nat) (rho (k + 6)%nat) (rho (k + 7)%nat) (rho (k + 8)%nat) (rho (k + 9)%nat).
(** Inputs are of 32 bits. *)
Definition win (n : nat) : Z := 32.
Definition typed (rho : nat -> Z) : Prop := forall n, 0 <= win n -> 0 <= rho n < 2 ^ win n.

Ltac tmpl :=
  intros sg rho H; rewrite (map_ext_in _ (fun a => nden sg rho (simp win a))) by (intros a _; rewrite nden_simp; symmetry; apply nice_den; exact H); rewrite <- (map_map (simp win));
  match goal with |- map _ ?x = _ => let y := eval vm_compute in x in change x with y end;
  cbv [map nden v_exact v_fits stored limbs fe_add fe_sub fe_mul_impl fe_sqr_impl fe_mul121666 fold_and_carry fe_cswap cswap_limb fe_freeze addcarryx_u25 addcarryx_u26 subborrow_u25 subborrow_u26
       g0 g1 g2 g3 g4 g5 g6 g7 g8 g9 fx10 fst snd Nat.add u8 u32 u64].
Lemma t_add_ok : forall sg rho, typed rho -> map (den sg rho) t_add = limbs (fe_add (fx10 rho 0) (fx10 rho 10)).
Proof. tmpl. reflexivity. Qed.
Lemma t_sub_ok : forall sg rho, typed rho -> map (den sg rho) t_sub = limbs (fe_sub (fx10 rho 0) (fx10 rho 10)).
Proof. tmpl. reflexivity. Qed.
Lemma t_copy_ok : forall sg rho, typed rho -> map (den sg rho) t_copy = limbs (fx10 rho 0).
Proof. tmpl. reflexivity. Qed.
Lemma t_swap0_ok : forall sg rho, typed rho -> map (den sg rho) t_swap0 = limbs (fst (fe_cswap (fx10 rho 0) (fx10 rho 10) (rho 20%nat))).
Proof. tmpl. reflexivity. Qed.
Lemma t_swap1_ok : forall sg rho, typed rho -> map (den sg rho) t_swap1 = limbs (snd (fe_cswap (fx10 rho 0) (fx10 rho 10) (rho 20%nat))).
Proof. tmpl. reflexivity. Qed.
Lemma t_sqr_ok : forall sg rho, typed rho -> map (den sg rho) t_sqr = limbs (fe_sqr_impl (fx10 rho 0)).
Proof. tmpl. reflexivity. Qed.
Lemma t_mul_ok : forall sg rho, typed rho -> map (den sg rho) t_mul = limbs (fe_mul_impl (fx10 rho 0) (fx10 rho 10)).
Proof. tmpl. reflexivity. Qed.
Lemma t_scal_ok : forall sg rho, typed rho -> map (den sg rho) t_scal = limbs (fe_mul121666 (fx10 rho 0)).
Proof. tmpl. reflexivity. Qed.
Lemma cpl32 : forall x, Z.lxor (x mod 2 ^ 32) 4294967295 = 2 ^ 32 - 1 - x mod 2 ^ 32.
Proof.
  intro x. pose proof (Z.mod_pos_bound x (2 ^ 32) ltac:(lia)) as H. generalize dependent (x mod 2 ^ 32). clear x. intros x H. assert (E : Z.land x (Z.lxor x 4294967295) = 0).
  { apply Z.bits_inj'. intros n Hn. rewrite Z.land_spec, Z.lxor_spec, Z.bits_0. destruct (Z.lt_ge_cases n 32) as [L|G].
    - change 4294967295 with (Z.ones 32). rewrite Z.ones_spec_low by lia. destruct (Z.testbit x n); reflexivity.
    - rewrite (Z.bits_above_log2 x n); [reflexivity|lia|]. destruct (Z.eq_dec x 0) as [->|N]; [cbn; lia|]. apply Z.log2_lt_pow2; [lia|]. pose proof (Z.pow_le_mono_r 2 32 n ltac:(lia) G). lia. }
  assert (S : x + Z.lxor x 4294967295 = 4294967295).
  { rewrite Z.add_nocarry_lxor by exact E. rewrite <- Z.lxor_assoc, Z.lxor_nilpotent. apply Z.lxor_0_l. }
  change (2 ^ 32 - 1) with 4294967295. lia.
Qed.
Lemma sh31 : forall x, Z.shiftr (x mod 2 ^ 32) 31 mod 2 ^ 8 = Z.shiftr (x mod 2 ^ 32) 31.
Proof. intro x. pose proof (Z.mod_pos_bound x (2 ^ 32) ltac:(lia)) as H. apply Z.mod_small. pose proof (shr_range _ 32 31 ltac:(lia) H). lia. Qed.
Lemma ne_mask : forall x, (0 - b2z (negb (x =? 0)) mod 2 ^ 32) mod 2 ^ 32 = - (if x =? 0 then 0 else 1) mod 2 ^ 32.
Proof. intro x. destruct (x =? 0); reflexivity. Qed.
(** fe_freeze with its parts replaced by equal ones that read as the formulas do. *)
Definition freeze_with (sb26 sb25 : Z -> Z -> Z -> Z * Z) (cm : Z -> Z -> Z -> Z) (in1 : fx) : fx :=
  let x17 := g9 in1 in let x18 := g8 in1 in let x16 := g7 in1 in let x14 := g6 in1 in let x12 := g5 in1 in
  let x10 := g4 in1 in let x8 := g3 in1 in let x6 := g2 in1 in let x4 := g1 in1 in let x2 := g0 in1 in
  let (x20, x21) := sb26 0 x2 0x3ffffed in
  let (x23, x24) := sb25 x21 x4 0x1ffffff in
  let (x26, x27) := sb26 x24 x6 0x3ffffff in
  let (x29, x30) := sb25 x27 x8 0x1ffffff in
  let (x32, x33) := sb26 x30 x10 0x3ffffff in
  let (x35, x36) := sb25 x33 x12 0x1ffffff in
  let (x38, x39) := sb26 x36 x14 0x3ffffff in
  let (x41, x42) := sb25 x39 x16 0x1ffffff in
  let (x44, x45) := sb26 x42 x18 0x3ffffff in
  let (x47, x48) := sb25 x45 x17 0x1ffffff in
  let x49 := cm x48 0 0xffffffff in
  let x50 := Z.land x49 0x3ffffed in
  let (x52, x53) := addcarryx_u26 0 x20 x50 in
  let x54 := Z.land x49 0x1ffffff in
  let (x56, x57) := addcarryx_u25 x53 x23 x54 in
  let x58 := Z.land x49 0x3ffffff in
  let (x60, x61) := addcarryx_u26 x57 x26 x58 in
  let x62 := Z.land x49 0x1ffffff in
  let (x64, x65) := addcarryx_u25 x61 x29 x62 in
  let x66 := Z.land x49 0x3ffffff in
  let (x68, x69) := addcarryx_u26 x65 x32 x66 in
  let x70 := Z.land x49 0x1ffffff in
  let (x72, x73) := addcarryx_u25 x69 x35 x70 in
  let x74 := Z.land x49 0x3ffffff in
  let (x76, x77) := addcarryx_u26 x73 x38 x74 in
  let x78 := Z.land x49 0x1ffffff in
  let (x80, x81) := addcarryx_u25 x77 x41 x78 in
  let x82 := Z.land x49 0x3ffffff in
  let (x84, x85) := addcarryx_u26 x81 x44 x82 in
  let x86 := Z.land x49 0x1ffffff in
  let (x88, _) := addcarryx_u25 x85 x47 x86 in
  Fx x52 x56 x60 x64 x68 x72 x76 x80 x84 x88.
Definition sb25' (c a b : Z) : Z * Z := let x := u32 (u32 (a - b) - c) in (Z.land x (Z.shiftl 1 25 - 1), Z.shiftr x 31).
Definition sb26' (c a b : Z) : Z * Z := let x := u32 (u32 (a - b) - c) in (Z.land x (Z.shiftl 1 26 - 1), Z.shiftr x 31).
Definition cm' (t z nz : Z) : Z := let t := (0 - b2z (negb (t =? 0)) mod 2 ^ 32) mod 2 ^ 32 in Z.lor (Z.land t nz) (Z.land (Z.lxor t 4294967295) z).
Lemma freeze_same : forall x, fe_freeze x = freeze_with sb26' sb25' cm' x.
Proof.
  intro x. change (fe_freeze x) with (freeze_with subborrow_u26 subborrow_u25 cmovznz32 x).
  assert (A : forall c a b, subborrow_u26 c a b = sb26' c a b) by (intros c a b; unfold subborrow_u26, sb26', u32, u8; cbv zeta; rewrite sh31; reflexivity).
  assert (B : forall c a b, subborrow_u25 c a b = sb25' c a b) by (intros c a b; unfold subborrow_u25, sb25', u32, u8; cbv zeta; rewrite sh31; reflexivity).
  assert (C : forall t z nz, cmovznz32 t z nz = cm' t z nz) by (intros t z nz; unfold cmovznz32, cm', u32; cbv zeta; rewrite cpl32, ne_mask; reflexivity).
  revert A B C. generalize subborrow_u26, subborrow_u25, cmovznz32, sb26', sb25', cm'. intros p1 p2 p3 q1 q2 q3 A B C. unfold freeze_with. cbv zeta.
  repeat first [rewrite A; match goal with |- context [q1 ?c ?a ?b] => destruct (q1 c a b) as [? ?] end | rewrite B; match goal with |- context [q2 ?c ?a ?b] => destruct (q2 c a b) as [? ?] end].
  rewrite ?C. reflexivity.
Qed.
Lemma t_freeze_ok : forall sg rho, typed rho -> map (den sg rho) t_freeze = limbs (fe_freeze (fx10 rho 0)).
Proof. intros sg rho H. rewrite freeze_same. revert sg rho H. tmpl. cbv [freeze_with sb25' sb26' cm' addcarryx_u25 addcarryx_u26 g0 g1 g2 g3 g4 g5 g6 g7 g8 g9 u32]. reflexivity. Qed.

(** ** The arrays as a list of eighteen numbers *)
Definition slot_names : list string := ["x1"; "x2"; "z2"; "x3"; "z3"; "x2l"; "z2l"; "x3l"; "tmp0"; "tmp1"; "tmp0l"; "tmp1l"; "t0"; "t1"; "t2"; "t3"; "l"; "h"].
Definition lay : env (Z * nat) := map (fun x => (x, (32, 10%nat))) slot_names.
Definition slots : nat := 18.
Definition good (s : state) : Prop := ok (get lay) s.
Definition cells_in (l : list (string * (Z * nat))) (s : state) : list Z := concat (map (fun d => lookup_ [] (st_arrays s) (fst d)) l).
Definition cells (s : state) : list Z := cells_in lay s.
Fixpoint fes (l : list Z) : list fx := match l with a :: b :: c :: d :: e :: f :: g :: h :: i :: j :: r => Fx a b c d e f g h i j :: fes r | _ => [] end.
Definition mem (s : state) : list fx := fes (cells s).
(** Input 0 is a variable, the others the cells. *)
Definition rho (s : state) (b : Z) (n : nat) : Z := match n with O => b | S m => nth m (cells s) 0 end.
Fixpoint sym (l : list (string * (Z * nat))) (base : nat) : env (list term) := match l with [] => [] | (a, (_, n)) :: l' => (a, ins base n) :: sym l' (base + n) end.
Definition S0 (x : option string) : sstate := mk_sstate (match x with Some x => [(x, TIn 0)] | None => [] end) (sym lay 1).
Definition is_var (s : state) (x : option string) (b : Z) : Prop := match x with Some x => get (st_vars s) x = Some b | None => True end.
Definition sym_cells (S : sstate) : list term := concat (map (fun d => match get (s_arrays S) (fst d) with Some l => l | None => [] end) lay).
Definition present (S : sstate) : bool := forallb (fun d => match get (s_arrays S) (fst d) with Some _ => true | None => false end) lay.

Lemma nth_window : forall (pre x rest : list Z) i, (i < length x)%nat -> nth (length pre + i) (pre ++ x ++ rest) 0 = nth i x 0.
Proof. intros pre x rest i H. rewrite app_nth2_plus. apply app_nth1. exact H. Qed.
Lemma map_window : forall (f : nat -> Z) x k, (forall i, (i < length x)%nat -> f (k + i)%nat = nth i x 0) -> map f (List.seq k (length x)) = x.
Proof.
  intros f x. induction x as [|y x IH]; intros k H; [reflexivity|]. cbn [length List.seq map]. f_equal.
  - specialize (H 0%nat ltac:(cbn; lia)). rewrite Nat.add_0_r in H. exact H.
  - apply IH. intros i Hi. specialize (H (S i) ltac:(cbn; lia)). rewrite <- plus_n_Sm in H. exact H.
Qed.
Lemma sym_ok : forall sg s b l pre a ts, (forall d, In d l -> exists c, get (st_arrays s) (fst d) = Some c /\ holds (snd d) c) ->
  cells s = pre ++ cells_in l s -> get (sym l (S (length pre))) a = Some ts -> get (st_arrays s) a = Some (map (den sg (rho s b)) ts).
Proof.
  intros sg s b l. induction l as [|[x [t n]] l IH]; intros pre a ts H E G; cbn [sym get] in G; [discriminate|]. destruct (H (x, (t, n)) (or_introl eq_refl)) as (c & Ec & Hc & _). cbn [fst snd] in *.
  assert (EL : cells_in ((x, (t, n)) :: l) s = c ++ cells_in l s) by (unfold cells_in; cbn [map concat fst]; unfold lookup_ at 1; rewrite Ec; reflexivity). rewrite EL in E.
  destruct (String.eqb_spec a x) as [->|N].
  - injection G as <-. rewrite Ec. f_equal. unfold ins. rewrite map_map. rewrite <- Hc. symmetry. apply map_window. intros i Hi. cbn [den rho plus]. rewrite E. apply nth_window. exact Hi.
  - apply (IH (pre ++ c)) with (a := a); [intros d Hd; apply H; right; exact Hd|rewrite E, app_assoc; reflexivity|]. rewrite app_length, Hc. exact G.
Qed.
Lemma good_all : forall s, good s -> forall d, In d lay -> exists c, get (st_arrays s) (fst d) = Some c /\ holds (snd d) c.
Proof. intros s G d H. apply G. unfold lay, slot_names in *. cbn [map] in H. repeat (destruct H as [<-|H]; [reflexivity|]). destruct H. Qed.
Lemma sim0 : forall sg s b x, good s -> is_var s x b -> sim sg (rho s b) s (S0 x).
Proof.
  intros sg s b x G V. split; cbn [S0 s_arrays s_vars].
  - intros a l E. apply (sym_ok sg s b lay [] a l (good_all s G) eq_refl E).
  - intros y t E. destruct x as [x|]; [|discriminate]. cbn [get is_var] in *. destruct (String.eqb_spec y x) as [->|N]; [|discriminate]. injection E as <-. exact V.
Qed.
Lemma sim_cells : forall sg r s1 S1, sim sg r s1 S1 -> present S1 = true -> cells_in lay s1 = map (den sg r) (sym_cells S1).
Proof.
  intros sg r s1 S1 M P. unfold cells_in, sym_cells, present in *. revert P. induction lay as [|d l IH]; intro P; [reflexivity|]. cbn [forallb map concat] in *. apply andb_true_iff in P. destruct P as [P1 P2].
  rewrite map_app, <- (IH P2). f_equal. destruct (get (s_arrays S1) (fst d)) as [t|] eqn:E; [|discriminate]. unfold lookup_. rewrite (proj1 M _ _ E). reflexivity.
Qed.
Lemma cells_app : forall s l m, cells_in (l ++ m) s = cells_in l s ++ cells_in m s.
Proof. intros s l m. unfold cells_in. rewrite map_app, concat_app. reflexivity. Qed.
Lemma cells_holds : forall s l, (forall d, In d l -> exists c, get (st_arrays s) (fst d) = Some c /\ holds (snd d) c) -> Forall (fun d => fst (snd d) = 32) l ->
  length (cells_in l s) = fold_right (fun d n => snd (snd d) + n)%nat 0%nat l /\ Forall (fun c => 0 <= c < 2 ^ 32) (cells_in l s).
Proof.
  intros s l. induction l as [|d l IH]; intros H F; [split; [reflexivity|constructor]|]. destruct (IH (fun x Hx => H x (or_intror Hx)) (Forall_inv_tail F)) as [L1 F1]. destruct (H d (or_introl eq_refl)) as (c & Ec & Lc & Fc).
  unfold cells_in in *. cbn [map concat fold_right]. unfold lookup_ at 1 3. rewrite Ec. rewrite (Forall_inv F) in Fc. split; [rewrite app_length; lia|]. apply Forall_app. split; assumption.
Qed.
Lemma cells_len : forall s, good s -> length (cells s) = 180%nat /\ Forall (fun c => 0 <= c < 2 ^ 32) (cells s).
Proof. intros s G. apply (cells_holds s lay); [|repeat constructor]. intros d H. apply good_all; [exact G|exact H]. Qed.
Definition nth10 (l : list Z) (k : nat) : fx :=
  Fx (nth k l 0) (nth (k + 1) l 0) (nth (k + 2) l 0) (nth (k + 3) l 0) (nth (k + 4) l 0) (nth (k + 5) l 0) (nth (k + 6) l 0) (nth (k + 7) l 0) (nth (k + 8) l 0) (nth (k + 9) l 0).
Lemma fes_nth : forall n l i, length l = (10 * n)%nat -> (i < n)%nat -> nth i (fes l) fe_0 = nth10 l (10 * i).
Proof.
  intro n. induction n as [|n IH]; intros l i L Hi; [lia|]. do 10 (destruct l as [|? l]; [cbn [length] in L; lia|]). cbn [length] in L. cbn [fes]. destruct i as [|i]; [reflexivity|]. cbn [nth]. rewrite (IH l i ltac:(lia) ltac:(lia)).
  replace (10 * S i)%nat with (S (S (S (S (S (S (S (S (S (S (10 * i))))))))))) by lia. reflexivity.
Qed.
Lemma fes_length : forall n l, length l = (10 * n)%nat -> length (fes l) = n.
Proof. intro n. induction n as [|n IH]; intros l L; [destruct l; [reflexivity|cbn in L; lia]|]. do 10 (destruct l as [|? l]; [cbn [length] in L; lia|]). cbn [length fes] in *. rewrite (IH l ltac:(lia)). reflexivity. Qed.
Lemma mem_length : forall s, good s -> length (mem s) = slots.
Proof. intros s G. apply fes_length. apply (cells_len s G). Qed.
(** Slot [i] through the inputs. *)
Lemma mem_nth : forall s b i, good s -> (i < slots)%nat -> nth i (mem s) fe_0 = fx10 (rho s b) (1 + 10 * i).
Proof. intros s b i G Hi. unfold mem. rewrite (fes_nth slots) by (exact (proj1 (cells_len s G)) || exact Hi). reflexivity. Qed.
Lemma rho_range : forall s b k, good s -> (k < 180)%nat -> 0 <= rho s b (S k) < 2 ^ 32.
Proof. intros s b k G Hk. cbn [rho]. destruct (cells_len s G) as [L F]. rewrite Forall_forall in F. apply F. apply nth_In. lia. Qed.

(** ** Operations *)
Inductive op :=
| OMul (o a b : nat) | OSqr (o a : nat) | OAdd (o a b : nat) | OSub (o a b : nat) | OScal (o a : nat) | OCopy (o a : nat) | OZero (o : nat) | OOne (o : nat) | OSwap (a b : nat) | OFreeze (o a : nat).
Definition at_ (i : nat) : ptr := pt (nth i slot_names "").
Definition op_prog (o : op) : stmt :=
  match o with
  | OMul o a b => fe_mul_ (at_ o) (at_ a) (at_ b)
  | OSqr o a => fe_sqr_ (at_ o) (at_ a)
  | OAdd o a b => fe_add_ (at_ o) (at_ a) (at_ b)
  | OSub o a b => fe_sub_ (at_ o) (at_ a) (at_ b)
  | OScal o a => fe_mul121666_ (at_ o) (at_ a)
  | OCopy o a => fe_copy_ (at_ o) (at_ a)
  | OZero o => fe_0_ (at_ o)
  | OOne o => fe_1_ (at_ o)
  | OSwap a b => fe_cswap_ (at_ a) (at_ b) "swap"
  | OFreeze o a => fe_freeze_ (at_ o) (at_ a)
  end.
Definition op_var (o : op) : option string := match o with OSwap _ _ => Some "swap" | _ => None end.
(** What is written: slot, formulas, number. *)
Definition sel (l : list nat) (n : nat) : term :=
  if Nat.eqb n 20 then TIn 0 else match nth_error l (n / 10) with Some i => TIn (1 + 10 * i + n mod 10) | None => TC 0 end.
Definition with_ (l : list nat) (t : list term) : list term := map (subst (sel l)) t.
Definition m_ (m : list fx) (i : nat) : fx := nth i m fe_0.
Definition op_eff (o : op) : list (nat * (list term * (Z -> list fx -> fx))) :=
  match o with
  | OMul o a b => [(o, (with_ [a; b] t_mul, fun _ m => fe_mul_impl (m_ m a) (m_ m b)))]
  | OSqr o a => [(o, (with_ [a; a] t_sqr, fun _ m => fe_sqr_impl (m_ m a)))]
  | OAdd o a b => [(o, (with_ [a; b] t_add, fun _ m => fe_add (m_ m a) (m_ m b)))]
  | OSub o a b => [(o, (with_ [a; b] t_sub, fun _ m => fe_sub (m_ m a) (m_ m b)))]
  | OScal o a => [(o, (with_ [a; a] t_scal, fun _ m => fe_mul121666 (m_ m a)))]
  | OCopy o a => [(o, (with_ [a; a] t_copy, fun _ m => m_ m a))]
  | OZero o => [(o, (repeat (TStored U32 (TC 0)) 10, fun _ _ => fe_0))]
  | OOne o => [(o, (TStored U32 (TC 1) :: repeat (TStored U32 (TC 0)) 9, fun _ _ => fe_1))]
  | OSwap a b => [(a, (with_ [a; b] t_swap0, fun x m => fst (fe_cswap (m_ m a) (m_ m b) x))); (b, (with_ [a; b] t_swap1, fun x m => snd (fe_cswap (m_ m a) (m_ m b) x)))]
  | OFreeze o a => [(o, (with_ [a; a] t_freeze, fun _ m => fe_freeze (m_ m a)))]
  end.
Fixpoint assoc {A} (l : list (nat * A)) (i : nat) : option A := match l with [] => None | (j, x) :: l' => if Nat.eqb i j then Some x else assoc l' i end.
Definition op_sem (b : Z) (o : op) (m : list fx) : list fx := map (fun i => match assoc (op_eff o) i with Some (_, f) => f b m | None => m_ m i end) (List.seq 0 slots).
Definition expected (o : op) : list (list term) := map (fun i => match assoc (op_eff o) i with Some (ts, _) => ts | None => ins (1 + 10 * i) 10 end) (List.seq 0 slots).
Definition in_slots (o : op) : bool :=
  forallb (fun i => Nat.ltb i slots) (match o with OMul o a b | OAdd o a b | OSub o a b => [o; a; b] | OSqr a b | OScal a b | OCopy a b | OSwap a b | OFreeze a b => [a; b] | OZero a | OOne a => [a] end).
Definition check (o : op) : bool :=
  in_slots o && puts (get lay) (op_prog o) &&
  match s_exec 300 (op_prog o) (S0 (op_var o)) with
  | Some (S1, None) => present S1 && terms_eqb (sym_cells S1) (concat (expected o))
  | _ => false
  end.

(** The formulas are the numbers. *)
Lemma sel_fx10 : forall sg s b l k i, good s -> nth_error l k = Some i -> (i < slots)%nat -> (k < 2)%nat -> fx10 (fun n => den sg (rho s b) (sel l n)) (10 * k) = m_ (mem s) i.
Proof.
  intros sg s b l k i G E Hi Hk. unfold m_. rewrite (mem_nth s b i G Hi). unfold fx10.
  assert (P : forall j, (j < 10)%nat -> den sg (rho s b) (sel l (10 * k + j)) = rho s b (1 + 10 * i + j)).
  { intros j Hj. unfold sel. replace (Nat.eqb (10 * k + j) 20) with false by (symmetry; apply Nat.eqb_neq; lia).
    replace ((10 * k + j) / 10)%nat with k by (symmetry; rewrite Nat.mul_comm; rewrite Nat.div_add_l by lia; rewrite Nat.div_small by exact Hj; lia). rewrite E. cbn [den]. f_equal.
    replace ((10 * k + j) mod 10)%nat with j by (symmetry; rewrite Nat.add_comm, Nat.mul_comm, Nat.mod_add by lia; apply Nat.mod_small; exact Hj). reflexivity. }
  rewrite <- (Nat.add_0_r (10 * k)) at 1. rewrite !P by lia. rewrite Nat.add_0_r. reflexivity.
Qed.
Lemma sel_typed : forall sg s b l, good s -> 0 <= b < 2 ^ 32 -> Forall (fun i => (i < slots)%nat) l -> typed (fun n => den sg (rho s b) (sel l n)).
Proof.
  intros sg s b l G Hb F n _. unfold win, sel. destruct (Nat.eqb n 20); [exact Hb|]. destruct (nth_error l (n / 10)) as [i|] eqn:E; [|cbn; lia].
  apply nth_error_In in E. rewrite Forall_forall in F. specialize (F i E). unfold slots in F. cbn [den]. pose proof (Nat.mod_upper_bound n 10 ltac:(lia)). apply (rho_range s b (10 * i + n mod 10) G). lia.
Qed.
Lemma with_den : forall sg s b l t x, (forall r, typed r -> map (den sg r) t = limbs (x r)) -> good s -> 0 <= b < 2 ^ 32 -> Forall (fun i => (i < slots)%nat) l ->
  map (den sg (rho s b)) (with_ l t) = limbs (x (fun n => den sg (rho s b) (sel l n))).
Proof.
  intros sg s b l t x H G Hb F. unfold with_. rewrite map_map. rewrite (map_ext _ (den sg (fun n => den sg (rho s b) (sel l n)))) by (intro a; apply den_subst). apply H. apply sel_typed; assumption.
Qed.
Lemma limbs_fx10 : forall r k, limbs (fx10 r k) = map r (List.seq k 10).
Proof. intros r k. unfold limbs, fx10. cbn [g0 g1 g2 g3 g4 g5 g6 g7 g8 g9 List.seq map]. rewrite !Nat.add_succ_r, Nat.add_0_r. reflexivity. Qed.
Ltac fall := repeat (apply Forall_cons; [assumption || lia|]); apply Forall_nil.
Definition eff_right (sg : bool) (s : state) (b : Z) (e : nat * (list term * (Z -> list fx -> fx))) : Prop := map (den sg (rho s b)) (fst (snd e)) = limbs (snd (snd e) b (mem s)).
Lemma eff_ok : forall sg s b o, good s -> 0 <= b < 2 ^ 32 -> in_slots o = true -> Forall (eff_right sg s b) (op_eff o).
Proof.
  intros sg s b o G Hb H.
  assert (L : forall x, (x <? slots)%nat = true -> (x < slots)%nat) by (intros x Hx; apply Nat.ltb_lt; exact Hx).
  destruct o as [o a c|o a|o a c|o a c|o a|o a|o|o|a c|o a]; cbn [in_slots forallb] in *; rewrite ?andb_true_r in H; repeat (apply andb_true_iff in H; destruct H as [? H]);
    repeat match goal with X : (_ <? slots)%nat = true |- _ => apply L in X end; cbn [op_eff].
  all: apply Forall_cons; [unfold eff_right; cbn [fst snd]|try (apply Forall_cons; [unfold eff_right; cbn [fst snd]|]); try apply Forall_nil].
  - rewrite (with_den sg s b _ _ _ (t_mul_ok sg) G Hb) by fall. rewrite (sel_fx10 sg s b _ 0 a), (sel_fx10 sg s b _ 1 c) by (assumption || reflexivity || lia). reflexivity.
  - rewrite (with_den sg s b _ _ _ (t_sqr_ok sg) G Hb) by fall. rewrite (sel_fx10 sg s b _ 0 a) by (assumption || reflexivity || lia). reflexivity.
  - rewrite (with_den sg s b _ _ _ (t_add_ok sg) G Hb) by fall. rewrite (sel_fx10 sg s b _ 0 a), (sel_fx10 sg s b _ 1 c) by (assumption || reflexivity || lia). reflexivity.
  - rewrite (with_den sg s b _ _ _ (t_sub_ok sg) G Hb) by fall. rewrite (sel_fx10 sg s b _ 0 a), (sel_fx10 sg s b _ 1 c) by (assumption || reflexivity || lia). reflexivity.
  - rewrite (with_den sg s b _ _ _ (t_scal_ok sg) G Hb) by fall. rewrite (sel_fx10 sg s b _ 0 a) by (assumption || reflexivity || lia). reflexivity.
  - rewrite (with_den sg s b _ _ _ (t_copy_ok sg) G Hb) by fall. rewrite (sel_fx10 sg s b _ 0 a) by (assumption || reflexivity || lia). reflexivity.
  - reflexivity.
  - reflexivity.
  - rewrite (with_den sg s b _ _ _ (t_swap0_ok sg) G Hb) by fall. rewrite (sel_fx10 sg s b _ 0 a), (sel_fx10 sg s b _ 1 c) by (assumption || reflexivity || lia). reflexivity.
  - rewrite (with_den sg s b _ _ _ (t_swap1_ok sg) G Hb) by fall. rewrite (sel_fx10 sg s b _ 0 a), (sel_fx10 sg s b _ 1 c) by (assumption || reflexivity || lia). reflexivity.
  - rewrite (with_den sg s b _ _ _ (t_freeze_ok sg) G Hb) by fall. rewrite (sel_fx10 sg s b _ 0 a) by (assumption || reflexivity || lia). reflexivity.
Qed.

(** ** One operation run *)
Lemma assoc_in : forall A (l : list (nat * A)) i x, assoc l i = Some x -> In (i, x) l.
Proof. intros A l i x. induction l as [|[j y] l IH]; cbn [assoc]; [discriminate|]. destruct (Nat.eqb_spec i j) as [->|N]; [intro E; injection E as ->; left; reflexivity|]. intro E. right. exact (IH E). Qed.
Lemma fes_limbs : forall l, fes (concat (map limbs l)) = l.
Proof. intro l. induction l as [|[a b c d e f g h i j] l IH]; [reflexivity|]. cbn [map concat limbs app fes g0 g1 g2 g3 g4 g5 g6 g7 g8 g9]. rewrite IH. reflexivity. Qed.
Theorem op_sound : forall sg o s b, check o = true -> good s -> is_var s (op_var o) b -> 0 <= b < 2 ^ 32 ->
  exists s1, v_exec sg 300 (op_prog o) s = (s1, None) /\ good s1 /\ mem s1 = op_sem b o (mem s).
Proof.
  intros sg o s b C G V Hb. unfold check in C. apply andb_true_iff in C. destruct C as [C C3]. apply andb_true_iff in C. destruct C as [C1 C2].
  destruct (s_exec 300 (op_prog o) (S0 (op_var o))) as [[S1 [r|]]|] eqn:E; try discriminate. apply andb_true_iff in C3. destruct C3 as [C3 C4]. apply terms_eqb_sound in C4.
  destruct (s_exec_sim sg 300 (rho s b) _ _ _ _ _ (sim0 sg s b (op_var o) G V) E) as (s1 & R & M). exists s1. split; [exact R|]. split.
  - pose proof (v_exec_ok sg 300 (get lay) (op_prog o) s C2 G) as O. rewrite R in O. exact O.
  - unfold mem at 1. unfold cells. rewrite (sim_cells sg _ _ _ M C3), C4. rewrite <- (fes_limbs (op_sem b o (mem s))). f_equal. unfold expected, op_sem. rewrite concat_map, !map_map. f_equal. apply map_ext_in. intros i Hi. apply in_seq in Hi.
    pose proof (eff_ok sg s b o G Hb C1) as F. rewrite Forall_forall in F. destruct (assoc (op_eff o) i) as [[ts f]|] eqn:A.
    + apply assoc_in in A. exact (F _ A).
    + unfold m_. rewrite (mem_nth s b i G ltac:(lia)), limbs_fx10. unfold ins. rewrite map_map. reflexivity.
Qed.
