(** The programs of LeakFiat.v compute the functions of Fiat.v: sequences of operations, loops, bytes in and out, the whole. *)
From Coq Require Import String ZArith List Bool Lia.
From Verif Require Import Base NlSpec EncodingSpec Keys PropKeys Leak LeakProofs LeakRuns LeakValue LeakSym LeakNice LeakCurve LeakFiat Fiat LeakFiatOps.
Import ListNotations.
Open Scope string_scope.
Open Scope list_scope.
Open Scope Z_scope.

(** ** Programs on two arrays *)
Definition two (a b : string) (n1 n2 : nat) : sstate := mk_sstate [] [(a, ins 0 n1); (b, ins n1 n2)].
Definition rho2 (la lb : list Z) (n : nat) : Z := nth n (la ++ lb) 0.
Lemma two_sim : forall sg s a b la lb, a <> b -> get (st_arrays s) a = Some la -> get (st_arrays s) b = Some lb -> sim sg (rho2 la lb) s (two a b (length la) (length lb)).
Proof.
  intros sg s a b la lb N Ea Eb. split; [|intros x t H; discriminate]. intros x l H. cbn [two s_arrays get] in H. destruct (String.eqb_spec x a) as [->|Na].
  - injection H as <-. rewrite Ea. f_equal. unfold ins. rewrite map_map. symmetry. apply map_window. intros i Hi. cbn [den plus]. unfold rho2. apply app_nth1. exact Hi.
  - destruct (String.eqb_spec x b) as [->|Nb]; [|discriminate]. injection H as <-. rewrite Eb. f_equal. unfold ins. rewrite map_map. symmetry. apply map_window. intros i Hi. cbn [den]. unfold rho2. rewrite app_nth2_plus. reflexivity.
Qed.
Lemma two_run : forall sg s c a b la lb n1 n2 ts d, a <> b -> get (st_arrays s) a = Some la -> get (st_arrays s) b = Some lb -> length la = n1 -> length lb = n2 ->
  match s_exec 300 c (two a b n1 n2) with Some (S1, None) => match get (s_arrays S1) d with Some l => terms_eqb l ts | None => false end | _ => false end = true ->
  exists s1, v_exec sg 300 c s = (s1, None) /\ get (st_arrays s1) d = Some (map (den sg (rho2 la lb)) ts).
Proof.
  intros sg s c a b la lb n1 n2 ts d N Ea Eb H1 H2 H. subst n1 n2. destruct (s_exec 300 c _) as [[S1 [r|]]|] eqn:E; try discriminate. destruct (get (s_arrays S1) d) as [l|] eqn:El; [|discriminate]. apply terms_eqb_sound in H. subst l.
  destruct (s_exec_sim sg 300 _ _ _ _ _ _ (two_sim sg s a b la lb N Ea Eb) E) as (s1 & R & M). exists s1. split; [exact R|]. exact (proj1 M _ _ El).
Qed.
Lemma nice_map : forall sg r w ts, (forall n, 0 <= w n -> 0 <= r n < 2 ^ w n) -> map (den sg r) ts = map (nden sg r) (map (simp w) ts).
Proof. intros sg r w ts H. rewrite map_map. apply map_ext. intro a. rewrite nden_simp. symmetry. apply nice_den. exact H. Qed.
(** The first thirty-two inputs have 8 bits, the others 32. *)
Definition win32 (n : nat) : Z := if (n <? 32)%nat then 8 else 32.
Lemma rho2_range : forall la lb, length la = 32%nat -> Forall (fun c => 0 <= c < 2 ^ 8) la -> Forall (fun c => 0 <= c < 2 ^ 32) lb -> forall n, 0 <= win32 n -> 0 <= rho2 la lb n < 2 ^ win32 n.
Proof.
  intros la lb L Fa Fb n _. unfold win32, rho2. destruct (Nat.ltb_spec n 32) as [H|H].
  - rewrite app_nth1 by lia. rewrite Forall_forall in Fa. apply Fa. apply nth_In. lia.
  - rewrite app_nth2 by lia. destruct (Nat.ltb_spec (n - length la) (length lb)) as [K|K]; [rewrite Forall_forall in Fb; apply Fb; apply nth_In; exact K|]. rewrite nth_overflow by exact K. lia.
Qed.
Lemma lor_add : forall a b k, 0 <= k <= 24 -> 0 <= a < 2 ^ k -> 0 <= b < 256 -> Z.lor a (Z.shiftl b k mod 2 ^ 32) = a + 2 ^ k * b.
Proof.
  intros a b k Hk Ha Hb. rewrite Z.shiftl_mul_pow2 by lia.
  assert (P : 2 ^ k * 256 <= 2 ^ 32) by (change 256 with (2 ^ 8); rewrite <- Z.pow_add_r by lia; apply Z.pow_le_mono_r; lia).
  pose proof (Z.pow_pos_nonneg 2 k ltac:(lia) ltac:(lia)) as Q. rewrite Z.mod_small by nia.
  rewrite <- Z.lxor_lor.
  - rewrite <- Z.add_nocarry_lxor; [lia|]. apply Z.bits_inj'. intros n Hn. rewrite Z.land_spec, Z.bits_0. destruct (Z.lt_ge_cases n k) as [L|G].
    + rewrite Z.mul_pow2_bits_low by lia. apply andb_false_r.
    + rewrite <- (Z.mod_small a (2 ^ k)) by lia. rewrite Z.mod_pow2_bits_high by lia. reflexivity.
  - apply Z.bits_inj'. intros n Hn. rewrite Z.land_spec, Z.bits_0. destruct (Z.lt_ge_cases n k) as [L|G].
    + rewrite Z.mul_pow2_bits_low by lia. apply andb_false_r.
    + rewrite <- (Z.mod_small a (2 ^ k)) by lia. rewrite Z.mod_pow2_bits_high by lia. reflexivity.
Qed.
Lemma le_chain : forall b0 b1 b2 b3, 0 <= b0 < 256 -> 0 <= b1 < 256 -> 0 <= b2 < 256 -> 0 <= b3 < 256 ->
  Z.lor (Z.lor (Z.lor b0 (Z.shiftl b1 8 mod 2 ^ 32)) (Z.shiftl b2 16 mod 2 ^ 32)) (Z.shiftl b3 24 mod 2 ^ 32) = le_val [b0; b1; b2; b3].
Proof. intros b0 b1 b2 b3 H0 H1 H2 H3. cbn [le_val]. rewrite (lor_add b0 b1 8), (lor_add _ b2 16), (lor_add _ b3 24) by lia. lia. Qed.
Lemma bytes_32 : forall l : list Z, length l = 32%nat -> exists a0 a1 a2 a3 a4 a5 a6 a7 a8 a9 a10 a11 a12 a13 a14 a15 a16 a17 a18 a19 a20 a21 a22 a23 a24 a25 a26 a27 a28 a29 a30 a31,
  l = [a0; a1; a2; a3; a4; a5; a6; a7; a8; a9; a10; a11; a12; a13; a14; a15; a16; a17; a18; a19; a20; a21; a22; a23; a24; a25; a26; a27; a28; a29; a30; a31].
Proof. intros l H. do 32 (destruct l as [|? l]; [discriminate|]). destruct l; [|discriminate]. repeat eexists. Qed.

(** ** Bytes in *)
Definition t_from : list term := Eval vm_compute in cells_of (s_exec 300 (fe_frombytes_ (pt "x1") (pt "basepoint")) (two "basepoint" "x1" 32 10)) "x1".
Lemma t_from_ok : forall sg la lb, length la = 32%nat -> Forall (fun c => 0 <= c < 2 ^ 8) la -> Forall (fun c => 0 <= c < 2 ^ 32) lb -> map (den sg (rho2 la lb)) t_from = limbs (fe_frombytes la).
Proof.
  intros sg la lb La Fa Fb. rewrite (nice_map sg _ win32) by (apply rho2_range; assumption).
  match goal with |- map _ ?x = _ => let y := eval vm_compute in x in change x with y end. cbn [map].
  destruct (bytes_32 la La) as (a0 & a1 & a2 & a3 & a4 & a5 & a6 & a7 & a8 & a9 & a10 & a11 & a12 & a13 & a14 & a15 & a16 & a17 & a18 & a19 & a20 & a21 & a22 & a23 & a24 & a25 & a26 & a27 & a28 & a29 & a30 & a31 & ->).
  cbv [nden v_exact v_fits stored u32 rho2 app nth limbs g0 g1 g2 g3 g4 g5 g6 g7 g8 g9 fe_frombytes get_le32 firstn skipn].
  change (2 ^ 8) with 256 in Fa. repeat match goal with F : Forall _ (_ :: _) |- _ => let R := fresh "R" in pose proof (Forall_inv F) as R; cbv beta in R; apply Forall_inv_tail in F end.
  rewrite !le_chain by assumption. reflexivity.
Qed.
Definition clamp_prog : stmt := block [copy U8 (pt "e") (pt "secret") 32; clamp_secret_ (pt "e")].
Definition t_clamp : list term := Eval vm_compute in cells_of (s_exec 300 clamp_prog (two "secret" "e" 32 32)) "e".
Lemma t_clamp_ok : forall sg la lb, length la = 32%nat -> Forall (fun c => 0 <= c < 2 ^ 8) la -> Forall (fun c => 0 <= c < 2 ^ 8) lb -> map (den sg (rho2 la lb)) t_clamp = clamp_secret la.
Proof.
  intros sg la lb La Fa Fb. rewrite (nice_map sg _ win32).
  2:{ apply rho2_range; [exact La|exact Fa|]. apply (Forall_impl _ (P := fun c => 0 <= c < 2 ^ 8)); [|exact Fb]. intros c Hc. cbv beta in *. lia. }
  match goal with |- map _ ?x = _ => let y := eval vm_compute in x in change x with y end. cbn [map].
  destruct (bytes_32 la La) as (a0 & a1 & a2 & a3 & a4 & a5 & a6 & a7 & a8 & a9 & a10 & a11 & a12 & a13 & a14 & a15 & a16 & a17 & a18 & a19 & a20 & a21 & a22 & a23 & a24 & a25 & a26 & a27 & a28 & a29 & a30 & a31 & ->).
  cbv [nden v_exact v_fits stored rho2 app nth clamp_secret removelast last]. reflexivity.
Qed.

(** ** Bytes out *)
Definition store_ (s : ptr) : list stmt := match fe_tobytes_ s (pt "x2") with Seq _ c => [c] | _ => [] end.
Definition t_store (pub : string) : list term := cells_of (s_exec 300 (block (store_ (pt pub))) (two pub "h" 32 10)) pub.
Definition t_stored : list term := Eval vm_compute in t_store "secret".
Lemma t_stored_ok : forall sg la x f, length la = 32%nat -> x = fe_freeze f -> Forall (fun c => 0 <= c < 2 ^ 8) la -> Forall (fun c => 0 <= c < 2 ^ 32) (limbs x) ->
  map (den sg (rho2 la (limbs x))) t_stored = fe_tobytes f.
Proof.
  intros sg la x f La Ex Fa Fb. rewrite (nice_map sg _ win32) by (apply rho2_range; assumption).
  match goal with |- map _ ?x = _ => let y := eval vm_compute in x in change x with y end.
  destruct (bytes_32 la La) as (a0 & a1 & a2 & a3 & a4 & a5 & a6 & a7 & a8 & a9 & a10 & a11 & a12 & a13 & a14 & a15 & a16 & a17 & a18 & a19 & a20 & a21 & a22 & a23 & a24 & a25 & a26 & a27 & a28 & a29 & a30 & a31 & ->).
  unfold fe_tobytes. rewrite <- Ex. clear Ex f. destruct x as [x0 x1 x2 x3 x4 x5 x6 x7 x8 x9].
  cbv [nden v_exact v_fits stored u32 u8 rho2 app nth limbs g0 g1 g2 g3 g4 g5 g6 g7 g8 g9 map]. reflexivity.
Qed.

Section Value.
Variable sg : bool.
Notation vx := (v_exec sg 300).
(** ** Sequences *)
Definition op_vars (x : option string) (o : op) : bool := match op_var o, x with None, _ => true | Some y, Some x => String.eqb x y | Some _, None => false end.
Definition ops_sem (b : Z) (l : list op) (m : list fx) : list fx := fold_left (fun m o => op_sem b o m) l m.
Definition names_free (x : option string) (c : stmt) : bool := match x with Some x => negb (existsb (String.eqb x) (assigned c)) | None => true end.
Lemma keeps_var : forall c s s1 x, existsb (String.eqb x) (assigned c) = false -> vx c s = (s1, None) -> get (st_vars s1) x = get (st_vars s) x.
Proof.
  intros c s s1 x F E. pose proof (v_frame sg 300 c s x) as H. rewrite E in H. apply H. intro K. assert (existsb (String.eqb x) (assigned c) = true); [|congruence]. apply existsb_exists. exists x. split; [exact K|apply String.eqb_refl].
Qed.
Lemma keeps_array : forall c s s1 x, existsb (String.eqb x) (written c) = false -> vx c s = (s1, None) -> get (st_arrays s1) x = get (st_arrays s) x.
Proof.
  intros c s s1 x F E. pose proof (v_frame_arrays sg 300 c s x) as H. rewrite E in H. apply H. intro K. assert (existsb (String.eqb x) (written c) = true); [|congruence]. apply existsb_exists. exists x. split; [exact K|apply String.eqb_refl].
Qed.
Lemma free_var : forall x c s b s1, names_free x c = true -> is_var s x b -> vx c s = (s1, None) -> is_var s1 x b.
Proof. intros [x|] c s b s1 F V E; [|exact I]. cbn [is_var names_free] in *. apply negb_true_iff in F. rewrite (keeps_var c s s1 x F E). exact V. Qed.
Definition checks (x : option string) (l : list op) : bool := forallb (fun o => check o && op_vars x o && names_free x (op_prog o)) l.
Theorem ops_sound : forall x l s b, checks x l = true -> good s -> is_var s x b -> 0 <= b < 2 ^ 32 ->
  exists s1, vx (block (map op_prog l)) s = (s1, None) /\ good s1 /\ mem s1 = ops_sem b l (mem s) /\ is_var s1 x b.
Proof.
  intros x l. induction l as [|o l IH]; intros s b C G V Hb.
  - exists s. repeat split; assumption.
  - cbn [checks forallb] in C. apply andb_true_iff in C. destruct C as [C C4]. apply andb_true_iff in C. destruct C as [C C3]. apply andb_true_iff in C. destruct C as [C1 C2].
    assert (V1 : is_var s (op_var o) b).
    { unfold op_vars in C2. destruct (op_var o) as [y|]; [|exact I]. destruct x as [x|]; [|discriminate]. apply String.eqb_eq in C2. rewrite <- C2. exact V. }
    destruct (op_sound sg o s b C1 G V1 Hb) as (s1 & E1 & G1 & M1). pose proof (free_var _ _ _ _ _ C3 V E1) as V2.
    destruct (IH s1 b C4 G1 V2 Hb) as (s2 & E2 & G2 & M2 & V3). exists s2. split.
    + cbn [map block fold_right v_exec]. rewrite E1. exact E2.
    + split; [exact G2|]. split; [|exact V3]. rewrite M2, M1. reflexivity.
Qed.
(** Grouping does not matter. *)
Fixpoint flat (c : stmt) : list stmt := match c with Seq a b => flat a ++ flat b | Skip => [] | _ => [c] end.
Lemma v_block_app : forall l1 l2 s, vx (block (l1 ++ l2)) s = match vx (block l1) s with (s1, Some r) => (s1, Some r) | (s1, None) => vx (block l2) s1 end.
Proof. intro l1. induction l1 as [|c l1 IH]; intros l2 s; cbn [block fold_right app v_exec]; [reflexivity|]. destruct (vx c s) as [s1 [r|]]; [reflexivity|]. exact (IH l2 s1). Qed.
Lemma v_flat : forall c s, vx c s = vx (block (flat c)) s.
Proof.
  intro c. induction c as [|t y e|t b i e|c1 IH1 c2 IH2|e c1 IH1 c2 IH2|e c1 IH1|y b|e]; intro s; cbn [flat]; try (rewrite v_one; reflexivity); [reflexivity|].
  rewrite v_block_app. cbn [v_exec]. rewrite <- IH1. destruct (vx c1 s) as [s1 [r|]]; [reflexivity|]. apply IH2.
Qed.
Lemma v_same : forall c d, flat c = flat d -> forall s, vx c s = vx d s.
Proof. intros c d E s. rewrite (v_flat c), (v_flat d), E. reflexivity. Qed.
Lemma v_cons : forall c l s, vx (block (c :: l)) s = match vx c s with (s1, Some r) => (s1, Some r) | (s1, None) => vx (block l) s1 end.
Proof. reflexivity. Qed.
Lemma v_seq : forall a b s, vx (Seq a b) s = match vx a s with (s1, Some r) => (s1, Some r) | (s1, None) => vx b s1 end.
Proof. reflexivity. Qed.
Lemma v_set : forall t x e s, vx (Set_ t x e) s = (mk_state (put (st_vars s) x (v_fits t (value sg e s))) (st_arrays s), None).
Proof. reflexivity. Qed.
Lemma v_while : forall e c s, vx (While e c) s = v_loop (value sg e) (vx c) 300 s.
Proof. reflexivity. Qed.
Lemma good_vars : forall s vs, good s -> good (mk_state vs (st_arrays s)).
Proof. intros s vs G a d H. exact (G a d H). Qed.
Lemma slots18 : forall m : list fx, length m = slots -> exists x0 x1 x2 x3 x4 x5 x6 x7 x8 x9 x10 x11 x12 x13 x14 x15 x16 x17, m = [x0; x1; x2; x3; x4; x5; x6; x7; x8; x9; x10; x11; x12; x13; x14; x15; x16; x17].
Proof. intros m H. unfold slots in H. do 18 (destruct m as [|? m]; [discriminate|]). destruct m; [|discriminate]. repeat eexists. Qed.
Ltac slots_of m H := destruct (slots18 m H) as (x0 & x1 & x2 & x3 & x4 & x5 & x6 & x7 & x8 & x9 & x10 & x11 & x12 & x13 & x14 & x15 & x16 & x17 & ->).
Ltac wr := vm_compute; reflexivity.
Lemma op_none : forall o s, op_var o = None -> check o = true -> good s -> exists s1, vx (op_prog o) s = (s1, None) /\ good s1 /\ mem s1 = op_sem 0 o (mem s).
Proof. intros o s N C G. apply op_sound; [exact C|exact G|rewrite N; exact I|lia]. Qed.

(** ** A round of the ladder *)
Definition swap_ops : list op := [OSwap 1 3; OSwap 2 4].
Definition step_ops : list op :=
  [OSub 10 3 4; OSub 11 1 2; OAdd 5 1 2; OAdd 6 3 4; OMul 4 10 5; OMul 2 6 11; OSqr 8 11; OSqr 9 5; OAdd 7 4 2; OSub 6 4 2; OMul 1 9 8; OSub 11 9 8; OSqr 2 6; OScal 4 11; OSqr 3 7; OAdd 10 8 4; OMul 4 0 2; OMul 2 11 10].
Definition lad (m : list fx) (w : Z) : ladder32 := L32 (m_ m 1) (m_ m 2) (m_ m 3) (m_ m 4) w.
Lemma rung_same : forall s, vx (block rung_) s = vx (block [dw "swap" (xorw (v "swap") (v "b")); block (map op_prog swap_ops); dw "swap" (v "b"); block (map op_prog step_ops)]) s.
Proof. apply v_same. wr. Qed.
Lemma round_sem : forall m w e p, length m = slots -> let b := Z.land 1 (Z.shiftr (nth (p / 8) e 0) (Z.land (Z.of_nat p) 7)) in
  let m1 := ops_sem b step_ops (ops_sem (Z.lxor w b) swap_ops m) in lad m1 b = ladder_round e (m_ m 0) p (lad m w) /\ m_ m1 0 = m_ m 0.
Proof.
  intros m w e p H. unfold ladder_round. generalize (Z.land 1 (Z.shiftr (nth (p / 8) e 0) (Z.land (Z.of_nat p) 7))). intro b. cbv zeta. slots_of m H. split; [|reflexivity].
  lazy -[fe_mul_impl fe_sqr_impl fe_add fe_sub fe_mul121666 fe_cswap Z.lxor].
  destruct (fe_cswap x1 x3 (Z.lxor w b)) as [y1 y3]. destruct (fe_cswap x2 x4 (Z.lxor w b)) as [y2 y4]. reflexivity.
Qed.
Definition byte_array (s : state) (a : string) (l : list Z) : Prop := get (st_arrays s) a = Some l /\ length l = 32%nat /\ Forall (fun c => 0 <= c < 2 ^ 8) l.
Lemma byte_array_same : forall c s s1 a l, existsb (String.eqb a) (written c) = false -> vx c s = (s1, None) -> byte_array s a l -> byte_array s1 a l.
Proof. intros c s s1 a l W E [H1 H2]. split; [|exact H2]. rewrite (keeps_array c s s1 a W E). exact H1. Qed.
Lemma bit_value : forall s e p, (p < 256)%nat -> byte_array s "e" e -> get (st_vars s) "pos" = Some (Z.of_nat p) ->
  let b := Z.land 1 (Z.shiftr (nth (p / 8) e 0) (Z.land (Z.of_nat p) 7)) in 0 <= b < 2 /\ vx (block bit_) s = (mk_state (put (st_vars s) "b" b) (st_arrays s), None).
Proof.
  intros s e p Hp (A & L & F) V. cbv zeta. set (b := Z.land 1 _). assert (Hb : 0 <= b < 2).
  { unfold b. rewrite Z.land_comm. change 1 with (Z.ones 1). rewrite Z.land_ones by lia. apply Z.mod_pos_bound. lia. }
  split; [exact Hb|]. unfold bit_. rewrite v_one. unfold dw. rewrite v_set. unfold ld_. cbn [value v fst snd v_fits v_exact stored loaded]. unfold lookup_. rewrite V, A.
  replace (Z.quot (Z.of_nat p) 8) with (Z.of_nat (p / 8)) by (rewrite Nat2Z.inj_div; symmetry; apply Z.quot_div_nonneg; lia).
  assert (Q : (p / 8 < 32)%nat) by (apply Nat.div_lt_upper_bound; lia).
  assert (Z1 : u64 (u64 0 + u64 (Z.of_nat (p / 8))) = Z.of_nat (p / 8)) by (unfold u64; change (0 mod 2 ^ 64) with 0; rewrite (Z.mod_small (Z.of_nat (p / 8))) by lia; apply Z.mod_small; lia). rewrite Z1, Nat2Z.id.
  fold b. unfold u32. rewrite (Z.mod_small b) by lia. reflexivity.
Qed.
Lemma xor_range : forall x y, 0 <= x < 2 ^ 32 -> 0 <= y < 2 ^ 32 -> 0 <= Z.lxor x y < 2 ^ 32.
Proof. intros x y Hx Hy. pose proof (proj2 (lor_range x y 32 32 ltac:(lia) ltac:(lia) Hx Hy)) as H. rewrite Z.max_id in H. exact H. Qed.
Lemma rung_v : forall s w b, good s -> get (st_vars s) "swap" = Some w -> get (st_vars s) "b" = Some b -> 0 <= w < 2 ^ 32 -> 0 <= b < 2 ^ 32 ->
  exists s1, vx (block rung_) s = (s1, None) /\ good s1 /\ mem s1 = ops_sem b step_ops (ops_sem (Z.lxor w b) swap_ops (mem s)) /\ get (st_vars s1) "swap" = Some b.
Proof.
  intros s w b G Vw Vb Hw Hb. rewrite rung_same, v_cons. unfold dw at 1. rewrite v_set. pose proof (xor_range w b Hw Hb) as Hx.
  assert (X : v_fits U32 (value sg (xorw (v "swap") (v "b")) s) = Z.lxor w b).
  { unfold xorw. cbn [value v v_fits v_exact stored]. unfold lookup_. rewrite Vw, Vb. unfold u32. rewrite (Z.mod_small w), (Z.mod_small b) by assumption. rewrite Z.mod_mod by lia. apply Z.mod_small. exact Hx. }
  rewrite X. set (s0 := mk_state _ _). assert (G0 : good s0) by (apply good_vars; exact G). assert (M0 : mem s0 = mem s) by reflexivity.
  assert (V0 : get (st_vars s0) "swap" = Some (Z.lxor w b)) by (unfold s0; cbn [st_vars]; apply get_put_same).
  assert (B0 : get (st_vars s0) "b" = Some b) by (unfold s0; cbn [st_vars]; rewrite get_put_other by discriminate; exact Vb). clearbody s0.
  destruct (ops_sound (Some "swap") swap_ops s0 (Z.lxor w b) ltac:(wr) G0 V0 Hx) as (s1 & E1 & G1 & M1 & _). rewrite v_cons, E1.
  pose proof (keeps_var (block (map op_prog swap_ops)) s0 s1 "b" ltac:(wr) E1) as B1. rewrite B0 in B1. rewrite v_cons. unfold dw at 1. rewrite v_set.
  assert (Y : v_fits U32 (value sg (v "b") s1) = b) by (cbn [value v v_fits stored]; unfold lookup_; rewrite B1; apply Z.mod_small; exact Hb). rewrite Y.
  set (s2 := mk_state _ _). assert (G2 : good s2) by (apply good_vars; exact G1). assert (M2 : mem s2 = mem s1) by reflexivity. assert (V2 : get (st_vars s2) "swap" = Some b) by (unfold s2; cbn [st_vars]; apply get_put_same). clearbody s2.
  destruct (ops_sound (Some "swap") step_ops s2 b ltac:(wr) G2 V2 Hb) as (s3 & E3 & G3 & M3 & V3). rewrite v_one, E3. exists s3. split; [reflexivity|]. split; [exact G3|]. split; [|exact V3]. rewrite M3, M2, M1, M0. reflexivity.
Qed.
Definition cond : expr := Bin I32 Lt (Lit (-1)) (v "pos").
Definition dec : stmt := Set_ I32 "pos" (Bin I32 Sub (v "pos") (Lit 1)).
Definition round : stmt := block (bit_ ++ rung_ ++ [dec]).
Lemma cond_val : forall s p, get (st_vars s) "pos" = Some p -> value sg cond s = if -1 <? p then 1 else 0.
Proof. intros s p V. cbn [cond value v v_fits v_exact]. unfold lookup_. rewrite V. destruct (-1 <? p); reflexivity. Qed.
Lemma dec_v : forall s p, get (st_vars s) "pos" = Some p -> vx dec s = (mk_state (put (st_vars s) "pos" (p - 1)) (st_arrays s), None).
Proof. intros s p V. cbn [dec v_exec value v v_fits v_exact]. unfold lookup_. rewrite V. reflexivity. Qed.
Lemma ladder_v : forall n k s e w, (n < k)%nat -> (n <= 255)%nat -> good s -> byte_array s "e" e -> get (st_vars s) "swap" = Some w -> 0 <= w < 2 ^ 32 -> get (st_vars s) "pos" = Some (Z.of_nat n - 1) ->
  exists s1 w1, v_loop (value sg cond) (vx round) k s = (s1, None) /\ good s1 /\ lad (mem s1) w1 = ladder_rounds e (m_ (mem s) 0) n (lad (mem s) w) /\ get (st_vars s1) "swap" = Some w1 /\ 0 <= w1 < 2 ^ 32.
Proof.
  intro n. induction n as [|n IH]; intros k s e w Hk Hn G A V Hw W; (destruct k as [|k]; [lia|]); cbn [v_loop]; rewrite (cond_val _ _ W).
  - exists s, w. split; [reflexivity|]. repeat split; try assumption; apply Hw.
  - replace (Z.of_nat (S n) - 1) with (Z.of_nat n) in * by lia. replace (-1 <? Z.of_nat n) with true by (symmetry; apply Z.ltb_lt; lia). change (1 =? 0) with false. cbv iota.
    destruct (bit_value s e n ltac:(lia) A W) as [Hb E0]. set (b := Z.land 1 _) in *. unfold round at 1. rewrite v_block_app, E0, v_block_app.
    set (s0 := mk_state _ _). assert (G0 : good s0) by (apply good_vars; exact G). assert (M0 : mem s0 = mem s) by reflexivity. assert (A0 : byte_array s0 "e" e) by exact A.
    assert (V0 : get (st_vars s0) "swap" = Some w) by (unfold s0; cbn [st_vars]; rewrite get_put_other by discriminate; exact V). assert (B0 : get (st_vars s0) "b" = Some b) by (unfold s0; cbn [st_vars]; apply get_put_same).
    assert (W0 : get (st_vars s0) "pos" = Some (Z.of_nat n)) by (unfold s0; cbn [st_vars]; rewrite get_put_other by discriminate; exact W). clearbody s0.
    destruct (rung_v s0 w b G0 V0 B0 Hw ltac:(lia)) as (s1 & E1 & G1 & M1 & V1). rewrite E1, v_one.
    pose proof (keeps_var (block rung_) s0 s1 "pos" ltac:(wr) E1) as W1. rewrite W0 in W1. pose proof (byte_array_same (block rung_) s0 s1 "e" e ltac:(wr) E1 A0) as A1. rewrite (dec_v _ _ W1).
    set (s2 := mk_state _ _). assert (G2 : good s2) by (apply good_vars; exact G1). assert (M2 : mem s2 = mem s1) by reflexivity. assert (A2 : byte_array s2 "e" e) by exact A1.
    assert (V2 : get (st_vars s2) "swap" = Some b) by (unfold s2; cbn [st_vars]; rewrite get_put_other by discriminate; exact V1). assert (W2 : get (st_vars s2) "pos" = Some (Z.of_nat n - 1)) by (unfold s2; cbn [st_vars]; apply get_put_same). clearbody s2.
    destruct (IH k s2 e b ltac:(lia) ltac:(lia) G2 A2 V2 ltac:(lia) W2) as (s3 & w3 & E3 & G3 & L3 & V3 & H3). exists s3, w3. split; [exact E3|]. split; [exact G3|]. split; [|split; [exact V3|exact H3]].
    rewrite L3, M2, M1, M0. destruct (round_sem (mem s) w e n (mem_length s G)) as [R1 R2]. fold b in R1, R2. cbv zeta in R1, R2. rewrite R1, R2. reflexivity.
Qed.

(** ** Squaring repeatedly, the inversion *)
Definition upd (m : list fx) (i : nat) (x : fx) : list fx := map (fun j => if Nat.eqb j i then x else m_ m j) (List.seq 0 slots).
Lemma upd_nth : forall m i x j, (j < slots)%nat -> m_ (upd m i x) j = if Nat.eqb j i then x else m_ m j.
Proof.
  intros m i x j H. unfold upd. unfold m_ at 1. rewrite (nth_indep _ fe_0 (if Nat.eqb 0 i then x else m_ m 0)) by (rewrite map_length, seq_length; exact H).
  change (if Nat.eqb 0 i then x else m_ m 0) with ((fun j => if Nat.eqb j i then x else m_ m j) 0%nat). rewrite map_nth, seq_nth by exact H. reflexivity.
Qed.
Lemma upd_upd : forall m i x y, upd (upd m i x) i y = upd m i y.
Proof. intros m i x y. apply map_ext_in. intros j Hj. apply in_seq in Hj. rewrite upd_nth by lia. destruct (Nat.eqb j i); reflexivity. Qed.
Lemma upd_same : forall m o, length m = slots -> upd m o (m_ m o) = m.
Proof.
  intros m o H. assert (E : upd m o (m_ m o) = map (m_ m) (List.seq 0 slots)) by (apply map_ext; intro j; destruct (Nat.eqb_spec j o) as [->|N]; reflexivity). rewrite E.
  apply (nth_ext _ _ fe_0 fe_0); [rewrite map_length, seq_length; symmetry; exact H|]. intros n Hn. rewrite map_length, seq_length in Hn.
  rewrite (nth_indep _ fe_0 (m_ m 0)) by (rewrite map_length, seq_length; exact Hn). rewrite map_nth, seq_nth by exact Hn. reflexivity.
Qed.
Lemma sem_sqr : forall b o a m, op_sem b (OSqr o a) m = upd m o (fe_sqr_impl (m_ m a)).
Proof. intros b o a m. apply map_ext. intro j. cbn [op_eff assoc]. destruct (Nat.eqb j o); reflexivity. Qed.
Fixpoint iterate (f : fx -> fx) (n : nat) (x : fx) : fx := match n with O => x | S k => iterate f k (f x) end.
Lemma iterate_comm : forall f n x, iterate f n (f x) = f (iterate f n x).
Proof. intros f n. induction n as [|n IH]; intro x; cbn [iterate]; [reflexivity|apply IH]. Qed.
Lemma iterate_times : forall (f : fx -> fx) (t : fx -> nat -> fx), (forall x, t x O = f x) -> (forall x n, t x (S n) = f (t x n)) -> forall n x, iterate f n (f x) = t x n.
Proof. intros f t H0 H1 n. induction n as [|n IH]; intro x; cbn [iterate]; [symmetry; apply H0|]. rewrite H1, <- IH. apply iterate_comm. Qed.
Definition squares : nat -> fx -> fx := iterate fe_sqr_impl.
Lemma times_0 : forall x, fe_sq_times x 0 = fe_sqr_impl x.
Proof. intro x. exact (eq_refl (fe_sqr_impl x)). Qed.
Lemma times_S : forall x n, fe_sq_times x (S n) = fe_sqr_impl (fe_sq_times x n).
Proof. intros x n. exact (eq_refl (fe_sqr_impl (fe_sq_times x n))). Qed.
Definition squares_times : forall n x, squares n (fe_sqr_impl x) = fe_sq_times x n := iterate_times fe_sqr_impl fe_sq_times times_0 times_S.
Lemma squares_0 : forall x, squares 0 x = x.
Proof. intro x. exact (eq_refl x). Qed.
Lemma squares_S : forall n x, squares (S n) x = squares n (fe_sqr_impl x).
Proof. intros n x. exact (eq_refl (squares n (fe_sqr_impl x))). Qed.
Definition inc : stmt := Set_ I32 "i" (Bin I32 Add (v "i") (Lit 1)).
Definition sq_body (o : nat) : stmt := Seq (fe_sqr_ (at_ o) (at_ o)) inc.
Definition sq_ready (o a : nat) : bool := check (OSqr o a) && negb (existsb (String.eqb "i") (assigned (op_prog (OSqr o a)))) && (o <? slots)%nat.
Lemma sq_one : forall o a s, sq_ready o a = true -> good s -> exists s1, vx (fe_sqr_ (at_ o) (at_ a)) s = (s1, None) /\ good s1 /\ mem s1 = upd (mem s) o (fe_sqr_impl (m_ (mem s) a)) /\ get (st_vars s1) "i" = get (st_vars s) "i".
Proof.
  intros o a s R G. unfold sq_ready in R. apply andb_true_iff in R. destruct R as [R _]. apply andb_true_iff in R. destruct R as [R1 R2]. apply negb_true_iff in R2.
  destruct (op_none (OSqr o a) s eq_refl R1 G) as (s1 & E & G1 & M). exists s1. split; [exact E|]. split; [exact G1|]. split; [rewrite M; apply sem_sqr|]. exact (keeps_var _ _ _ _ R2 E).
Qed.
Lemma lt_val : forall s i c, get (st_vars s) "i" = Some i -> value sg (Bin I32 Lt (v "i") (Lit c)) s = if i <? c then 1 else 0.
Proof. intros s i c V. cbn [value v v_fits v_exact]. unfold lookup_. rewrite V. destruct (i <? c); reflexivity. Qed.
Lemma ready_lt : forall o a, sq_ready o a = true -> (o < slots)%nat.
Proof. intros o a R. unfold sq_ready in R. apply andb_true_iff in R. apply Nat.ltb_lt. apply R. Qed.
Lemma sq_loop : forall o n i k s, sq_ready o o = true -> (n < k)%nat -> good s -> get (st_vars s) "i" = Some i ->
  exists s1, v_loop (value sg (Bin I32 Lt (v "i") (Lit (i + Z.of_nat n)))) (vx (sq_body o)) k s = (s1, None) /\ good s1 /\ mem s1 = upd (mem s) o (squares n (m_ (mem s) o)).
Proof.
  intros o n. induction n as [|n IH]; intros i k s R Hk G V; (destruct k as [|k]; [lia|]); cbn [v_loop]; rewrite (lt_val s i _ V).
  - replace (i <? i + Z.of_nat 0) with false by (symmetry; apply Z.ltb_ge; lia). change (0 =? 0) with true. cbv iota. exists s. split; [reflexivity|]. split; [exact G|]. rewrite squares_0. symmetry. apply upd_same. apply mem_length. exact G.
  - replace (i <? i + Z.of_nat (S n)) with true by (symmetry; apply Z.ltb_lt; lia). change (1 =? 0) with false. cbv iota. unfold sq_body at 1. rewrite v_seq. destruct (sq_one o o s R G) as (s1 & E1 & G1 & M1 & K1). rewrite E1. unfold inc. rewrite v_set. rewrite V in K1.
    set (s2 := mk_state _ _). assert (G2 : good s2) by (apply good_vars; exact G1). assert (M2 : mem s2 = mem s1) by reflexivity.
    assert (V2 : get (st_vars s2) "i" = Some (i + 1)) by (unfold s2; cbn [st_vars]; rewrite get_put_same; cbn [value v v_fits v_exact]; unfold lookup_; rewrite K1; reflexivity).
    clearbody s2. destruct (IH (i + 1) k s2 R ltac:(lia) G2 V2) as (s3 & E3 & G3 & M3). replace (i + Z.of_nat (S n)) with (i + 1 + Z.of_nat n) by lia. exists s3. split; [exact E3|]. split; [exact G3|].
    rewrite M3, M2, M1, upd_upd, upd_nth by (exact (ready_lt _ _ R)). rewrite Nat.eqb_refl, squares_S. reflexivity.
Qed.
(** Operations and repeated squarings in sequence. *)
Inductive xop := XOp (o : op) | XSq (o a : nat) (n : nat).
Definition x_prog (x : xop) : stmt := match x with XOp o => op_prog o | XSq o a n => block [fe_sqr_ (at_ o) (at_ a); sq_loop_ (at_ o) (1 + Z.of_nat n)] end.
Definition x_sem (x : xop) (m : list fx) : list fx := match x with XOp o => op_sem 0 o m | XSq o a n => upd m o (fe_sq_times (m_ m a) n) end.
Definition x_check (x : xop) : bool := match x with XOp o => check o && match op_var o with None => true | _ => false end | XSq o a n => sq_ready o a && sq_ready o o && (n <? 200)%nat end.
Lemma x_sound : forall x s, x_check x = true -> good s -> exists s1, vx (x_prog x) s = (s1, None) /\ good s1 /\ mem s1 = x_sem x (mem s).
Proof.
  intros [o|o a n] s C G; cbn [x_check x_prog x_sem] in *; apply andb_true_iff in C; destruct C as [C1 C2].
  - apply op_none; [destruct (op_var o); [discriminate|reflexivity]|exact C1|exact G].
  - apply andb_true_iff in C1. destruct C1 as [C0 C1]. apply Nat.ltb_lt in C2. destruct (sq_one o a s C0 G) as (s1 & E1 & G1 & M1 & _). rewrite v_cons, E1, v_one. unfold sq_loop_. rewrite v_seq, v_set, v_while. fold inc. fold (sq_body o).
    set (s2 := mk_state _ _). assert (G2 : good s2) by (apply good_vars; exact G1). assert (M2 : mem s2 = mem s1) by reflexivity. assert (V2 : get (st_vars s2) "i" = Some 1) by (unfold s2; cbn [st_vars]; rewrite get_put_same; reflexivity). clearbody s2.
    destruct (sq_loop o n 1 300 s2 C1 ltac:(lia) G2 V2) as (s3 & E3 & G3 & M3). exists s3. split; [exact E3|]. split; [exact G3|].
    rewrite M3, M2, M1, upd_upd, upd_nth by (exact (ready_lt _ _ C1)). rewrite Nat.eqb_refl, squares_times. reflexivity.
Qed.
Lemma xs_sound : forall l s, forallb x_check l = true -> good s -> exists s1, vx (block (map x_prog l)) s = (s1, None) /\ good s1 /\ mem s1 = fold_left (fun m x => x_sem x m) l (mem s).
Proof.
  intro l. induction l as [|x l IH]; intros s C G; [exists s; repeat split; assumption|]. cbn [forallb] in C. apply andb_true_iff in C. destruct C as [C1 C2]. destruct (x_sound x s C1 G) as (s1 & E1 & G1 & M1). destruct (IH s1 C2 G1) as (s2 & E2 & G2 & M2).
  exists s2. cbn [map fold_left]. rewrite v_cons, E1. split; [exact E2|]. split; [exact G2|]. rewrite M2, M1. reflexivity.
Qed.
(** From x2 and z2 to the number that is stored. *)
Definition affine_ops : list xop :=
  [XOp (OCopy 16 2); XOp (OSqr 12 16); XSq 13 12 1; XOp (OMul 13 16 13); XOp (OMul 12 12 13); XOp (OSqr 14 12); XOp (OMul 13 13 14); XSq 14 13 4; XOp (OMul 13 14 13); XSq 14 13 9; XOp (OMul 14 14 13); XSq 15 14 19; XOp (OMul 14 15 14);
   XSq 14 14 9; XOp (OMul 13 14 13); XSq 14 13 49; XOp (OMul 14 14 13); XSq 15 14 99; XOp (OMul 14 15 14); XSq 14 14 49; XOp (OMul 13 14 13); XSq 13 13 4; XOp (OMul 2 13 12);
   XOp (OMul 1 1 2); XOp (OFreeze 17 1)].
Lemma affine_check : forallb x_check affine_ops = true.
Proof. wr. Qed.
Lemma affine_sem : forall m, length m = slots -> m_ (fold_left (fun m x => x_sem x m) affine_ops m) 17 = fe_freeze (fe_mul_impl (m_ m 1) (fe_invert (m_ m 2))).
Proof.
  intros m H. slots_of m H. unfold fe_invert. rewrite !times_0. lazy -[fe_mul_impl fe_sqr_impl fe_sq_times fe_freeze]. reflexivity.
Qed.
End Value.
