(** Model of src/curve25519-hacl64.h (the implementation used where the compiler has 128-bit integers) and src/curve25519.c.  Arrays of
    five limbs are values of type [fe]; every operation on u64 and u128 wraps.  The clearing of buffers with memzero_explicit is not modelled. *)
From Coq Require Import ZArith List Bool.
From Verif Require Import Base NlSpec Keys.
Import ListNotations.
Open Scope Z_scope.

Record fe := Fe { f0 : Z; f1 : Z; f2 : Z; f3 : Z; f4 : Z }.
Definition u128 (z : Z) : Z := z mod 2 ^ 128.
Definition MASK : Z := 0x7ffffffffffff.

(** src/curve25519-hacl64.h:15-23 u64_eq_mask; ~x is 2^64 - 1 - x. *)
Definition u64_eq_mask (a b : Z) : Z :=
  let x := Z.lxor a b in
  let minus_x := u64 (2 ^ 64 - 1 - x + 1) in
  let x_or_minus_x := Z.lor x minus_x in
  let xnx := Z.shiftr x_or_minus_x 63 in
  u64 (xnx - 1).
(** src/curve25519-hacl64.h:25-37 u64_gte_mask *)
Definition u64_gte_mask (a b : Z) : Z :=
  let x := a in let y := b in
  let x_xor_y := Z.lxor x y in
  let x_sub_y := u64 (x - y) in
  let x_sub_y_xor_y := Z.lxor x_sub_y y in
  let q := Z.lor x_xor_y x_sub_y_xor_y in
  let x_xor_q := Z.lxor x q in
  let x_xor_q_ := Z.shiftr x_xor_q 63 in
  u64 (x_xor_q_ - 1).

(** src/curve25519-hacl64.h:39-47 modulo_carry_top *)
Definition modulo_carry_top (b : fe) : fe :=
  Fe (u64 (f0 b + u64 (19 * Z.shiftr (f4 b) 51))) (f1 b) (f2 b) (f3 b) (Z.land (f4 b) MASK).

(** src/curve25519-hacl64.h:49-71 fproduct_copy_from_wide_ *)
Definition copy_from_wide (t : fe) : fe := Fe (u64 (f0 t)) (u64 (f1 t)) (u64 (f2 t)) (u64 (f3 t)) (u64 (f4 t)).

(** src/curve25519-hacl64.h:73-81 fproduct_sum_scalar_multiplication_ *)
Definition sum_scalar (out input : fe) (s : Z) : fe :=
  Fe (u128 (f0 out + u128 (f0 input * s))) (u128 (f1 out + u128 (f1 input * s))) (u128 (f2 out + u128 (f2 input * s)))
     (u128 (f3 out + u128 (f3 input * s))) (u128 (f4 out + u128 (f4 input * s))).

(** src/curve25519-hacl64.h:83-122 fproduct_carry_wide_ *)
Definition carry_wide (t : fe) : fe :=
  let r0 := Z.land (u64 (f0 t)) MASK in
  let t1 := u128 (f1 t + Z.shiftr (f0 t) 51) in
  let r1 := Z.land (u64 t1) MASK in
  let t2 := u128 (f2 t + Z.shiftr t1 51) in
  let r2 := Z.land (u64 t2) MASK in
  let t3 := u128 (f3 t + Z.shiftr t2 51) in
  let r3 := Z.land (u64 t3) MASK in
  let t4 := u128 (f4 t + Z.shiftr t3 51) in
  Fe r0 r1 r2 r3 t4.

(** src/curve25519-hacl64.h:124-151 fmul_shift_reduce *)
Definition shift_reduce (o : fe) : fe := Fe (u64 (19 * f4 o)) (f0 o) (f1 o) (f2 o) (f3 o).

(** src/curve25519-hacl64.h:153-181 fmul_mul_shift_reduce_, on the zero array *)
Definition mul_shift_reduce (input input21 : fe) : fe :=
  let o := sum_scalar (Fe 0 0 0 0 0) input (f0 input21) in
  let input := shift_reduce input in
  let o := sum_scalar o input (f1 input21) in
  let input := shift_reduce input in
  let o := sum_scalar o input (f2 input21) in
  let input := shift_reduce input in
  let o := sum_scalar o input (f3 input21) in
  let input := shift_reduce input in
  sum_scalar o input (f4 input21).

(** src/curve25519-hacl64.h:197-203, 255-260, 421-426: the carry of the top limb of a wide array *)
Definition wide_carry_top (t : fe) : fe :=
  Fe (u128 (f0 t + u128 (19 * u64 (Z.shiftr (f4 t) 51)))) (f1 t) (f2 t) (f3 t) (Z.land (f4 t) MASK).
(** src/curve25519-hacl64.h:205-210, 262-267, 681-686: the carry of limb 0 *)
Definition carry_0_to_1 (o : fe) : fe :=
  Fe (Z.land (f0 o) MASK) (u64 (f1 o + Z.shiftr (f0 o) 51)) (f2 o) (f3 o) (f4 o).

(** src/curve25519-hacl64.h:183-212 fmul_fmul, 430-433 fmul.  (The result is written after both inputs were read: they may be the same array.) *)
Definition fmul (input input21 : fe) : fe :=
  carry_0_to_1 (copy_from_wide (wide_carry_top (carry_wide (mul_shift_reduce input input21)))).

(** src/curve25519-hacl64.h:214-241 fsquare_fsquare__ *)
Definition fsquare_wide (o : fe) : fe :=
  let r0 := f0 o in let r1 := f1 o in let r2 := f2 o in let r3 := f3 o in let r4 := f4 o in
  let d0 := u64 (r0 * 2) in
  let d1 := u64 (r1 * 2) in
  let d2 := u64 (u64 (r2 * 2) * 19) in
  let d419 := u64 (r4 * 19) in
  let d4 := u64 (d419 * 2) in
  Fe (u128 (u128 (u128 (r0 * r0) + u128 (d4 * r1)) + u128 (d2 * r3)))
     (u128 (u128 (u128 (d0 * r1) + u128 (d4 * r2)) + u128 (u64 (r3 * 19) * r3)))
     (u128 (u128 (u128 (d0 * r2) + u128 (r1 * r1)) + u128 (d4 * r3)))
     (u128 (u128 (u128 (d0 * r3) + u128 (d1 * r2)) + u128 (r4 * d419)))
     (u128 (u128 (u128 (d0 * r4) + u128 (d1 * r3)) + u128 (r2 * r2))).
(** src/curve25519-hacl64.h:243-268 fsquare_fsquare_ *)
Definition fsquare (o : fe) : fe :=
  carry_0_to_1 (copy_from_wide (wide_carry_top (carry_wide (fsquare_wide o)))).
(** src/curve25519-hacl64.h:270-292 fsquare_fsquare_times and _inplace, for count1 >= 1: once, then for i = 1 .. count1 - 1 *)
Fixpoint fsquare_times (o : fe) (more : nat) : fe :=
  match more with O => fsquare o | S n => fsquare (fsquare_times o n) end.

(** src/curve25519-hacl64.h:294-336 crecip_crecip, 435-438 crecip: [fsquare_times x n] is n + 1 squarings. *)
Definition crecip (z : fe) : fe :=
  let a0 := fsquare_times z 0 in
  let t00 := fsquare_times a0 1 in
  let b0 := fmul t00 z in
  let a0 := fmul b0 a0 in
  let t00 := fsquare_times a0 0 in
  let b0 := fmul t00 b0 in
  let t00 := fsquare_times b0 4 in
  let b1 := fmul t00 b0 in
  let t01 := fsquare_times b1 9 in
  let c0 := fmul t01 b1 in
  let t01 := fsquare_times c0 19 in
  let t01 := fmul t01 c0 in
  let t01 := fsquare_times t01 9 in
  let b1 := fmul t01 b1 in
  let t01 := fsquare_times b1 49 in
  let c := fmul t01 b1 in
  let t0 := fsquare_times c 99 in
  let t0 := fmul t0 c in
  let t0 := fsquare_times t0 49 in
  let t0 := fmul t0 b1 in
  let t0 := fsquare_times t0 4 in
  fmul t0 a0.

(** src/curve25519-hacl64.h:338-345 fsum: the new a *)
Definition fsum (a b : fe) : fe :=
  Fe (u64 (f0 a + f0 b)) (u64 (f1 a + f1 b)) (u64 (f2 a + f2 b)) (u64 (f3 a + f3 b)) (u64 (f4 a + f4 b)).

(** src/curve25519-hacl64.h:347-391 fdifference: the new a *)
Definition fdifference (a b : fe) : fe :=
  Fe (u64 (u64 (f0 b + 0x3fffffffffff68) - f0 a)) (u64 (u64 (f1 b + 0x3ffffffffffff8) - f1 a)) (u64 (u64 (f2 b + 0x3ffffffffffff8) - f2 a))
     (u64 (u64 (f3 b + 0x3ffffffffffff8) - f3 a)) (u64 (u64 (f4 b + 0x3ffffffffffff8) - f4 a)).

(** src/curve25519-hacl64.h:393-428 fscalar *)
Definition fscalar (b : fe) (s : Z) : fe :=
  copy_from_wide (wide_carry_top (carry_wide (Fe (u128 (f0 b * s)) (u128 (f1 b * s)) (u128 (f2 b * s)) (u128 (f3 b * s)) (u128 (f4 b * s))))).

(** A point: the limbs of X and of Z. *)
Record point := Pt { px : fe; pz : fe }.

(** src/curve25519-hacl64.h:440-451 point_swap_conditional_step *)
Definition swap_step (swap1 ai bi : Z) : Z * Z :=
  let x := Z.land swap1 (Z.lxor ai bi) in (Z.lxor ai x, Z.lxor bi x).
(** src/curve25519-hacl64.h:453-460 point_swap_conditional5 *)
Definition swap5 (swap1 : Z) (a b : fe) : fe * fe :=
  let s0 := swap_step swap1 (f0 a) (f0 b) in let s1 := swap_step swap1 (f1 a) (f1 b) in let s2 := swap_step swap1 (f2 a) (f2 b) in
  let s3 := swap_step swap1 (f3 a) (f3 b) in let s4 := swap_step swap1 (f4 a) (f4 b) in
  (Fe (fst s0) (fst s1) (fst s2) (fst s3) (fst s4), Fe (snd s0) (snd s1) (snd s2) (snd s3) (snd s4)).
(** src/curve25519-hacl64.h:462-467 point_swap_conditional *)
Definition swap_points (a b : point) (iswap : Z) : point * point :=
  let swap1 := u64 (0 - iswap) in
  let x := swap5 swap1 (px a) (px b) in let z := swap5 swap1 (pz a) (pz b) in
  (Pt (fst x) (fst z), Pt (snd x) (snd z)).

(** src/curve25519-hacl64.h:475-539 addanddouble_fmonty: p and pq are changed too.  Result: pp, ppq, p, pq. *)
Definition addanddouble (p pq : point) (qx : fe) : point * point * point * point :=
  let origx := px p in
  let x := fsum (px p) (pz p) in
  let z := fdifference (pz p) origx in
  let origxprime := px pq in
  let xprime := fsum (px pq) (pz pq) in
  let zprime := fdifference (pz pq) origxprime in
  let xxprime := fmul xprime z in
  let zzprime := fmul x zprime in
  let origxprime := xxprime in
  let xxprime := fsum xxprime zzprime in
  let zzprime := fdifference zzprime origxprime in
  let x3 := fsquare_times xxprime 0 in
  let zzzprime := fsquare_times zzprime 0 in
  let z3 := fmul zzzprime qx in
  let xx := fsquare_times x 0 in
  let zz := fsquare_times z 0 in
  let x2 := fmul xx zz in
  let zz := fdifference zz xx in
  let zzz := fscalar zz 121665 in
  let zzz := fsum zzz xx in
  let z2 := fmul zzz zz in
  (Pt x2 z2, Pt x3 z3, Pt x z, Pt xprime zprime).

(** The four points of 588-592: nq, nqpq, nq2, nqpq2. *)
Record ladder := Lad { nq : point; nqpq : point; nq2 : point; nqpq2 : point }.

(** src/curve25519-hacl64.h:541-551 ladder_smallloop_cmult_small_loop_step on (nq, nqpq) -> (nq2, nqpq2); result: nq, nqpq, nq2, nqpq2 *)
Definition small_step (a b : point) (q : fe) (byt : Z) : point * point * (point * point) :=
  let s := swap_points a b (Z.shiftr byt 7) in
  let '(pp, ppq, p', pq') := addanddouble (fst s) (snd s) q in
  (p', pq', swap_points pp ppq (Z.shiftr byt 7)).
(** src/curve25519-hacl64.h:553-561 ladder_smallloop_cmult_small_loop_double_step *)
Definition double_step (l : ladder) (q : fe) (byt : Z) : ladder :=
  let '(_, _, s1) := small_step (nq l) (nqpq l) q byt in
  let byt1 := u8 (Z.shiftl byt 1) in
  let '(n2, npq2, s2) := small_step (fst s1) (snd s1) q byt1 in
  Lad (fst s2) (snd s2) n2 npq2.
(** src/curve25519-hacl64.h:563-572 ladder_smallloop_cmult_small_loop *)
Fixpoint small_loop (l : ladder) (q : fe) (byt : Z) (i : nat) : ladder :=
  match i with O => l | S n => small_loop (double_step l q byt) q (u8 (Z.shiftl byt 2)) n end.
(** src/curve25519-hacl64.h:574-584 ladder_bigloop_cmult_big_loop *)
Fixpoint big_loop (n1 : list Z) (l : ladder) (q : fe) (i : nat) : ladder :=
  match i with O => l | S n => big_loop n1 (small_loop l q (nth n n1 0) 4) q n end.
(** src/curve25519-hacl64.h:586-597 ladder_cmult *)
Definition zero_fe : fe := Fe 0 0 0 0 0.
Definition ladder_cmult (n1 : list Z) (q : point) : point :=
  nq (big_loop n1 (Lad (Pt (Fe 1 0 0 0 0) zero_fe) q (Pt zero_fe zero_fe) (Pt zero_fe zero_fe)) (px q) 32).

(** src/curve25519.c:64-69 get_unaligned_le64 at an offset. *)
Definition get_le64 (b : list Z) (off : nat) : Z := le_val (firstn 8 (skipn off b)).
(** src/curve25519-hacl64.h:599-621 format_fexpand *)
Definition fexpand (b : list Z) : fe :=
  Fe (Z.land (get_le64 b 0) MASK) (Z.land (Z.shiftr (get_le64 b 6) 3) MASK) (Z.land (Z.shiftr (get_le64 b 12) 6) MASK)
     (Z.land (Z.shiftr (get_le64 b 19) 1) MASK) (Z.land (Z.shiftr (get_le64 b 24) 12) MASK).

(** src/curve25519-hacl64.h:623-643 format_fcontract_first_carry_pass and 651-671 format_fcontract_second_carry_pass: the same code. *)
Definition carry_pass (i : fe) : fe :=
  let t1_ := u64 (f1 i + Z.shiftr (f0 i) 51) in
  let t2_ := u64 (f2 i + Z.shiftr t1_ 51) in
  let t3_ := u64 (f3 i + Z.shiftr t2_ 51) in
  let t4_ := u64 (f4 i + Z.shiftr t3_ 51) in
  Fe (Z.land (f0 i) MASK) (Z.land t1_ MASK) (Z.land t2_ MASK) (Z.land t3_ MASK) t4_.
(** src/curve25519-hacl64.h:645-649 format_fcontract_first_carry_full *)
Definition first_carry_full (i : fe) : fe := modulo_carry_top (carry_pass i).
(** src/curve25519-hacl64.h:673-687 format_fcontract_second_carry_full *)
Definition second_carry_full (i : fe) : fe := carry_0_to_1 (modulo_carry_top (carry_pass i)).
(** src/curve25519-hacl64.h:689-712 format_fcontract_trim *)
Definition trim (i : fe) : fe :=
  let mask0 := u64_gte_mask (f0 i) 0x7ffffffffffed in
  let mask1 := u64_eq_mask (f1 i) 0x7ffffffffffff in
  let mask2 := u64_eq_mask (f2 i) 0x7ffffffffffff in
  let mask3 := u64_eq_mask (f3 i) 0x7ffffffffffff in
  let mask4 := u64_eq_mask (f4 i) 0x7ffffffffffff in
  let mask := Z.land (Z.land (Z.land (Z.land mask0 mask1) mask2) mask3) mask4 in
  Fe (u64 (f0 i - Z.land 0x7ffffffffffed mask)) (u64 (f1 i - Z.land 0x7ffffffffffff mask)) (u64 (f2 i - Z.land 0x7ffffffffffff mask))
     (u64 (f3 i - Z.land 0x7ffffffffffff mask)) (u64 (f4 i - Z.land 0x7ffffffffffff mask)).
(** src/curve25519-hacl64.h:714-733 format_fcontract_store; put_unaligned_le64 is src/curve25519.c:70-74 *)
Definition store_limbs (i : fe) : list Z :=
  let o0 := Z.lor (u64 (Z.shiftl (f1 i) 51)) (f0 i) in
  let o1 := Z.lor (u64 (Z.shiftl (f2 i) 38)) (Z.shiftr (f1 i) 13) in
  let o2 := Z.lor (u64 (Z.shiftl (f3 i) 25)) (Z.shiftr (f2 i) 26) in
  let o3 := Z.lor (u64 (Z.shiftl (f4 i) 12)) (Z.shiftr (f3 i) 39) in
  le 8 o0 ++ le 8 o1 ++ le 8 o2 ++ le 8 o3.
(** src/curve25519-hacl64.h:735-741 format_fcontract *)
Definition fcontract (i : fe) : list Z := store_limbs (trim (second_carry_full (first_carry_full i))).

(** src/curve25519-hacl64.h:743-753 format_scalar_of_point *)
Definition scalar_of_point (p : point) : list Z := fcontract (fmul (px p) (crecip (pz p))).

(** src/curve25519-hacl64.h:755-784 curve25519_generic; src/curve25519.c:95-98 curve25519 *)
Definition curve25519 (secret basepoint : list Z) : list Z :=
  scalar_of_point (ladder_cmult (clamp_secret secret) (Pt (fexpand basepoint) (Fe 1 0 0 0 0))).
(** src/curve25519.c:88-93 curve25519_generate_public *)
Definition generate_public (secret : list Z) : list Z := curve25519 secret (9 :: repeat 0 31).
