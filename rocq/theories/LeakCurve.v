(** src/curve25519-hacl64.h, statement by statement, as programs of Leak.v.  Every function there is inlined or called once, none calls itself,
    so a call is written out: a pointer argument is an array and an offset into it, a local array is an array of the state under one name, and
    a value argument is the variable that holds it.  memcpy, memzero_explicit and get/put_unaligned_le64 are written out element by
    element (src/curve25519.c:64-80), for either byte order of the machine with the bytes of a number in the order le64 says. *)
From Coq Require Import String ZArith List Bool.
From Verif Require Import Base Leak.
Import ListNotations.
Open Scope string_scope.
Open Scope Z_scope.

(** A pointer: an array and an offset. *)
Definition ptr : Type := string * Z.
Definition off (p : ptr) (n : Z) : ptr := (fst p, snd p + n).
(** p[n] and p[e]; the elements of type t. *)
Definition ld (t : ctype) (p : ptr) (n : Z) : expr := At t (fst p) (Lit (snd p + n)).
Definition ld_ (t : ctype) (p : ptr) (e : expr) : expr := At t (fst p) (Bin U64 Add (Lit (snd p)) e).
Definition st (t : ctype) (p : ptr) (n : Z) (e : expr) : stmt := Put t (fst p) (Lit (snd p + n)) e.
Definition st_ (t : ctype) (p : ptr) (i e : expr) : stmt := Put t (fst p) (Bin U64 Add (Lit (snd p)) i) e.

Definition u (x : string) (e : expr) : stmt := Set_ U64 x e.
Definition w (x : string) (e : expr) : stmt := Set_ U128 x e.
Definition add := Bin U64 Add. Definition sub := Bin U64 Sub. Definition mul := Bin U64 Mul. Definition and_ := Bin U64 And.
Definition or_ := Bin U64 Or. Definition xor_ := Bin U64 Xor. Definition shl := Bin U64 Shl. Definition shr := Bin U64 Shr.
Definition wadd := Bin U128 Add. Definition wmul := Bin U128 Mul. Definition wand := Bin U128 And. Definition wshr := Bin U128 Shr.
Definition v (x : string) := Var x.
Definition l51 : expr := Lit 0x7ffffffffffff.
(** memcpy(out, in, n * sizeof(elements of type t)) and { 0 } or memzero_explicit *)
Definition copy (t : ctype) (out inp : ptr) (n : nat) : stmt := block (map (fun k => st t out (Z.of_nat k) (ld t inp (Z.of_nat k))) (List.seq 0 n)).
Definition zero (t : ctype) (out : ptr) (n : nat) : stmt := block (map (fun k => st t out (Z.of_nat k) (Lit 0)) (List.seq 0 n)).
(** while (i--) body *)
Definition while_dec (i : string) (body : stmt) : stmt :=
  Seq (While (Bin U32 Ne (Var i) (Lit 0)) (Seq (Set_ U32 i (Bin U32 Sub (Var i) (Lit 1))) body)) (Set_ U32 i (Bin U32 Sub (Var i) (Lit 1))).

(** curve25519-hacl64.h:15-23 r = u64_eq_mask(a, b) *)
Definition u64_eq_mask_ (r : string) (a b : expr) : stmt :=
  block
   [u "x" (xor_ a b);
    u "minus_x" (add (xor_ (v "x") (Lit 0xffffffffffffffff)) (Lit 1));
    u "x_or_minus_x" (or_ (v "x") (v "minus_x"));
    u "xnx" (shr (v "x_or_minus_x") (Lit 63));
    u r (sub (v "xnx") (Lit 1))].
(** curve25519-hacl64.h:25-37 r = u64_gte_mask(a, b) *)
Definition u64_gte_mask_ (r : string) (a b : expr) : stmt :=
  block
   [u "x" a; u "y" b;
    u "x_xor_y" (xor_ (v "x") (v "y"));
    u "x_sub_y" (sub (v "x") (v "y"));
    u "x_sub_y_xor_y" (xor_ (v "x_sub_y") (v "y"));
    u "q" (or_ (v "x_xor_y") (v "x_sub_y_xor_y"));
    u "x_xor_q" (xor_ (v "x") (v "q"));
    u "x_xor_q_" (shr (v "x_xor_q") (Lit 63));
    u r (sub (v "x_xor_q_") (Lit 1))].
(** curve25519-hacl64.h:39-47 *)
Definition modulo_carry_top_ (b : ptr) : stmt :=
  block
   [u "b4" (ld U64 b 4); u "b0" (ld U64 b 0);
    u "b4_" (and_ (v "b4") l51);
    u "b0_" (add (v "b0") (mul (Lit 19) (shr (v "b4") (Lit 51))));
    st U64 b 4 (v "b4_"); st U64 b 0 (v "b0_")].
(** curve25519-hacl64.h:49-71 *)
Definition copy_from_wide_ (output input : ptr) : stmt :=
  block (map (fun k => block [w "xi" (ld U128 input k); st U64 output k (Conv U64 (v "xi"))]) [0; 1; 2; 3; 4]).
(** curve25519-hacl64.h:73-81 *)
Definition sum_scalar_ (output input : ptr) (s : string) : stmt :=
  block (map (fun k => st U128 output k (wadd (ld U128 output k) (wmul (Conv U128 (ld U64 input k)) (v s)))) [0; 1; 2; 3; 4]).
(** curve25519-hacl64.h:83-122 *)
Definition carry_wide_ (tmp : ptr) : stmt :=
  block (map (fun k => block
   [Set_ U32 "ctr" (Lit k);
    w "tctr" (ld_ U128 tmp (v "ctr"));
    w "tctrp1" (ld_ U128 tmp (Bin U32 Add (v "ctr") (Lit 1)));
    u "r0" (and_ (Conv U64 (v "tctr")) l51);
    w "c" (wshr (v "tctr") (Lit 51));
    st_ U128 tmp (v "ctr") (Conv U128 (v "r0"));
    st_ U128 tmp (Bin U32 Add (v "ctr") (Lit 1)) (wadd (v "tctrp1") (v "c"))]) [0; 1; 2; 3]).
(** curve25519-hacl64.h:124-151 *)
Definition shift_reduce_ (output : ptr) : stmt :=
  block
   ([u "srtmp" (ld U64 output 4)] ++
    map (fun k => block
     [Set_ U32 "ctr" (Bin I32 Sub (Bin I32 Sub (Lit 5) (Lit k)) (Lit 1));
      u "z" (ld_ U64 output (Bin U32 Sub (v "ctr") (Lit 1)));
      st_ U64 output (v "ctr") (v "z")]) [0; 1; 2; 3] ++
    [st U64 output 0 (v "srtmp");
     u "b0" (ld U64 output 0);
     st U64 output 0 (mul (Lit 19) (v "b0"))]).
(** curve25519-hacl64.h:153-181 *)
Definition mul_shift_reduce_ (output input input21 : ptr) : stmt :=
  block
   (map (fun k => block [u "input2i" (ld U64 input21 k); sum_scalar_ output input "input2i"; shift_reduce_ input]) [0; 1; 2; 3] ++
    [Set_ U32 "msri" (Lit 4);
     u "input2i" (ld_ U64 input21 (v "msri"));
     sum_scalar_ output input "input2i"]).
(** curve25519-hacl64.h:198-203, 255-260 and 421-426: the top of the wide product into its bottom; then 205-210 and 262-267, the first limb into the second *)
Definition wide_carry_top_ (t : ptr) : stmt :=
  block
   [w "wb4" (ld U128 t 4); w "wb0" (ld U128 t 0);
    w "wb4_" (wand (v "wb4") (Conv U128 l51));
    w "wb0_" (wadd (v "wb0") (wmul (Conv U128 (Lit 19)) (Conv U64 (wshr (v "wb4") (Lit 51)))));
    st U128 t 4 (v "wb4_"); st U128 t 0 (v "wb0_")].
Definition carry_0_to_1_ (output : ptr) : stmt :=
  block
   [u "i0" (ld U64 output 0); u "i1" (ld U64 output 1);
    u "i0_" (and_ (v "i0") l51);
    u "i1_" (add (v "i1") (shr (v "i0") (Lit 51)));
    st U64 output 0 (v "i0_"); st U64 output 1 (v "i1_")].
(** curve25519-hacl64.h:183-212; tmp[5] is the array "fmtmp", t[5] the array "fmt" *)
Definition fmul_ (output input input21 : ptr) : stmt :=
  block
   [copy U64 ("fmtmp", 0) input 5;
    zero U128 ("fmt", 0) 5;
    mul_shift_reduce_ ("fmt", 0) ("fmtmp", 0) input21;
    carry_wide_ ("fmt", 0);
    wide_carry_top_ ("fmt", 0);
    copy_from_wide_ output ("fmt", 0);
    carry_0_to_1_ output].
(** curve25519-hacl64.h:214-241 *)
Definition fsquare__ (tmp output : ptr) : stmt :=
  let m a b := wmul (Conv U128 a) b in
  block
   [u "r0" (ld U64 output 0); u "r1" (ld U64 output 1); u "r2" (ld U64 output 2); u "r3" (ld U64 output 3); u "r4" (ld U64 output 4);
    u "d0" (mul (v "r0") (Lit 2));
    u "d1" (mul (v "r1") (Lit 2));
    u "d2" (mul (mul (v "r2") (Lit 2)) (Lit 19));
    u "d419" (mul (v "r4") (Lit 19));
    u "d4" (mul (v "d419") (Lit 2));
    w "s0" (wadd (wadd (m (v "r0") (v "r0")) (m (v "d4") (v "r1"))) (m (v "d2") (v "r3")));
    w "s1" (wadd (wadd (m (v "d0") (v "r1")) (m (v "d4") (v "r2"))) (m (mul (v "r3") (Lit 19)) (v "r3")));
    w "s2" (wadd (wadd (m (v "d0") (v "r2")) (m (v "r1") (v "r1"))) (m (v "d4") (v "r3")));
    w "s3" (wadd (wadd (m (v "d0") (v "r3")) (m (v "d1") (v "r2"))) (m (v "r4") (v "d419")));
    w "s4" (wadd (wadd (m (v "d0") (v "r4")) (m (v "d1") (v "r3"))) (m (v "r2") (v "r2")));
    st U128 tmp 0 (v "s0"); st U128 tmp 1 (v "s1"); st U128 tmp 2 (v "s2"); st U128 tmp 3 (v "s3"); st U128 tmp 4 (v "s4")].
(** curve25519-hacl64.h:243-268 *)
Definition fsquare_ (tmp output : ptr) : stmt :=
  block
   [fsquare__ tmp output;
    carry_wide_ tmp;
    wide_carry_top_ tmp;
    copy_from_wide_ output tmp;
    carry_0_to_1_ output].
(** curve25519-hacl64.h:270-277 *)
Definition fsquare_times_ (output tmp : ptr) (count1 : Z) : stmt :=
  block
   [fsquare_ tmp output;
    Set_ U32 "fsi" (Lit 1);
    While (Bin U32 Lt (v "fsi") (Lit count1)) (Seq (fsquare_ tmp output) (Set_ U32 "fsi" (Bin U32 Add (v "fsi") (Lit 1))))].
(** curve25519-hacl64.h:279-292; t[5] is the array "fst", uninitialised *)
Definition fsquare_times (output input : ptr) (count1 : Z) : stmt :=
  block [copy U64 output input 5; fsquare_times_ output ("fst", 0) count1].
Definition fsquare_times_inplace (output : ptr) (count1 : Z) : stmt := fsquare_times_ output ("fst", 0) count1.
(** curve25519-hacl64.h:294-336; buf[20] is the array "rbuf" *)
Definition crecip_ (out z : ptr) : stmt :=
  let a := ("rbuf", 0) in let t := ("rbuf", 5) in let b := ("rbuf", 10) in let c := ("rbuf", 15) in
  block
   [zero U64 ("rbuf", 0) 20;
    fsquare_times a z 1;
    fsquare_times t a 2;
    fmul_ b t z;
    fmul_ a b a;
    fsquare_times t a 1;
    fmul_ b t b;
    fsquare_times t b 5;
    fmul_ b t b;
    fsquare_times t b 10;
    fmul_ c t b;
    fsquare_times t c 20;
    fmul_ t t c;
    fsquare_times_inplace t 10;
    fmul_ b t b;
    fsquare_times t b 50;
    fmul_ c t b;
    fsquare_times t c 100;
    fmul_ t t c;
    fsquare_times_inplace t 50;
    fmul_ t t b;
    fsquare_times_inplace t 5;
    fmul_ out t a].
(** curve25519-hacl64.h:338-345 *)
Definition fsum_ (a b : ptr) : stmt := block (map (fun k => st U64 a k (add (ld U64 a k) (ld U64 b k))) [0; 1; 2; 3; 4]).
(** curve25519-hacl64.h:347-391; tmp[5] is the array "fdtmp" *)
Definition fdifference_ (a b : ptr) : stmt :=
  let tmp := ("fdtmp", 0) in
  block
   ([zero U64 tmp 5;
     copy U64 tmp b 5;
     u "b0" (ld U64 tmp 0); u "b1" (ld U64 tmp 1); u "b2" (ld U64 tmp 2); u "b3" (ld U64 tmp 3); u "b4" (ld U64 tmp 4);
     st U64 tmp 0 (add (v "b0") (Lit 0x3fffffffffff68));
     st U64 tmp 1 (add (v "b1") (Lit 0x3ffffffffffff8));
     st U64 tmp 2 (add (v "b2") (Lit 0x3ffffffffffff8));
     st U64 tmp 3 (add (v "b3") (Lit 0x3ffffffffffff8));
     st U64 tmp 4 (add (v "b4") (Lit 0x3ffffffffffff8))] ++
    map (fun k => block [u "fxi" (ld U64 a k); u "fyi" (ld U64 tmp k); st U64 a k (sub (v "fyi") (v "fxi"))]) [0; 1; 2; 3; 4]).
(** curve25519-hacl64.h:393-428; tmp[5] is the array "fctmp", uninitialised *)
Definition fscalar_ (output b : ptr) (s : string) : stmt :=
  let tmp := ("fctmp", 0) in
  block
   [block (map (fun k => block [u "fxi" (ld U64 b k); st U128 tmp k (wmul (Conv U128 (v "fxi")) (v s))]) [0; 1; 2; 3; 4]);
    carry_wide_ tmp;
    wide_carry_top_ tmp;
    copy_from_wide_ output tmp].
(** curve25519-hacl64.h:440-451 *)
Definition swap_step_ (a b : ptr) (swap1 : string) (ctr : Z) : stmt :=
  block
   [Set_ U32 "swi" (Bin U32 Sub (Lit ctr) (Lit 1));
    u "ai" (ld_ U64 a (v "swi")); u "bi" (ld_ U64 b (v "swi"));
    u "swx" (and_ (v swap1) (xor_ (v "ai") (v "bi")));
    u "ai1" (xor_ (v "ai") (v "swx"));
    u "bi1" (xor_ (v "bi") (v "swx"));
    st_ U64 a (v "swi") (v "ai1"); st_ U64 b (v "swi") (v "bi1")].
(** curve25519-hacl64.h:453-460 *)
Definition swap5_ (a b : ptr) (swap1 : string) : stmt := block (map (swap_step_ a b swap1) [5; 4; 3; 2; 1]).
(** curve25519-hacl64.h:462-467 *)
Definition swap_points_ (a b : ptr) (iswap : string) : stmt :=
  block [u "swap1" (sub (Lit 0) (v iswap)); swap5_ a b "swap1"; swap5_ (off a 5) (off b 5) "swap1"].
(** curve25519-hacl64.h:469-473 *)
Definition point_copy_ (output input : ptr) : stmt := block [copy U64 output input 5; copy U64 (off output 5) (off input 5) 5].
(** curve25519-hacl64.h:475-539; buf[40] is the array "abuf" *)
Definition addanddouble_ (pp ppq p pq qmqp : ptr) : stmt :=
  let b n := ("abuf", n) in
  let x := p in let z := off p 5 in let xprime := pq in let zprime := off pq 5 in
  block
   [zero U64 (b 0) 40;
    copy U64 (b 0) x 5;
    fsum_ x z;
    fdifference_ z (b 0);
    copy U64 (b 5) xprime 5;
    fsum_ xprime zprime;
    fdifference_ zprime (b 5);
    fmul_ (b 25) xprime z;
    fmul_ (b 30) x zprime;
    copy U64 (b 5) (b 25) 5;
    fsum_ (b 25) (b 30);
    fdifference_ (b 30) (b 5);
    fsquare_times ppq (b 25) 1;
    fsquare_times (b 35) (b 30) 1;
    fmul_ (off ppq 5) (b 35) qmqp;
    fsquare_times (b 15) x 1;
    fsquare_times (b 20) z 1;
    fmul_ pp (b 15) (b 20);
    fdifference_ (b 20) (b 15);
    block [u "scalar" (Lit 121665); fscalar_ (b 10) (b 20) "scalar"];
    fsum_ (b 10) (b 15);
    fmul_ (off pp 5) (b 10) (b 20)].
(** curve25519-hacl64.h:541-551 *)
Definition small_step_ (nq nqpq nq2 nqpq2 q : ptr) (byt : string) : stmt :=
  block
   [u "bit0" (Conv U64 (Bin I32 Shr (v byt) (Lit 7)));
    swap_points_ nq nqpq "bit0";
    addanddouble_ nq2 nqpq2 nq nqpq q;
    u "bit" (Conv U64 (Bin I32 Shr (v byt) (Lit 7)));
    swap_points_ nq2 nqpq2 "bit"].
(** curve25519-hacl64.h:553-561 *)
Definition double_step_ (nq nqpq nq2 nqpq2 q : ptr) (byt : string) : stmt :=
  block
   [small_step_ nq nqpq nq2 nqpq2 q byt;
    Set_ U8 "byt1" (Bin I32 Shl (v byt) (Lit 1));
    small_step_ nq2 nqpq2 nq nqpq q "byt1"].
(** curve25519-hacl64.h:563-572, called with byt = byte and i = 4 *)
Definition small_loop_ (nq nqpq nq2 nqpq2 q : ptr) : stmt :=
  while_dec "sli" (block [double_step_ nq nqpq nq2 nqpq2 q "byt"; Set_ U8 "byt" (Bin I32 Shl (v "byt") (Lit 2))]).
(** curve25519-hacl64.h:574-584 *)
Definition big_loop_ (n1 nq nqpq nq2 nqpq2 q : ptr) : stmt :=
  while_dec "bli" (block
   [Set_ U8 "byte" (ld_ U8 n1 (v "bli"));
    Set_ U8 "byt" (v "byte"); Set_ U32 "sli" (Lit 4);
    small_loop_ nq nqpq nq2 nqpq2 q]).
(** curve25519-hacl64.h:586-597; point_buf[40] is the array "pbuf" *)
Definition ladder_cmult_ (result n1 q : ptr) : stmt :=
  let nq := ("pbuf", 0) in let nqpq := ("pbuf", 10) in let nq2 := ("pbuf", 20) in let nqpq2 := ("pbuf", 30) in
  block
   [zero U64 nq 40;
    point_copy_ nqpq q;
    st U64 nq 0 (Lit 1);
    Set_ U32 "bli" (Lit 32);
    big_loop_ n1 nq nqpq nq2 nqpq2 q;
    point_copy_ result nq].
(** src/curve25519.c:64-74 *)
Definition le64_of (p : ptr) : expr :=
  fold_left (fun e k => or_ e (shl (Conv U64 (ld U8 p k)) (Lit (8 * k)))) [1; 2; 3; 4; 5; 6; 7] (Conv U64 (ld U8 p 0)).
Definition put_le64_ (s : string) (d : ptr) : stmt :=
  block (map (fun k => st U8 d k (Conv U8 (shr (v s) (Lit (8 * k))))) [0; 1; 2; 3; 4; 5; 6; 7]).
(** curve25519-hacl64.h:599-621 *)
Definition fexpand_ (output input : ptr) : stmt :=
  block
   [u "fi0" (le64_of input); u "fi1" (le64_of (off input 6)); u "fi2" (le64_of (off input 12)); u "fi3" (le64_of (off input 19)); u "fi4" (le64_of (off input 24));
    u "output0" (and_ (v "fi0") l51);
    u "output1" (and_ (shr (v "fi1") (Lit 3)) l51);
    u "output2" (and_ (shr (v "fi2") (Lit 6)) l51);
    u "output3" (and_ (shr (v "fi3") (Lit 1)) l51);
    u "output4" (and_ (shr (v "fi4") (Lit 12)) l51);
    st U64 output 0 (v "output0"); st U64 output 1 (v "output1"); st U64 output 2 (v "output2"); st U64 output 3 (v "output3"); st U64 output 4 (v "output4")].
(** curve25519-hacl64.h:623-643 and 651-671, the same text twice *)
Definition carry_pass_ (input : ptr) : stmt :=
  block
   [u "t0" (ld U64 input 0); u "t1" (ld U64 input 1); u "t2" (ld U64 input 2); u "t3" (ld U64 input 3); u "t4" (ld U64 input 4);
    u "t1_" (add (v "t1") (shr (v "t0") (Lit 51)));
    u "t0_" (and_ (v "t0") l51);
    u "t2_" (add (v "t2") (shr (v "t1_") (Lit 51)));
    u "t1__" (and_ (v "t1_") l51);
    u "t3_" (add (v "t3") (shr (v "t2_") (Lit 51)));
    u "t2__" (and_ (v "t2_") l51);
    u "t4_" (add (v "t4") (shr (v "t3_") (Lit 51)));
    u "t3__" (and_ (v "t3_") l51);
    st U64 input 0 (v "t0_"); st U64 input 1 (v "t1__"); st U64 input 2 (v "t2__"); st U64 input 3 (v "t3__"); st U64 input 4 (v "t4_")].
(** curve25519-hacl64.h:645-649 *)
Definition first_carry_full_ (input : ptr) : stmt := block [carry_pass_ input; modulo_carry_top_ input].
(** curve25519-hacl64.h:673-687 *)
Definition second_carry_full_ (input : ptr) : stmt := block [carry_pass_ input; modulo_carry_top_ input; carry_0_to_1_ input].
(** curve25519-hacl64.h:689-712 *)
Definition trim_ (input : ptr) : stmt :=
  block
   [u "a0" (ld U64 input 0); u "a1" (ld U64 input 1); u "a2" (ld U64 input 2); u "a3" (ld U64 input 3); u "a4" (ld U64 input 4);
    u64_gte_mask_ "mask0" (v "a0") (Lit 0x7ffffffffffed);
    u64_eq_mask_ "mask1" (v "a1") l51;
    u64_eq_mask_ "mask2" (v "a2") l51;
    u64_eq_mask_ "mask3" (v "a3") l51;
    u64_eq_mask_ "mask4" (v "a4") l51;
    u "mask" (and_ (and_ (and_ (and_ (v "mask0") (v "mask1")) (v "mask2")) (v "mask3")) (v "mask4"));
    u "a0_" (sub (v "a0") (and_ (Lit 0x7ffffffffffed) (v "mask")));
    u "a1_" (sub (v "a1") (and_ l51 (v "mask")));
    u "a2_" (sub (v "a2") (and_ l51 (v "mask")));
    u "a3_" (sub (v "a3") (and_ l51 (v "mask")));
    u "a4_" (sub (v "a4") (and_ l51 (v "mask")));
    st U64 input 0 (v "a0_"); st U64 input 1 (v "a1_"); st U64 input 2 (v "a2_"); st U64 input 3 (v "a3_"); st U64 input 4 (v "a4_")].
(** curve25519-hacl64.h:714-733 *)
Definition fcontract_store_ (output input : ptr) : stmt :=
  block
   [u "t0" (ld U64 input 0); u "t1" (ld U64 input 1); u "t2" (ld U64 input 2); u "t3" (ld U64 input 3); u "t4" (ld U64 input 4);
    u "o0" (or_ (shl (v "t1") (Lit 51)) (v "t0"));
    u "o1" (or_ (shl (v "t2") (Lit 38)) (shr (v "t1") (Lit 13)));
    u "o2" (or_ (shl (v "t3") (Lit 25)) (shr (v "t2") (Lit 26)));
    u "o3" (or_ (shl (v "t4") (Lit 12)) (shr (v "t3") (Lit 39)));
    put_le64_ "o0" output; put_le64_ "o1" (off output 8); put_le64_ "o2" (off output 16); put_le64_ "o3" (off output 24)].
(** curve25519-hacl64.h:735-741 *)
Definition fcontract_ (output input : ptr) : stmt :=
  block [first_carry_full_ input; second_carry_full_ input; trim_ input; fcontract_store_ output input].
(** curve25519-hacl64.h:743-753; buf[10] is the array "zbuf" *)
Definition scalar_of_point_ (scalar point : ptr) : stmt :=
  block
   [zero U64 ("zbuf", 0) 10;
    crecip_ ("zbuf", 0) (off point 5);
    fmul_ ("zbuf", 5) point ("zbuf", 0);
    fcontract_ scalar ("zbuf", 5)].
(** src/curve25519.h:18-22 *)
Definition clamp_secret_ (secret : ptr) : stmt :=
  block
   [st U8 secret 0 (Bin I32 And (ld U8 secret 0) (Lit 248));
    st U8 secret 31 (Bin I32 Or (Bin I32 And (ld U8 secret 31) (Lit 127)) (Lit 64))].
(** curve25519-hacl64.h:755-784 and src/curve25519.c:95-98 *)
Definition curve25519_ (mypublic secret basepoint : ptr) : stmt :=
  block
   [zero U64 ("buf0", 0) 10;
    fexpand_ ("buf0", 0) basepoint;
    st U64 ("buf0", 5) 0 (Lit 1);
    zero U8 ("e", 0) 32;
    copy U8 ("e", 0) secret 32;
    clamp_secret_ ("e", 0);
    zero U64 ("buf", 0) 15;
    st U64 ("buf", 0) 0 (Lit 1);
    ladder_cmult_ ("buf", 0) ("e", 0) ("buf0", 0);
    scalar_of_point_ mypublic ("buf", 0);
    zero U64 ("buf", 0) 15;
    zero U8 ("e", 0) 32;
    zero U64 ("buf0", 0) 10].
