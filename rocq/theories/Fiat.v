(** Model of src/curve25519-fiat32.h (the implementation used where the compiler has no 128-bit integers).  Arrays of ten limbs (struct fe and
    struct fe_loose) are values of type [fx]; every operation on u32 and u64 wraps.  The clearing of buffers with memzero_explicit is not modelled. *)
From Coq Require Import ZArith List Bool.
From Verif Require Import Base NlSpec Keys.
Import ListNotations.
Open Scope Z_scope.

(** src/curve25519-fiat32.h:19-24 *)
Record fx := Fx { g0 : Z; g1 : Z; g2 : Z; g3 : Z; g4 : Z; g5 : Z; g6 : Z; g7 : Z; g8 : Z; g9 : Z }.
(** The operators of C at type u32 (w) and u64 (l). *)
Declare Scope fiat_scope.
Notation "a +w b" := (u32 (a + b)) (at level 50, left associativity) : fiat_scope.
Notation "a -w b" := (u32 (a - b)) (at level 50, left associativity) : fiat_scope.
Notation "a *w b" := (u32 (a * b)) (at level 40, left associativity) : fiat_scope.
Notation "a <<w b" := (u32 (Z.shiftl a b)) (at level 45, left associativity) : fiat_scope.
Notation "a +l b" := (u64 (a + b)) (at level 50, left associativity) : fiat_scope.
Notation "a *l b" := (u64 (a * b)) (at level 40, left associativity) : fiat_scope.
Notation "a <<l b" := (u64 (Z.shiftl a b)) (at level 45, left associativity) : fiat_scope.
Open Scope fiat_scope.

(** src/curve25519.c:58-63 get_unaligned_le32 at an offset *)
Definition get_le32 (s : list Z) (off : nat) : Z := le_val (firstn 4 (skipn off s)).
(** src/curve25519-fiat32.h:26-52 fe_frombytes_impl, fe_frombytes *)
Definition fe_frombytes (s : list Z) : fx :=
  let a0 := get_le32 s 0 in let a1 := get_le32 s 4 in let a2 := get_le32 s 8 in let a3 := get_le32 s 12 in
  let a4 := get_le32 s 16 in let a5 := get_le32 s 20 in let a6 := get_le32 s 24 in let a7 := get_le32 s 28 in
  Fx (Z.land a0 (Z.shiftl 1 26 - 1))
     (Z.lor (Z.shiftr a0 26) (Z.land a1 (Z.shiftl 1 19 - 1) <<w 6))
     (Z.lor (Z.shiftr a1 19) (Z.land a2 (Z.shiftl 1 13 - 1) <<w 13))
     (Z.lor (Z.shiftr a2 13) (Z.land a3 (Z.shiftl 1 6 - 1) <<w 19))
     (Z.shiftr a3 6)
     (Z.land a4 (Z.shiftl 1 25 - 1))
     (Z.lor (Z.shiftr a4 25) (Z.land a5 (Z.shiftl 1 19 - 1) <<w 7))
     (Z.lor (Z.shiftr a5 19) (Z.land a6 (Z.shiftl 1 12 - 1) <<w 13))
     (Z.lor (Z.shiftr a6 12) (Z.land a7 (Z.shiftl 1 6 - 1) <<w 20))
     (Z.land (Z.shiftr a7 6) (Z.shiftl 1 25 - 1)).

(** src/curve25519-fiat32.h:54-74 addcarryx_u25 and addcarryx_u26: what *low becomes, and the result *)
Definition addcarryx_u25 (c a b : Z) : Z * Z := let x := a +w b +w c in (Z.land x (Z.shiftl 1 25 - 1), Z.land (Z.shiftr x 25) 1).
Definition addcarryx_u26 (c a b : Z) : Z * Z := let x := a +w b +w c in (Z.land x (Z.shiftl 1 26 - 1), Z.land (Z.shiftr x 26) 1).
(** src/curve25519-fiat32.h:76-96 subborrow_u25 and subborrow_u26 *)
Definition subborrow_u25 (c a b : Z) : Z * Z := let x := a -w b -w c in (Z.land x (Z.shiftl 1 25 - 1), u8 (Z.shiftr x 31)).
Definition subborrow_u26 (c a b : Z) : Z * Z := let x := a -w b -w c in (Z.land x (Z.shiftl 1 26 - 1), u8 (Z.shiftr x 31)).
(** src/curve25519-fiat32.h:98-102 cmovznz32: -!!t is an int, converted to u32; ~t is 2^32 - 1 - t *)
Definition cmovznz32 (t z nz : Z) : Z :=
  let t := u32 (- (if t =? 0 then 0 else 1)) in
  Z.lor (Z.land t nz) (Z.land (2 ^ 32 - 1 - t) z).

(** src/curve25519-fiat32.h:104-158 fe_freeze *)
Definition fe_freeze (in1 : fx) : fx :=
  let x17 := g9 in1 in let x18 := g8 in1 in let x16 := g7 in1 in let x14 := g6 in1 in let x12 := g5 in1 in
  let x10 := g4 in1 in let x8 := g3 in1 in let x6 := g2 in1 in let x4 := g1 in1 in let x2 := g0 in1 in
  let (x20, x21) := subborrow_u26 0 x2 0x3ffffed in
  let (x23, x24) := subborrow_u25 x21 x4 0x1ffffff in
  let (x26, x27) := subborrow_u26 x24 x6 0x3ffffff in
  let (x29, x30) := subborrow_u25 x27 x8 0x1ffffff in
  let (x32, x33) := subborrow_u26 x30 x10 0x3ffffff in
  let (x35, x36) := subborrow_u25 x33 x12 0x1ffffff in
  let (x38, x39) := subborrow_u26 x36 x14 0x3ffffff in
  let (x41, x42) := subborrow_u25 x39 x16 0x1ffffff in
  let (x44, x45) := subborrow_u26 x42 x18 0x3ffffff in
  let (x47, x48) := subborrow_u25 x45 x17 0x1ffffff in
  let x49 := cmovznz32 x48 0 0xffffffff in
  let x50 := Z.land x49 0x3ffffed in
  let (x52, x53) := addcarryx_u26 0 x20 x50 in
  let x54 := Z.land x49 0x1ffffff in
  let (x56, x57) := addcarryx_u25 x53 x23 x54 in
  let x58 := Z.land x49 0x3ffffff in
  let (x60, x61) := addcarryx_u26 x57 x26 x58 in
  let x62 := Z.land x49 0x1ffffff in
  let (x64, x65) := addcarryx_u25 x61 x29 x62 in
  let x66 := Z.land x49 0x3ffffff in
  let (x68, x69) := addcarryx_u26 x65 x32 x66 in
  let x70 := Z.land x49 0x1ffffff in
  let (x72, x73) := addcarryx_u25 x69 x35 x70 in
  let x74 := Z.land x49 0x3ffffff in
  let (x76, x77) := addcarryx_u26 x73 x38 x74 in
  let x78 := Z.land x49 0x1ffffff in
  let (x80, x81) := addcarryx_u25 x77 x41 x78 in
  let x82 := Z.land x49 0x3ffffff in
  let (x84, x85) := addcarryx_u26 x81 x44 x82 in
  let x86 := Z.land x49 0x1ffffff in
  let (x88, _) := addcarryx_u25 x85 x47 x86 in
  Fx x52 x56 x60 x64 x68 x72 x76 x80 x84 x88.

(** src/curve25519-fiat32.h:160-196 fe_tobytes: every assignment to s[i] converts to u8 *)
Definition fe_tobytes (f : fx) : list Z :=
  let h := fe_freeze f in
  map u8
   [Z.shiftr (g0 h) 0; Z.shiftr (g0 h) 8; Z.shiftr (g0 h) 16; Z.lor (Z.shiftr (g0 h) 24) (g1 h <<w 2);
    Z.shiftr (g1 h) 6; Z.shiftr (g1 h) 14; Z.lor (Z.shiftr (g1 h) 22) (g2 h <<w 3);
    Z.shiftr (g2 h) 5; Z.shiftr (g2 h) 13; Z.lor (Z.shiftr (g2 h) 21) (g3 h <<w 5);
    Z.shiftr (g3 h) 3; Z.shiftr (g3 h) 11; Z.lor (Z.shiftr (g3 h) 19) (g4 h <<w 6);
    Z.shiftr (g4 h) 2; Z.shiftr (g4 h) 10; Z.shiftr (g4 h) 18;
    Z.shiftr (g5 h) 0; Z.shiftr (g5 h) 8; Z.shiftr (g5 h) 16; Z.lor (Z.shiftr (g5 h) 24) (g6 h <<w 1);
    Z.shiftr (g6 h) 7; Z.shiftr (g6 h) 15; Z.lor (Z.shiftr (g6 h) 23) (g7 h <<w 3);
    Z.shiftr (g7 h) 5; Z.shiftr (g7 h) 13; Z.lor (Z.shiftr (g7 h) 21) (g8 h <<w 4);
    Z.shiftr (g8 h) 4; Z.shiftr (g8 h) 12; Z.lor (Z.shiftr (g8 h) 20) (g9 h <<w 6);
    Z.shiftr (g9 h) 2; Z.shiftr (g9 h) 10; Z.shiftr (g9 h) 18].

(** src/curve25519-fiat32.h:209-220 fe_0 and fe_1 *)
Definition fe_0 : fx := Fx 0 0 0 0 0 0 0 0 0 0.
Definition fe_1 : fx := Fx 1 0 0 0 0 0 0 0 0 0.

(** src/curve25519-fiat32.h:222-263 fe_add_impl, fe_add *)
Definition fe_add (in1 in2 : fx) : fx :=
  Fx (g0 in1 +w g0 in2) (g1 in1 +w g1 in2) (g2 in1 +w g2 in2) (g3 in1 +w g3 in2) (g4 in1 +w g4 in2)
     (g5 in1 +w g5 in2) (g6 in1 +w g6 in2) (g7 in1 +w g7 in2) (g8 in1 +w g8 in2) (g9 in1 +w g9 in2).
(** src/curve25519-fiat32.h:265-306 fe_sub_impl, fe_sub *)
Definition fe_sub (in1 in2 : fx) : fx :=
  Fx (0x7ffffda +w g0 in1 -w g0 in2) (0x3fffffe +w g1 in1 -w g1 in2) (0x7fffffe +w g2 in1 -w g2 in2) (0x3fffffe +w g3 in1 -w g3 in2)
     (0x7fffffe +w g4 in1 -w g4 in2) (0x3fffffe +w g5 in1 -w g5 in2) (0x7fffffe +w g6 in1 -w g6 in2) (0x3fffffe +w g7 in1 -w g7 in2)
     (0x7fffffe +w g8 in1 -w g8 in2) (0x3fffffe +w g9 in1 -w g9 in2).

(** src/curve25519-fiat32.h:349-421 (in fe_mul_impl), 471-543 (in fe_sqr_impl, the same code with the numbers of the variables lower by 21) and
    672-744 (in fe_mul_121666_impl, the same text): the columns of the product are folded by 2^255 = 19 and carried. *)
Definition fold_and_carry (x40 x41 x42 x43 x44 x45 x46 x47 x48 x49 x50 x51 x52 x53 x54 x55 x56 x57 x58 : Z) : fx :=
  let x59 := x48 +l (x58 <<l 4) in
  let x60 := x59 +l (x58 <<l 1) in
  let x61 := x60 +l x58 in
  let x62 := x47 +l (x57 <<l 4) in
  let x63 := x62 +l (x57 <<l 1) in
  let x64 := x63 +l x57 in
  let x65 := x46 +l (x56 <<l 4) in
  let x66 := x65 +l (x56 <<l 1) in
  let x67 := x66 +l x56 in
  let x68 := x45 +l (x55 <<l 4) in
  let x69 := x68 +l (x55 <<l 1) in
  let x70 := x69 +l x55 in
  let x71 := x44 +l (x54 <<l 4) in
  let x72 := x71 +l (x54 <<l 1) in
  let x73 := x72 +l x54 in
  let x74 := x43 +l (x53 <<l 4) in
  let x75 := x74 +l (x53 <<l 1) in
  let x76 := x75 +l x53 in
  let x77 := x42 +l (x52 <<l 4) in
  let x78 := x77 +l (x52 <<l 1) in
  let x79 := x78 +l x52 in
  let x80 := x41 +l (x51 <<l 4) in
  let x81 := x80 +l (x51 <<l 1) in
  let x82 := x81 +l x51 in
  let x83 := x40 +l (x50 <<l 4) in
  let x84 := x83 +l (x50 <<l 1) in
  let x85 := x84 +l x50 in
  let x86 := Z.shiftr x85 26 in
  let x87 := Z.land (u32 x85) 0x3ffffff in
  let x88 := x86 +l x82 in
  let x89 := Z.shiftr x88 25 in
  let x90 := Z.land (u32 x88) 0x1ffffff in
  let x91 := x89 +l x79 in
  let x92 := Z.shiftr x91 26 in
  let x93 := Z.land (u32 x91) 0x3ffffff in
  let x94 := x92 +l x76 in
  let x95 := Z.shiftr x94 25 in
  let x96 := Z.land (u32 x94) 0x1ffffff in
  let x97 := x95 +l x73 in
  let x98 := Z.shiftr x97 26 in
  let x99 := Z.land (u32 x97) 0x3ffffff in
  let x100 := x98 +l x70 in
  let x101 := Z.shiftr x100 25 in
  let x102 := Z.land (u32 x100) 0x1ffffff in
  let x103 := x101 +l x67 in
  let x104 := Z.shiftr x103 26 in
  let x105 := Z.land (u32 x103) 0x3ffffff in
  let x106 := x104 +l x64 in
  let x107 := Z.shiftr x106 25 in
  let x108 := Z.land (u32 x106) 0x1ffffff in
  let x109 := x107 +l x61 in
  let x110 := Z.shiftr x109 26 in
  let x111 := Z.land (u32 x109) 0x3ffffff in
  let x112 := x110 +l x49 in
  let x113 := Z.shiftr x112 25 in
  let x114 := Z.land (u32 x112) 0x1ffffff in
  let x115 := x87 +l (19 *l x113) in
  let x116 := u32 (Z.shiftr x115 26) in
  let x117 := Z.land (u32 x115) 0x3ffffff in
  let x118 := x116 +w x90 in
  let x119 := Z.shiftr x118 25 in
  let x120 := Z.land x118 0x1ffffff in
  Fx x117 x120 (x119 +w x93) x96 x99 x102 x105 x108 x111 x114.

(** src/curve25519-fiat32.h:308-422 fe_mul_impl; 424-438 fe_mul_ttt, fe_mul_tlt and fe_mul_tll call it.  (The result is written after both inputs
    were read: they may be the same array.) *)
Definition fe_mul_impl (in1 in2 : fx) : fx :=
  let x20 := g9 in1 in let x21 := g8 in1 in let x19 := g7 in1 in let x17 := g6 in1 in let x15 := g5 in1 in
  let x13 := g4 in1 in let x11 := g3 in1 in let x9 := g2 in1 in let x7 := g1 in1 in let x5 := g0 in1 in
  let x38 := g9 in2 in let x39 := g8 in2 in let x37 := g7 in2 in let x35 := g6 in2 in let x33 := g5 in2 in
  let x31 := g4 in2 in let x29 := g3 in2 in let x27 := g2 in2 in let x25 := g1 in2 in let x23 := g0 in2 in
  let x40 := x23 *l x5 in
  let x41 := (x23 *l x7) +l (x25 *l x5) in
  let x42 := (((2 *w x25) *l x7) +l (x23 *l x9)) +l (x27 *l x5) in
  let x43 := (((x25 *l x9) +l (x27 *l x7)) +l (x23 *l x11)) +l (x29 *l x5) in
  let x44 := (((x27 *l x9) +l (2 *l ((x25 *l x11) +l (x29 *l x7)))) +l (x23 *l x13)) +l (x31 *l x5) in
  let x45 := (((((x27 *l x11) +l (x29 *l x9)) +l (x25 *l x13)) +l (x31 *l x7)) +l (x23 *l x15)) +l (x33 *l x5) in
  let x46 := ((((2 *l (((x29 *l x11) +l (x25 *l x15)) +l (x33 *l x7))) +l (x27 *l x13)) +l (x31 *l x9)) +l (x23 *l x17)) +l (x35 *l x5) in
  let x47 := (((((((x29 *l x13) +l (x31 *l x11)) +l (x27 *l x15)) +l (x33 *l x9)) +l (x25 *l x17)) +l (x35 *l x7)) +l (x23 *l x19)) +l (x37 *l x5) in
  let x48 := (((((x31 *l x13) +l (2 *l ((((x29 *l x15) +l (x33 *l x11)) +l (x25 *l x19)) +l (x37 *l x7)))) +l (x27 *l x17)) +l (x35 *l x9)) +l (x23 *l x21)) +l (x39 *l x5) in
  let x49 := (((((((((x31 *l x15) +l (x33 *l x13)) +l (x29 *l x17)) +l (x35 *l x11)) +l (x27 *l x19)) +l (x37 *l x9)) +l (x25 *l x21)) +l (x39 *l x7)) +l (x23 *l x20)) +l (x38 *l x5) in
  let x50 := ((((2 *l (((((x33 *l x15) +l (x29 *l x19)) +l (x37 *l x11)) +l (x25 *l x20)) +l (x38 *l x7))) +l (x31 *l x17)) +l (x35 *l x13)) +l (x27 *l x21)) +l (x39 *l x9) in
  let x51 := (((((((x33 *l x17) +l (x35 *l x15)) +l (x31 *l x19)) +l (x37 *l x13)) +l (x29 *l x21)) +l (x39 *l x11)) +l (x27 *l x20)) +l (x38 *l x9) in
  let x52 := (((x35 *l x17) +l (2 *l ((((x33 *l x19) +l (x37 *l x15)) +l (x29 *l x20)) +l (x38 *l x11)))) +l (x31 *l x21)) +l (x39 *l x13) in
  let x53 := (((((x35 *l x19) +l (x37 *l x17)) +l (x33 *l x21)) +l (x39 *l x15)) +l (x31 *l x20)) +l (x38 *l x13) in
  let x54 := ((2 *l (((x37 *l x19) +l (x33 *l x20)) +l (x38 *l x15))) +l (x35 *l x21)) +l (x39 *l x17) in
  let x55 := (((x37 *l x21) +l (x39 *l x19)) +l (x35 *l x20)) +l (x38 *l x17) in
  let x56 := (x39 *l x21) +l (2 *l ((x37 *l x20) +l (x38 *l x19))) in
  let x57 := (x39 *l x20) +l (x38 *l x21) in
  let x58 := (2 *w x38) *l x20 in
  fold_and_carry x40 x41 x42 x43 x44 x45 x46 x47 x48 x49 x50 x51 x52 x53 x54 x55 x56 x57 x58.

(** src/curve25519-fiat32.h:440-544 fe_sqr_impl; 546-554 fe_sq_tl and fe_sq_tt call it. *)
Definition fe_sqr_impl (in1 : fx) : fx :=
  let x17 := g9 in1 in let x18 := g8 in1 in let x16 := g7 in1 in let x14 := g6 in1 in let x12 := g5 in1 in
  let x10 := g4 in1 in let x8 := g3 in1 in let x6 := g2 in1 in let x4 := g1 in1 in let x2 := g0 in1 in
  let x19 := x2 *l x2 in
  let x20 := (2 *w x2) *l x4 in
  let x21 := 2 *l ((x4 *l x4) +l (x2 *l x6)) in
  let x22 := 2 *l ((x4 *l x6) +l (x2 *l x8)) in
  let x23 := ((x6 *l x6) +l ((4 *w x4) *l x8)) +l ((2 *w x2) *l x10) in
  let x24 := 2 *l (((x6 *l x8) +l (x4 *l x10)) +l (x2 *l x12)) in
  let x25 := 2 *l ((((x8 *l x8) +l (x6 *l x10)) +l (x2 *l x14)) +l ((2 *w x4) *l x12)) in
  let x26 := 2 *l ((((x8 *l x10) +l (x6 *l x12)) +l (x4 *l x14)) +l (x2 *l x16)) in
  let x27 := (x10 *l x10) +l (2 *l (((x6 *l x14) +l (x2 *l x18)) +l (2 *l ((x4 *l x16) +l (x8 *l x12))))) in
  let x28 := 2 *l (((((x10 *l x12) +l (x8 *l x14)) +l (x6 *l x16)) +l (x4 *l x18)) +l (x2 *l x17)) in
  let x29 := 2 *l ((((x12 *l x12) +l (x10 *l x14)) +l (x6 *l x18)) +l (2 *l ((x8 *l x16) +l (x4 *l x17)))) in
  let x30 := 2 *l ((((x12 *l x14) +l (x10 *l x16)) +l (x8 *l x18)) +l (x6 *l x17)) in
  let x31 := (x14 *l x14) +l (2 *l ((x10 *l x18) +l (2 *l ((x12 *l x16) +l (x8 *l x17))))) in
  let x32 := 2 *l (((x14 *l x16) +l (x12 *l x18)) +l (x10 *l x17)) in
  let x33 := 2 *l (((x16 *l x16) +l (x14 *l x18)) +l ((2 *w x12) *l x17)) in
  let x34 := 2 *l ((x16 *l x18) +l (x14 *l x17)) in
  let x35 := (x18 *l x18) +l ((4 *w x16) *l x17) in
  let x36 := (2 *w x18) *l x17 in
  let x37 := (2 *w x17) *l x17 in
  fold_and_carry x19 x20 x21 x22 x23 x24 x25 x26 x27 x28 x29 x30 x31 x32 x33 x34 x35 x36 x37.
(** src/curve25519-fiat32.h:630-750 fe_mul_121666_impl, fe_mul121666: the text of fe_mul_impl, with the limbs 121666, 0, ... , 0 for the second input *)
Definition fe_mul121666 (in1 : fx) : fx := fe_mul_impl in1 (Fx 121666 0 0 0 0 0 0 0 0 0).

(** src/curve25519-fiat32.h:556-611: fe_sq_t?(&t, &a); for (i = 1; i < n; ++i) fe_sq_tt(&t, &t), for n = more + 1 *)
Fixpoint fe_sq_times (a : fx) (more : nat) : fx :=
  match more with O => fe_sqr_impl a | S n => fe_sqr_impl (fe_sq_times a n) end.
(** src/curve25519-fiat32.h:556-604 fe_loose_invert, 606-611 fe_invert *)
Definition fe_invert (z : fx) : fx :=
  let t0 := fe_sq_times z 0 in
  let t1 := fe_sq_times t0 1 in
  let t1 := fe_mul_impl z t1 in
  let t0 := fe_mul_impl t0 t1 in
  let t2 := fe_sq_times t0 0 in
  let t1 := fe_mul_impl t1 t2 in
  let t2 := fe_sq_times t1 4 in
  let t1 := fe_mul_impl t2 t1 in
  let t2 := fe_sq_times t1 9 in
  let t2 := fe_mul_impl t2 t1 in
  let t3 := fe_sq_times t2 19 in
  let t2 := fe_mul_impl t3 t2 in
  let t2 := fe_sq_times t2 9 in
  let t1 := fe_mul_impl t2 t1 in
  let t2 := fe_sq_times t1 49 in
  let t2 := fe_mul_impl t2 t1 in
  let t3 := fe_sq_times t2 99 in
  let t2 := fe_mul_impl t3 t2 in
  let t2 := fe_sq_times t2 49 in
  let t1 := fe_mul_impl t2 t1 in
  let t1 := fe_sq_times t1 4 in
  fe_mul_impl t1 t0.

(** src/curve25519-fiat32.h:613-628 fe_cswap: one limb, then all; b = 0 - b is an unsigned int *)
Definition cswap_limb (b f g : Z) : Z * Z := let x := Z.land (Z.lxor f g) b in (Z.lxor f x, Z.lxor g x).
Definition fe_cswap (f g : fx) (b : Z) : fx * fx :=
  let b := 0 -w b in
  let s0 := cswap_limb b (g0 f) (g0 g) in let s1 := cswap_limb b (g1 f) (g1 g) in let s2 := cswap_limb b (g2 f) (g2 g) in
  let s3 := cswap_limb b (g3 f) (g3 g) in let s4 := cswap_limb b (g4 f) (g4 g) in let s5 := cswap_limb b (g5 f) (g5 g) in
  let s6 := cswap_limb b (g6 f) (g6 g) in let s7 := cswap_limb b (g7 f) (g7 g) in let s8 := cswap_limb b (g8 f) (g8 g) in
  let s9 := cswap_limb b (g9 f) (g9 g) in
  (Fx (fst s0) (fst s1) (fst s2) (fst s3) (fst s4) (fst s5) (fst s6) (fst s7) (fst s8) (fst s9),
   Fx (snd s0) (snd s1) (snd s2) (snd s3) (snd s4) (snd s5) (snd s6) (snd s7) (snd s8) (snd s9)).

(** src/curve25519-fiat32.h:752-765 the variables of curve25519_generic that live across rounds *)
Record ladder32 := L32 { l_x2 : fx; l_z2 : fx; l_x3 : fx; l_z3 : fx; l_swap : Z }.
(** src/curve25519-fiat32.h:796-840 one round *)
Definition ladder_round (e : list Z) (x1 : fx) (pos : nat) (l : ladder32) : ladder32 :=
  let b := Z.land 1 (Z.shiftr (nth (pos / 8) e 0) (Z.land (Z.of_nat pos) 7)) in
  let swap := Z.lxor (l_swap l) b in
  let (x2, x3) := fe_cswap (l_x2 l) (l_x3 l) swap in
  let (z2, z3) := fe_cswap (l_z2 l) (l_z3 l) swap in
  let swap := b in
  let tmp0l := fe_sub x3 z3 in
  let tmp1l := fe_sub x2 z2 in
  let x2l := fe_add x2 z2 in
  let z2l := fe_add x3 z3 in
  let z3 := fe_mul_impl tmp0l x2l in
  let z2 := fe_mul_impl z2l tmp1l in
  let tmp0 := fe_sqr_impl tmp1l in
  let tmp1 := fe_sqr_impl x2l in
  let x3l := fe_add z3 z2 in
  let z2l := fe_sub z3 z2 in
  let x2 := fe_mul_impl tmp1 tmp0 in
  let tmp1l := fe_sub tmp1 tmp0 in
  let z2 := fe_sqr_impl z2l in
  let z3 := fe_mul121666 tmp1l in
  let x3 := fe_sqr_impl x3l in
  let tmp0l := fe_add tmp0 z3 in
  let z3 := fe_mul_impl x1 z2 in
  let z2 := fe_mul_impl tmp1l tmp0l in
  L32 x2 z2 x3 z3 swap.
(** src/curve25519-fiat32.h:796 for (pos = 254; pos >= 0; --pos): [n] rounds are left, pos = n - 1 *)
Fixpoint ladder_rounds (e : list Z) (x1 : fx) (n : nat) (l : ladder32) : ladder32 :=
  match n with O => l | S pos => ladder_rounds e x1 pos (ladder_round e x1 pos l) end.

(** src/curve25519-fiat32.h:752-860 curve25519_generic; src/curve25519.c:95-98 curve25519 *)
Definition curve25519_32 (scalar point : list Z) : list Z :=
  let e := clamp_secret scalar in
  let x1 := fe_frombytes point in
  let l := ladder_rounds e x1 255 (L32 fe_1 fe_0 x1 fe_1 0) in
  let (x2, _) := fe_cswap (l_x2 l) (l_x3 l) (l_swap l) in
  let (z2, _) := fe_cswap (l_z2 l) (l_z3 l) (l_swap l) in
  fe_tobytes (fe_mul_impl x2 (fe_invert z2)).
(** src/curve25519.c:88-93 curve25519_generate_public *)
Definition generate_public_32 (secret : list Z) : list Z := curve25519_32 secret (9 :: repeat 0 31).
