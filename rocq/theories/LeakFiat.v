(** src/curve25519-fiat32.h, statement by statement, as programs of Leak.v, in the manner of LeakCurve.v: a call is written out, a pointer argument is
    an array and an offset into it, a struct fe is the array of its limbs, a local array is an array of the state under one name.  The scalar locals of
    functions that are not running at the same time share their names.  memcpy, memmove, memset and get_unaligned_le32 are written out element by element.
    The straight-line functions are generated from the C text, keeping the order of statements, the brackets and the types of the C expressions. *)
From Coq Require Import String ZArith List Bool.
From Verif Require Import Base Leak LeakCurve.
Import ListNotations.
Open Scope string_scope.
Open Scope Z_scope.

(** Declarations u32 x = e and u64 x = e, and the operators at int, u32 and u64. *)
Definition dw (x : string) (e : expr) : stmt := Set_ U32 x e.
Definition dl (x : string) (e : expr) : stmt := Set_ U64 x e.
Definition mulw := Bin U32 Mul. Definition mull := Bin U64 Mul. Definition addw := Bin U32 Add. Definition addl := Bin U64 Add. Definition subw := Bin U32 Sub. Definition subi := Bin I32 Sub.
Definition shli := Bin I32 Shl. Definition shlw := Bin U32 Shl. Definition shll := Bin U64 Shl. Definition shrw := Bin U32 Shr. Definition shrl := Bin U64 Shr. Definition andw := Bin U32 And. Definition andl := Bin U64 And.
Definition orw := Bin U32 Or. Definition xorw := Bin U32 Xor.

(** src/curve25519.c:57-63 *)
Definition le32_of (p : ptr) : expr := fold_left (fun e k => orw e (shlw (Conv U32 (ld U8 p k)) (Lit (8 * k)))) [1; 2; 3] (Conv U32 (ld U8 p 0)).
(** curve25519-fiat32.h:26-52 *)
Definition fe_frombytes_ (h s : ptr) : stmt :=
  block
   [dw "a0" (le32_of (off s 0));
    dw "a1" (le32_of (off s 4));
    dw "a2" (le32_of (off s 8));
    dw "a3" (le32_of (off s 12));
    dw "a4" (le32_of (off s 16));
    dw "a5" (le32_of (off s 20));
    dw "a6" (le32_of (off s 24));
    dw "a7" (le32_of (off s 28));
    st U32 h 0 (andw (v "a0") (subi (shli (Lit 1) (Lit 26)) (Lit 1)));
    st U32 h 1 (orw (shrw (v "a0") (Lit 26)) (shlw (andw (v "a1") (subi (shli (Lit 1) (Lit 19)) (Lit 1))) (Lit 6)));
    st U32 h 2 (orw (shrw (v "a1") (Lit 19)) (shlw (andw (v "a2") (subi (shli (Lit 1) (Lit 13)) (Lit 1))) (Lit 13)));
    st U32 h 3 (orw (shrw (v "a2") (Lit 13)) (shlw (andw (v "a3") (subi (shli (Lit 1) (Lit 6)) (Lit 1))) (Lit 19)));
    st U32 h 4 (shrw (v "a3") (Lit 6));
    st U32 h 5 (andw (v "a4") (subi (shli (Lit 1) (Lit 25)) (Lit 1)));
    st U32 h 6 (orw (shrw (v "a4") (Lit 25)) (shlw (andw (v "a5") (subi (shli (Lit 1) (Lit 19)) (Lit 1))) (Lit 7)));
    st U32 h 7 (orw (shrw (v "a5") (Lit 19)) (shlw (andw (v "a6") (subi (shli (Lit 1) (Lit 12)) (Lit 1))) (Lit 13)));
    st U32 h 8 (orw (shrw (v "a6") (Lit 12)) (shlw (andw (v "a7") (subi (shli (Lit 1) (Lit 6)) (Lit 1))) (Lit 20)));
    st U32 h 9 (andw (shrw (v "a7") (Lit 6)) (subi (shli (Lit 1) (Lit 25)) (Lit 1)))].
(** curve25519-fiat32.h:54-96: r = f(c, a, b, &low) *)
Definition addcarryx_ (k : Z) (r low : string) (c a b : expr) : stmt :=
  block [dw "x" (addw (addw a b) c); dw low (andw (v "x") (subi (shli (Lit 1) (Lit k)) (Lit 1))); Set_ U8 r (andw (shrw (v "x") (Lit k)) (Lit 1))].
Definition addcarryx_u25_ := addcarryx_ 25. Definition addcarryx_u26_ := addcarryx_ 26.
Definition subborrow_ (k : Z) (r low : string) (c a b : expr) : stmt :=
  block [dw "x" (subw (subw a b) c); dw low (andw (v "x") (subi (shli (Lit 1) (Lit k)) (Lit 1))); Set_ U8 r (shrw (v "x") (Lit 31))].
Definition subborrow_u25_ := subborrow_ 25. Definition subborrow_u26_ := subborrow_ 26.
(** curve25519-fiat32.h:98-102: r = cmovznz32(t, z, nz); !!t is 0 or 1, an int, whose negative is converted to u32; ~t is t ^ 0xffffffff *)
Definition cmovznz32_ (r : string) (t z nz : expr) : stmt :=
  block [dw "t" t; dw "t" (Bin I32 Sub (Lit 0) (Bin U32 Ne (v "t") (Lit 0))); dw r (orw (andw (v "t") nz) (andw (xorw (v "t") (Lit 0xffffffff)) z))].
(** curve25519-fiat32.h:104-158 *)
Definition fe_freeze_ (out in1 : ptr) : stmt :=
  block
   [dw "x17" (ld U32 in1 9);
    dw "x18" (ld U32 in1 8);
    dw "x16" (ld U32 in1 7);
    dw "x14" (ld U32 in1 6);
    dw "x12" (ld U32 in1 5);
    dw "x10" (ld U32 in1 4);
    dw "x8" (ld U32 in1 3);
    dw "x6" (ld U32 in1 2);
    dw "x4" (ld U32 in1 1);
    dw "x2" (ld U32 in1 0);
    subborrow_u26_ "x21" "x20" (Lit 0x0) (v "x2") (Lit 0x3ffffed);
    subborrow_u25_ "x24" "x23" (v "x21") (v "x4") (Lit 0x1ffffff);
    subborrow_u26_ "x27" "x26" (v "x24") (v "x6") (Lit 0x3ffffff);
    subborrow_u25_ "x30" "x29" (v "x27") (v "x8") (Lit 0x1ffffff);
    subborrow_u26_ "x33" "x32" (v "x30") (v "x10") (Lit 0x3ffffff);
    subborrow_u25_ "x36" "x35" (v "x33") (v "x12") (Lit 0x1ffffff);
    subborrow_u26_ "x39" "x38" (v "x36") (v "x14") (Lit 0x3ffffff);
    subborrow_u25_ "x42" "x41" (v "x39") (v "x16") (Lit 0x1ffffff);
    subborrow_u26_ "x45" "x44" (v "x42") (v "x18") (Lit 0x3ffffff);
    subborrow_u25_ "x48" "x47" (v "x45") (v "x17") (Lit 0x1ffffff);
    cmovznz32_ "x49" (v "x48") (Lit 0x0) (Lit 0xffffffff);
    dw "x50" (andw (v "x49") (Lit 0x3ffffed));
    addcarryx_u26_ "x53" "x52" (Lit 0x0) (v "x20") (v "x50");
    dw "x54" (andw (v "x49") (Lit 0x1ffffff));
    addcarryx_u25_ "x57" "x56" (v "x53") (v "x23") (v "x54");
    dw "x58" (andw (v "x49") (Lit 0x3ffffff));
    addcarryx_u26_ "x61" "x60" (v "x57") (v "x26") (v "x58");
    dw "x62" (andw (v "x49") (Lit 0x1ffffff));
    addcarryx_u25_ "x65" "x64" (v "x61") (v "x29") (v "x62");
    dw "x66" (andw (v "x49") (Lit 0x3ffffff));
    addcarryx_u26_ "x69" "x68" (v "x65") (v "x32") (v "x66");
    dw "x70" (andw (v "x49") (Lit 0x1ffffff));
    addcarryx_u25_ "x73" "x72" (v "x69") (v "x35") (v "x70");
    dw "x74" (andw (v "x49") (Lit 0x3ffffff));
    addcarryx_u26_ "x77" "x76" (v "x73") (v "x38") (v "x74");
    dw "x78" (andw (v "x49") (Lit 0x1ffffff));
    addcarryx_u25_ "x81" "x80" (v "x77") (v "x41") (v "x78");
    dw "x82" (andw (v "x49") (Lit 0x3ffffff));
    addcarryx_u26_ "x85" "x84" (v "x81") (v "x44") (v "x82");
    dw "x86" (andw (v "x49") (Lit 0x1ffffff));
    addcarryx_u25_ "unused" "x88" (v "x85") (v "x47") (v "x86");
    st U32 out 0 (v "x52");
    st U32 out 1 (v "x56");
    st U32 out 2 (v "x60");
    st U32 out 3 (v "x64");
    st U32 out 4 (v "x68");
    st U32 out 5 (v "x72");
    st U32 out 6 (v "x76");
    st U32 out 7 (v "x80");
    st U32 out 8 (v "x84");
    st U32 out 9 (v "x88")].
(** curve25519-fiat32.h:160-196; h[10] is the array "h" *)
Definition fe_tobytes_ (s f : ptr) : stmt :=
  block
   [fe_freeze_ ("h", 0) f;
    st U8 s 0 (shrw (ld U32 ("h", 0) 0) (Lit 0));
    st U8 s 1 (shrw (ld U32 ("h", 0) 0) (Lit 8));
    st U8 s 2 (shrw (ld U32 ("h", 0) 0) (Lit 16));
    st U8 s 3 (orw (shrw (ld U32 ("h", 0) 0) (Lit 24)) (shlw (ld U32 ("h", 0) 1) (Lit 2)));
    st U8 s 4 (shrw (ld U32 ("h", 0) 1) (Lit 6));
    st U8 s 5 (shrw (ld U32 ("h", 0) 1) (Lit 14));
    st U8 s 6 (orw (shrw (ld U32 ("h", 0) 1) (Lit 22)) (shlw (ld U32 ("h", 0) 2) (Lit 3)));
    st U8 s 7 (shrw (ld U32 ("h", 0) 2) (Lit 5));
    st U8 s 8 (shrw (ld U32 ("h", 0) 2) (Lit 13));
    st U8 s 9 (orw (shrw (ld U32 ("h", 0) 2) (Lit 21)) (shlw (ld U32 ("h", 0) 3) (Lit 5)));
    st U8 s 10 (shrw (ld U32 ("h", 0) 3) (Lit 3));
    st U8 s 11 (shrw (ld U32 ("h", 0) 3) (Lit 11));
    st U8 s 12 (orw (shrw (ld U32 ("h", 0) 3) (Lit 19)) (shlw (ld U32 ("h", 0) 4) (Lit 6)));
    st U8 s 13 (shrw (ld U32 ("h", 0) 4) (Lit 2));
    st U8 s 14 (shrw (ld U32 ("h", 0) 4) (Lit 10));
    st U8 s 15 (shrw (ld U32 ("h", 0) 4) (Lit 18));
    st U8 s 16 (shrw (ld U32 ("h", 0) 5) (Lit 0));
    st U8 s 17 (shrw (ld U32 ("h", 0) 5) (Lit 8));
    st U8 s 18 (shrw (ld U32 ("h", 0) 5) (Lit 16));
    st U8 s 19 (orw (shrw (ld U32 ("h", 0) 5) (Lit 24)) (shlw (ld U32 ("h", 0) 6) (Lit 1)));
    st U8 s 20 (shrw (ld U32 ("h", 0) 6) (Lit 7));
    st U8 s 21 (shrw (ld U32 ("h", 0) 6) (Lit 15));
    st U8 s 22 (orw (shrw (ld U32 ("h", 0) 6) (Lit 23)) (shlw (ld U32 ("h", 0) 7) (Lit 3)));
    st U8 s 23 (shrw (ld U32 ("h", 0) 7) (Lit 5));
    st U8 s 24 (shrw (ld U32 ("h", 0) 7) (Lit 13));
    st U8 s 25 (orw (shrw (ld U32 ("h", 0) 7) (Lit 21)) (shlw (ld U32 ("h", 0) 8) (Lit 4)));
    st U8 s 26 (shrw (ld U32 ("h", 0) 8) (Lit 4));
    st U8 s 27 (shrw (ld U32 ("h", 0) 8) (Lit 12));
    st U8 s 28 (orw (shrw (ld U32 ("h", 0) 8) (Lit 20)) (shlw (ld U32 ("h", 0) 9) (Lit 6)));
    st U8 s 29 (shrw (ld U32 ("h", 0) 9) (Lit 2));
    st U8 s 30 (shrw (ld U32 ("h", 0) 9) (Lit 10));
    st U8 s 31 (shrw (ld U32 ("h", 0) 9) (Lit 18))].
(** curve25519-fiat32.h:198-220 *)
Definition fe_copy_ (h f : ptr) : stmt := copy U32 h f 10.
Definition fe_0_ (h : ptr) : stmt := zero U32 h 10.
Definition fe_1_ (h : ptr) : stmt := Seq (zero U32 h 10) (st U32 h 0 (Lit 1)).
(** curve25519-fiat32.h:222-263 *)
Definition fe_add_ (out in1 in2 : ptr) : stmt :=
  block
   [dw "x20" (ld U32 in1 9);
    dw "x21" (ld U32 in1 8);
    dw "x19" (ld U32 in1 7);
    dw "x17" (ld U32 in1 6);
    dw "x15" (ld U32 in1 5);
    dw "x13" (ld U32 in1 4);
    dw "x11" (ld U32 in1 3);
    dw "x9" (ld U32 in1 2);
    dw "x7" (ld U32 in1 1);
    dw "x5" (ld U32 in1 0);
    dw "x38" (ld U32 in2 9);
    dw "x39" (ld U32 in2 8);
    dw "x37" (ld U32 in2 7);
    dw "x35" (ld U32 in2 6);
    dw "x33" (ld U32 in2 5);
    dw "x31" (ld U32 in2 4);
    dw "x29" (ld U32 in2 3);
    dw "x27" (ld U32 in2 2);
    dw "x25" (ld U32 in2 1);
    dw "x23" (ld U32 in2 0);
    st U32 out 0 (addw (v "x5") (v "x23"));
    st U32 out 1 (addw (v "x7") (v "x25"));
    st U32 out 2 (addw (v "x9") (v "x27"));
    st U32 out 3 (addw (v "x11") (v "x29"));
    st U32 out 4 (addw (v "x13") (v "x31"));
    st U32 out 5 (addw (v "x15") (v "x33"));
    st U32 out 6 (addw (v "x17") (v "x35"));
    st U32 out 7 (addw (v "x19") (v "x37"));
    st U32 out 8 (addw (v "x21") (v "x39"));
    st U32 out 9 (addw (v "x20") (v "x38"))].
(** curve25519-fiat32.h:265-306 *)
Definition fe_sub_ (out in1 in2 : ptr) : stmt :=
  block
   [dw "x20" (ld U32 in1 9);
    dw "x21" (ld U32 in1 8);
    dw "x19" (ld U32 in1 7);
    dw "x17" (ld U32 in1 6);
    dw "x15" (ld U32 in1 5);
    dw "x13" (ld U32 in1 4);
    dw "x11" (ld U32 in1 3);
    dw "x9" (ld U32 in1 2);
    dw "x7" (ld U32 in1 1);
    dw "x5" (ld U32 in1 0);
    dw "x38" (ld U32 in2 9);
    dw "x39" (ld U32 in2 8);
    dw "x37" (ld U32 in2 7);
    dw "x35" (ld U32 in2 6);
    dw "x33" (ld U32 in2 5);
    dw "x31" (ld U32 in2 4);
    dw "x29" (ld U32 in2 3);
    dw "x27" (ld U32 in2 2);
    dw "x25" (ld U32 in2 1);
    dw "x23" (ld U32 in2 0);
    st U32 out 0 (subw (addw (Lit 0x7ffffda) (v "x5")) (v "x23"));
    st U32 out 1 (subw (addw (Lit 0x3fffffe) (v "x7")) (v "x25"));
    st U32 out 2 (subw (addw (Lit 0x7fffffe) (v "x9")) (v "x27"));
    st U32 out 3 (subw (addw (Lit 0x3fffffe) (v "x11")) (v "x29"));
    st U32 out 4 (subw (addw (Lit 0x7fffffe) (v "x13")) (v "x31"));
    st U32 out 5 (subw (addw (Lit 0x3fffffe) (v "x15")) (v "x33"));
    st U32 out 6 (subw (addw (Lit 0x7fffffe) (v "x17")) (v "x35"));
    st U32 out 7 (subw (addw (Lit 0x3fffffe) (v "x19")) (v "x37"));
    st U32 out 8 (subw (addw (Lit 0x7fffffe) (v "x21")) (v "x39"));
    st U32 out 9 (subw (addw (Lit 0x3fffffe) (v "x20")) (v "x38"))].
(** curve25519-fiat32.h:308-438 *)
Definition fe_mul_ (out in1 in2 : ptr) : stmt :=
  block
   [dw "x20" (ld U32 in1 9);
    dw "x21" (ld U32 in1 8);
    dw "x19" (ld U32 in1 7);
    dw "x17" (ld U32 in1 6);
    dw "x15" (ld U32 in1 5);
    dw "x13" (ld U32 in1 4);
    dw "x11" (ld U32 in1 3);
    dw "x9" (ld U32 in1 2);
    dw "x7" (ld U32 in1 1);
    dw "x5" (ld U32 in1 0);
    dw "x38" (ld U32 in2 9);
    dw "x39" (ld U32 in2 8);
    dw "x37" (ld U32 in2 7);
    dw "x35" (ld U32 in2 6);
    dw "x33" (ld U32 in2 5);
    dw "x31" (ld U32 in2 4);
    dw "x29" (ld U32 in2 3);
    dw "x27" (ld U32 in2 2);
    dw "x25" (ld U32 in2 1);
    dw "x23" (ld U32 in2 0);
    dl "x40" (mull (Conv U64 (v "x23")) (v "x5"));
    dl "x41" (addl (mull (Conv U64 (v "x23")) (v "x7")) (mull (Conv U64 (v "x25")) (v "x5")));
    dl "x42" (addl (addl (mull (Conv U64 (mulw (Lit 0x2) (v "x25"))) (v "x7")) (mull (Conv U64 (v "x23")) (v "x9"))) (mull (Conv U64 (v "x27")) (v "x5")));
    dl "x43" (addl (addl (addl (mull (Conv U64 (v "x25")) (v "x9")) (mull (Conv U64 (v "x27")) (v "x7"))) (mull (Conv U64 (v "x23")) (v "x11"))) (mull (Conv U64 (v "x29")) (v "x5")));
    dl "x44" (addl (addl (addl (mull (Conv U64 (v "x27")) (v "x9")) (mull (Lit 0x2) (addl (mull (Conv U64 (v "x25")) (v "x11")) (mull (Conv U64 (v "x29")) (v "x7"))))) (mull (Conv U64 (v "x23")) (v "x13"))) (mull (Conv U64 (v "x31")) (v "x5")));
    dl "x45" (addl (addl (addl (addl (addl (mull (Conv U64 (v "x27")) (v "x11")) (mull (Conv U64 (v "x29")) (v "x9"))) (mull (Conv U64 (v "x25")) (v "x13"))) (mull (Conv U64 (v "x31")) (v "x7"))) (mull (Conv U64 (v "x23")) (v "x15"))) (mull (Conv U64 (v "x33")) (v "x5")));
    dl "x46" (addl (addl (addl (addl (mull (Lit 0x2) (addl (addl (mull (Conv U64 (v "x29")) (v "x11")) (mull (Conv U64 (v "x25")) (v "x15"))) (mull (Conv U64 (v "x33")) (v "x7")))) (mull (Conv U64 (v "x27")) (v "x13"))) (mull (Conv U64 (v "x31")) (v "x9"))) (mull (Conv U64 (v "x23")) (v "x17"))) (mull (Conv U64 (v "x35")) (v "x5")));
    dl "x47" (addl (addl (addl (addl (addl (addl (addl (mull (Conv U64 (v "x29")) (v "x13")) (mull (Conv U64 (v "x31")) (v "x11"))) (mull (Conv U64 (v "x27")) (v "x15"))) (mull (Conv U64 (v "x33")) (v "x9"))) (mull (Conv U64 (v "x25")) (v "x17"))) (mull (Conv U64 (v "x35")) (v "x7"))) (mull (Conv U64 (v "x23")) (v "x19"))) (mull (Conv U64 (v "x37")) (v "x5")));
    dl "x48" (addl (addl (addl (addl (addl (mull (Conv U64 (v "x31")) (v "x13")) (mull (Lit 0x2) (addl (addl (addl (mull (Conv U64 (v "x29")) (v "x15")) (mull (Conv U64 (v "x33")) (v "x11"))) (mull (Conv U64 (v "x25")) (v "x19"))) (mull (Conv U64 (v "x37")) (v "x7"))))) (mull (Conv U64 (v "x27")) (v "x17"))) (mull (Conv U64 (v "x35")) (v "x9"))) (mull (Conv U64 (v "x23")) (v "x21"))) (mull (Conv U64 (v "x39")) (v "x5")));
    dl "x49" (addl (addl (addl (addl (addl (addl (addl (addl (addl (mull (Conv U64 (v "x31")) (v "x15")) (mull (Conv U64 (v "x33")) (v "x13"))) (mull (Conv U64 (v "x29")) (v "x17"))) (mull (Conv U64 (v "x35")) (v "x11"))) (mull (Conv U64 (v "x27")) (v "x19"))) (mull (Conv U64 (v "x37")) (v "x9"))) (mull (Conv U64 (v "x25")) (v "x21"))) (mull (Conv U64 (v "x39")) (v "x7"))) (mull (Conv U64 (v "x23")) (v "x20"))) (mull (Conv U64 (v "x38")) (v "x5")));
    dl "x50" (addl (addl (addl (addl (mull (Lit 0x2) (addl (addl (addl (addl (mull (Conv U64 (v "x33")) (v "x15")) (mull (Conv U64 (v "x29")) (v "x19"))) (mull (Conv U64 (v "x37")) (v "x11"))) (mull (Conv U64 (v "x25")) (v "x20"))) (mull (Conv U64 (v "x38")) (v "x7")))) (mull (Conv U64 (v "x31")) (v "x17"))) (mull (Conv U64 (v "x35")) (v "x13"))) (mull (Conv U64 (v "x27")) (v "x21"))) (mull (Conv U64 (v "x39")) (v "x9")));
    dl "x51" (addl (addl (addl (addl (addl (addl (addl (mull (Conv U64 (v "x33")) (v "x17")) (mull (Conv U64 (v "x35")) (v "x15"))) (mull (Conv U64 (v "x31")) (v "x19"))) (mull (Conv U64 (v "x37")) (v "x13"))) (mull (Conv U64 (v "x29")) (v "x21"))) (mull (Conv U64 (v "x39")) (v "x11"))) (mull (Conv U64 (v "x27")) (v "x20"))) (mull (Conv U64 (v "x38")) (v "x9")));
    dl "x52" (addl (addl (addl (mull (Conv U64 (v "x35")) (v "x17")) (mull (Lit 0x2) (addl (addl (addl (mull (Conv U64 (v "x33")) (v "x19")) (mull (Conv U64 (v "x37")) (v "x15"))) (mull (Conv U64 (v "x29")) (v "x20"))) (mull (Conv U64 (v "x38")) (v "x11"))))) (mull (Conv U64 (v "x31")) (v "x21"))) (mull (Conv U64 (v "x39")) (v "x13")));
    dl "x53" (addl (addl (addl (addl (addl (mull (Conv U64 (v "x35")) (v "x19")) (mull (Conv U64 (v "x37")) (v "x17"))) (mull (Conv U64 (v "x33")) (v "x21"))) (mull (Conv U64 (v "x39")) (v "x15"))) (mull (Conv U64 (v "x31")) (v "x20"))) (mull (Conv U64 (v "x38")) (v "x13")));
    dl "x54" (addl (addl (mull (Lit 0x2) (addl (addl (mull (Conv U64 (v "x37")) (v "x19")) (mull (Conv U64 (v "x33")) (v "x20"))) (mull (Conv U64 (v "x38")) (v "x15")))) (mull (Conv U64 (v "x35")) (v "x21"))) (mull (Conv U64 (v "x39")) (v "x17")));
    dl "x55" (addl (addl (addl (mull (Conv U64 (v "x37")) (v "x21")) (mull (Conv U64 (v "x39")) (v "x19"))) (mull (Conv U64 (v "x35")) (v "x20"))) (mull (Conv U64 (v "x38")) (v "x17")));
    dl "x56" (addl (mull (Conv U64 (v "x39")) (v "x21")) (mull (Lit 0x2) (addl (mull (Conv U64 (v "x37")) (v "x20")) (mull (Conv U64 (v "x38")) (v "x19")))));
    dl "x57" (addl (mull (Conv U64 (v "x39")) (v "x20")) (mull (Conv U64 (v "x38")) (v "x21")));
    dl "x58" (mull (Conv U64 (mulw (Lit 0x2) (v "x38"))) (v "x20"));
    dl "x59" (addl (v "x48") (shll (v "x58") (Lit 0x4)));
    dl "x60" (addl (v "x59") (shll (v "x58") (Lit 0x1)));
    dl "x61" (addl (v "x60") (v "x58"));
    dl "x62" (addl (v "x47") (shll (v "x57") (Lit 0x4)));
    dl "x63" (addl (v "x62") (shll (v "x57") (Lit 0x1)));
    dl "x64" (addl (v "x63") (v "x57"));
    dl "x65" (addl (v "x46") (shll (v "x56") (Lit 0x4)));
    dl "x66" (addl (v "x65") (shll (v "x56") (Lit 0x1)));
    dl "x67" (addl (v "x66") (v "x56"));
    dl "x68" (addl (v "x45") (shll (v "x55") (Lit 0x4)));
    dl "x69" (addl (v "x68") (shll (v "x55") (Lit 0x1)));
    dl "x70" (addl (v "x69") (v "x55"));
    dl "x71" (addl (v "x44") (shll (v "x54") (Lit 0x4)));
    dl "x72" (addl (v "x71") (shll (v "x54") (Lit 0x1)));
    dl "x73" (addl (v "x72") (v "x54"));
    dl "x74" (addl (v "x43") (shll (v "x53") (Lit 0x4)));
    dl "x75" (addl (v "x74") (shll (v "x53") (Lit 0x1)));
    dl "x76" (addl (v "x75") (v "x53"));
    dl "x77" (addl (v "x42") (shll (v "x52") (Lit 0x4)));
    dl "x78" (addl (v "x77") (shll (v "x52") (Lit 0x1)));
    dl "x79" (addl (v "x78") (v "x52"));
    dl "x80" (addl (v "x41") (shll (v "x51") (Lit 0x4)));
    dl "x81" (addl (v "x80") (shll (v "x51") (Lit 0x1)));
    dl "x82" (addl (v "x81") (v "x51"));
    dl "x83" (addl (v "x40") (shll (v "x50") (Lit 0x4)));
    dl "x84" (addl (v "x83") (shll (v "x50") (Lit 0x1)));
    dl "x85" (addl (v "x84") (v "x50"));
    dl "x86" (shrl (v "x85") (Lit 0x1a));
    dw "x87" (andw (Conv U32 (v "x85")) (Lit 0x3ffffff));
    dl "x88" (addl (v "x86") (v "x82"));
    dl "x89" (shrl (v "x88") (Lit 0x19));
    dw "x90" (andw (Conv U32 (v "x88")) (Lit 0x1ffffff));
    dl "x91" (addl (v "x89") (v "x79"));
    dl "x92" (shrl (v "x91") (Lit 0x1a));
    dw "x93" (andw (Conv U32 (v "x91")) (Lit 0x3ffffff));
    dl "x94" (addl (v "x92") (v "x76"));
    dl "x95" (shrl (v "x94") (Lit 0x19));
    dw "x96" (andw (Conv U32 (v "x94")) (Lit 0x1ffffff));
    dl "x97" (addl (v "x95") (v "x73"));
    dl "x98" (shrl (v "x97") (Lit 0x1a));
    dw "x99" (andw (Conv U32 (v "x97")) (Lit 0x3ffffff));
    dl "x100" (addl (v "x98") (v "x70"));
    dl "x101" (shrl (v "x100") (Lit 0x19));
    dw "x102" (andw (Conv U32 (v "x100")) (Lit 0x1ffffff));
    dl "x103" (addl (v "x101") (v "x67"));
    dl "x104" (shrl (v "x103") (Lit 0x1a));
    dw "x105" (andw (Conv U32 (v "x103")) (Lit 0x3ffffff));
    dl "x106" (addl (v "x104") (v "x64"));
    dl "x107" (shrl (v "x106") (Lit 0x19));
    dw "x108" (andw (Conv U32 (v "x106")) (Lit 0x1ffffff));
    dl "x109" (addl (v "x107") (v "x61"));
    dl "x110" (shrl (v "x109") (Lit 0x1a));
    dw "x111" (andw (Conv U32 (v "x109")) (Lit 0x3ffffff));
    dl "x112" (addl (v "x110") (v "x49"));
    dl "x113" (shrl (v "x112") (Lit 0x19));
    dw "x114" (andw (Conv U32 (v "x112")) (Lit 0x1ffffff));
    dl "x115" (addl (v "x87") (mull (Lit 0x13) (v "x113")));
    dw "x116" (Conv U32 (shrl (v "x115") (Lit 0x1a)));
    dw "x117" (andw (Conv U32 (v "x115")) (Lit 0x3ffffff));
    dw "x118" (addw (v "x116") (v "x90"));
    dw "x119" (shrw (v "x118") (Lit 0x19));
    dw "x120" (andw (v "x118") (Lit 0x1ffffff));
    st U32 out 0 (v "x117");
    st U32 out 1 (v "x120");
    st U32 out 2 (addw (v "x119") (v "x93"));
    st U32 out 3 (v "x96");
    st U32 out 4 (v "x99");
    st U32 out 5 (v "x102");
    st U32 out 6 (v "x105");
    st U32 out 7 (v "x108");
    st U32 out 8 (v "x111");
    st U32 out 9 (v "x114")].
(** curve25519-fiat32.h:440-554 *)
Definition fe_sqr_ (out in1 : ptr) : stmt :=
  block
   [dw "x17" (ld U32 in1 9);
    dw "x18" (ld U32 in1 8);
    dw "x16" (ld U32 in1 7);
    dw "x14" (ld U32 in1 6);
    dw "x12" (ld U32 in1 5);
    dw "x10" (ld U32 in1 4);
    dw "x8" (ld U32 in1 3);
    dw "x6" (ld U32 in1 2);
    dw "x4" (ld U32 in1 1);
    dw "x2" (ld U32 in1 0);
    dl "x19" (mull (Conv U64 (v "x2")) (v "x2"));
    dl "x20" (mull (Conv U64 (mulw (Lit 0x2) (v "x2"))) (v "x4"));
    dl "x21" (mull (Lit 0x2) (addl (mull (Conv U64 (v "x4")) (v "x4")) (mull (Conv U64 (v "x2")) (v "x6"))));
    dl "x22" (mull (Lit 0x2) (addl (mull (Conv U64 (v "x4")) (v "x6")) (mull (Conv U64 (v "x2")) (v "x8"))));
    dl "x23" (addl (addl (mull (Conv U64 (v "x6")) (v "x6")) (mull (Conv U64 (mulw (Lit 0x4) (v "x4"))) (v "x8"))) (mull (Conv U64 (mulw (Lit 0x2) (v "x2"))) (v "x10")));
    dl "x24" (mull (Lit 0x2) (addl (addl (mull (Conv U64 (v "x6")) (v "x8")) (mull (Conv U64 (v "x4")) (v "x10"))) (mull (Conv U64 (v "x2")) (v "x12"))));
    dl "x25" (mull (Lit 0x2) (addl (addl (addl (mull (Conv U64 (v "x8")) (v "x8")) (mull (Conv U64 (v "x6")) (v "x10"))) (mull (Conv U64 (v "x2")) (v "x14"))) (mull (Conv U64 (mulw (Lit 0x2) (v "x4"))) (v "x12"))));
    dl "x26" (mull (Lit 0x2) (addl (addl (addl (mull (Conv U64 (v "x8")) (v "x10")) (mull (Conv U64 (v "x6")) (v "x12"))) (mull (Conv U64 (v "x4")) (v "x14"))) (mull (Conv U64 (v "x2")) (v "x16"))));
    dl "x27" (addl (mull (Conv U64 (v "x10")) (v "x10")) (mull (Lit 0x2) (addl (addl (mull (Conv U64 (v "x6")) (v "x14")) (mull (Conv U64 (v "x2")) (v "x18"))) (mull (Lit 0x2) (addl (mull (Conv U64 (v "x4")) (v "x16")) (mull (Conv U64 (v "x8")) (v "x12")))))));
    dl "x28" (mull (Lit 0x2) (addl (addl (addl (addl (mull (Conv U64 (v "x10")) (v "x12")) (mull (Conv U64 (v "x8")) (v "x14"))) (mull (Conv U64 (v "x6")) (v "x16"))) (mull (Conv U64 (v "x4")) (v "x18"))) (mull (Conv U64 (v "x2")) (v "x17"))));
    dl "x29" (mull (Lit 0x2) (addl (addl (addl (mull (Conv U64 (v "x12")) (v "x12")) (mull (Conv U64 (v "x10")) (v "x14"))) (mull (Conv U64 (v "x6")) (v "x18"))) (mull (Lit 0x2) (addl (mull (Conv U64 (v "x8")) (v "x16")) (mull (Conv U64 (v "x4")) (v "x17"))))));
    dl "x30" (mull (Lit 0x2) (addl (addl (addl (mull (Conv U64 (v "x12")) (v "x14")) (mull (Conv U64 (v "x10")) (v "x16"))) (mull (Conv U64 (v "x8")) (v "x18"))) (mull (Conv U64 (v "x6")) (v "x17"))));
    dl "x31" (addl (mull (Conv U64 (v "x14")) (v "x14")) (mull (Lit 0x2) (addl (mull (Conv U64 (v "x10")) (v "x18")) (mull (Lit 0x2) (addl (mull (Conv U64 (v "x12")) (v "x16")) (mull (Conv U64 (v "x8")) (v "x17")))))));
    dl "x32" (mull (Lit 0x2) (addl (addl (mull (Conv U64 (v "x14")) (v "x16")) (mull (Conv U64 (v "x12")) (v "x18"))) (mull (Conv U64 (v "x10")) (v "x17"))));
    dl "x33" (mull (Lit 0x2) (addl (addl (mull (Conv U64 (v "x16")) (v "x16")) (mull (Conv U64 (v "x14")) (v "x18"))) (mull (Conv U64 (mulw (Lit 0x2) (v "x12"))) (v "x17"))));
    dl "x34" (mull (Lit 0x2) (addl (mull (Conv U64 (v "x16")) (v "x18")) (mull (Conv U64 (v "x14")) (v "x17"))));
    dl "x35" (addl (mull (Conv U64 (v "x18")) (v "x18")) (mull (Conv U64 (mulw (Lit 0x4) (v "x16"))) (v "x17")));
    dl "x36" (mull (Conv U64 (mulw (Lit 0x2) (v "x18"))) (v "x17"));
    dl "x37" (mull (Conv U64 (mulw (Lit 0x2) (v "x17"))) (v "x17"));
    dl "x38" (addl (v "x27") (shll (v "x37") (Lit 0x4)));
    dl "x39" (addl (v "x38") (shll (v "x37") (Lit 0x1)));
    dl "x40" (addl (v "x39") (v "x37"));
    dl "x41" (addl (v "x26") (shll (v "x36") (Lit 0x4)));
    dl "x42" (addl (v "x41") (shll (v "x36") (Lit 0x1)));
    dl "x43" (addl (v "x42") (v "x36"));
    dl "x44" (addl (v "x25") (shll (v "x35") (Lit 0x4)));
    dl "x45" (addl (v "x44") (shll (v "x35") (Lit 0x1)));
    dl "x46" (addl (v "x45") (v "x35"));
    dl "x47" (addl (v "x24") (shll (v "x34") (Lit 0x4)));
    dl "x48" (addl (v "x47") (shll (v "x34") (Lit 0x1)));
    dl "x49" (addl (v "x48") (v "x34"));
    dl "x50" (addl (v "x23") (shll (v "x33") (Lit 0x4)));
    dl "x51" (addl (v "x50") (shll (v "x33") (Lit 0x1)));
    dl "x52" (addl (v "x51") (v "x33"));
    dl "x53" (addl (v "x22") (shll (v "x32") (Lit 0x4)));
    dl "x54" (addl (v "x53") (shll (v "x32") (Lit 0x1)));
    dl "x55" (addl (v "x54") (v "x32"));
    dl "x56" (addl (v "x21") (shll (v "x31") (Lit 0x4)));
    dl "x57" (addl (v "x56") (shll (v "x31") (Lit 0x1)));
    dl "x58" (addl (v "x57") (v "x31"));
    dl "x59" (addl (v "x20") (shll (v "x30") (Lit 0x4)));
    dl "x60" (addl (v "x59") (shll (v "x30") (Lit 0x1)));
    dl "x61" (addl (v "x60") (v "x30"));
    dl "x62" (addl (v "x19") (shll (v "x29") (Lit 0x4)));
    dl "x63" (addl (v "x62") (shll (v "x29") (Lit 0x1)));
    dl "x64" (addl (v "x63") (v "x29"));
    dl "x65" (shrl (v "x64") (Lit 0x1a));
    dw "x66" (andw (Conv U32 (v "x64")) (Lit 0x3ffffff));
    dl "x67" (addl (v "x65") (v "x61"));
    dl "x68" (shrl (v "x67") (Lit 0x19));
    dw "x69" (andw (Conv U32 (v "x67")) (Lit 0x1ffffff));
    dl "x70" (addl (v "x68") (v "x58"));
    dl "x71" (shrl (v "x70") (Lit 0x1a));
    dw "x72" (andw (Conv U32 (v "x70")) (Lit 0x3ffffff));
    dl "x73" (addl (v "x71") (v "x55"));
    dl "x74" (shrl (v "x73") (Lit 0x19));
    dw "x75" (andw (Conv U32 (v "x73")) (Lit 0x1ffffff));
    dl "x76" (addl (v "x74") (v "x52"));
    dl "x77" (shrl (v "x76") (Lit 0x1a));
    dw "x78" (andw (Conv U32 (v "x76")) (Lit 0x3ffffff));
    dl "x79" (addl (v "x77") (v "x49"));
    dl "x80" (shrl (v "x79") (Lit 0x19));
    dw "x81" (andw (Conv U32 (v "x79")) (Lit 0x1ffffff));
    dl "x82" (addl (v "x80") (v "x46"));
    dl "x83" (shrl (v "x82") (Lit 0x1a));
    dw "x84" (andw (Conv U32 (v "x82")) (Lit 0x3ffffff));
    dl "x85" (addl (v "x83") (v "x43"));
    dl "x86" (shrl (v "x85") (Lit 0x19));
    dw "x87" (andw (Conv U32 (v "x85")) (Lit 0x1ffffff));
    dl "x88" (addl (v "x86") (v "x40"));
    dl "x89" (shrl (v "x88") (Lit 0x1a));
    dw "x90" (andw (Conv U32 (v "x88")) (Lit 0x3ffffff));
    dl "x91" (addl (v "x89") (v "x28"));
    dl "x92" (shrl (v "x91") (Lit 0x19));
    dw "x93" (andw (Conv U32 (v "x91")) (Lit 0x1ffffff));
    dl "x94" (addl (v "x66") (mull (Lit 0x13) (v "x92")));
    dw "x95" (Conv U32 (shrl (v "x94") (Lit 0x1a)));
    dw "x96" (andw (Conv U32 (v "x94")) (Lit 0x3ffffff));
    dw "x97" (addw (v "x95") (v "x69"));
    dw "x98" (shrw (v "x97") (Lit 0x19));
    dw "x99" (andw (v "x97") (Lit 0x1ffffff));
    st U32 out 0 (v "x96");
    st U32 out 1 (v "x99");
    st U32 out 2 (addw (v "x98") (v "x72"));
    st U32 out 3 (v "x75");
    st U32 out 4 (v "x78");
    st U32 out 5 (v "x81");
    st U32 out 6 (v "x84");
    st U32 out 7 (v "x87");
    st U32 out 8 (v "x90");
    st U32 out 9 (v "x93")].
(** curve25519-fiat32.h:556-604: fe_sq_t?(&t, &a); for (i = 1; i < n; ++i) fe_sq_tt(&t, &t) *)
Definition sq_loop_ (t : ptr) (n : Z) : stmt :=
  Seq (Set_ I32 "i" (Lit 1)) (While (Bin I32 Lt (v "i") (Lit n)) (Seq (fe_sqr_ t t) (Set_ I32 "i" (Bin I32 Add (v "i") (Lit 1))))).
Definition fe_loose_invert_ (out z : ptr) : stmt :=
  let t0 := ("t0", 0) in let t1 := ("t1", 0) in let t2 := ("t2", 0) in let t3 := ("t3", 0) in
  block
   [fe_sqr_ t0 z;
    fe_sqr_ t1 t0; sq_loop_ t1 2;
    fe_mul_ t1 z t1;
    fe_mul_ t0 t0 t1;
    fe_sqr_ t2 t0;
    fe_mul_ t1 t1 t2;
    fe_sqr_ t2 t1; sq_loop_ t2 5;
    fe_mul_ t1 t2 t1;
    fe_sqr_ t2 t1; sq_loop_ t2 10;
    fe_mul_ t2 t2 t1;
    fe_sqr_ t3 t2; sq_loop_ t3 20;
    fe_mul_ t2 t3 t2;
    fe_sqr_ t2 t2; sq_loop_ t2 10;
    fe_mul_ t1 t2 t1;
    fe_sqr_ t2 t1; sq_loop_ t2 50;
    fe_mul_ t2 t2 t1;
    fe_sqr_ t3 t2; sq_loop_ t3 100;
    fe_mul_ t2 t3 t2;
    fe_sqr_ t2 t2; sq_loop_ t2 50;
    fe_mul_ t1 t2 t1;
    fe_sqr_ t1 t1; sq_loop_ t1 5;
    fe_mul_ out t1 t0].
(** curve25519-fiat32.h:606-611; l is the array "l" *)
Definition fe_invert_ (out z : ptr) : stmt := block [fe_copy_ ("l", 0) z; fe_loose_invert_ out ("l", 0)].
(** curve25519-fiat32.h:613-628; the argument b and the variables i and x are the variables "cb", "ci" and "cx" *)
Definition fe_cswap_ (f g : ptr) (b : string) : stmt :=
  block
   [dw "cb" (v b);
    dw "cb" (subw (Lit 0) (v "cb"));
    dw "ci" (Lit 0);
    While (Bin U32 Lt (v "ci") (Lit 10)) (block
     [dw "cx" (xorw (ld_ U32 f (v "ci")) (ld_ U32 g (v "ci")));
      dw "cx" (andw (v "cx") (v "cb"));
      st_ U32 f (v "ci") (xorw (ld_ U32 f (v "ci")) (v "cx"));
      st_ U32 g (v "ci") (xorw (ld_ U32 g (v "ci")) (v "cx"));
      dw "ci" (addw (v "ci") (Lit 1))])].
(** curve25519-fiat32.h:630-750 *)
Definition fe_mul121666_ (out in1 : ptr) : stmt :=
  block
   [dw "x20" (ld U32 in1 9);
    dw "x21" (ld U32 in1 8);
    dw "x19" (ld U32 in1 7);
    dw "x17" (ld U32 in1 6);
    dw "x15" (ld U32 in1 5);
    dw "x13" (ld U32 in1 4);
    dw "x11" (ld U32 in1 3);
    dw "x9" (ld U32 in1 2);
    dw "x7" (ld U32 in1 1);
    dw "x5" (ld U32 in1 0);
    dw "x38" (Lit 0);
    dw "x39" (Lit 0);
    dw "x37" (Lit 0);
    dw "x35" (Lit 0);
    dw "x33" (Lit 0);
    dw "x31" (Lit 0);
    dw "x29" (Lit 0);
    dw "x27" (Lit 0);
    dw "x25" (Lit 0);
    dw "x23" (Lit 121666);
    dl "x40" (mull (Conv U64 (v "x23")) (v "x5"));
    dl "x41" (addl (mull (Conv U64 (v "x23")) (v "x7")) (mull (Conv U64 (v "x25")) (v "x5")));
    dl "x42" (addl (addl (mull (Conv U64 (mulw (Lit 0x2) (v "x25"))) (v "x7")) (mull (Conv U64 (v "x23")) (v "x9"))) (mull (Conv U64 (v "x27")) (v "x5")));
    dl "x43" (addl (addl (addl (mull (Conv U64 (v "x25")) (v "x9")) (mull (Conv U64 (v "x27")) (v "x7"))) (mull (Conv U64 (v "x23")) (v "x11"))) (mull (Conv U64 (v "x29")) (v "x5")));
    dl "x44" (addl (addl (addl (mull (Conv U64 (v "x27")) (v "x9")) (mull (Lit 0x2) (addl (mull (Conv U64 (v "x25")) (v "x11")) (mull (Conv U64 (v "x29")) (v "x7"))))) (mull (Conv U64 (v "x23")) (v "x13"))) (mull (Conv U64 (v "x31")) (v "x5")));
    dl "x45" (addl (addl (addl (addl (addl (mull (Conv U64 (v "x27")) (v "x11")) (mull (Conv U64 (v "x29")) (v "x9"))) (mull (Conv U64 (v "x25")) (v "x13"))) (mull (Conv U64 (v "x31")) (v "x7"))) (mull (Conv U64 (v "x23")) (v "x15"))) (mull (Conv U64 (v "x33")) (v "x5")));
    dl "x46" (addl (addl (addl (addl (mull (Lit 0x2) (addl (addl (mull (Conv U64 (v "x29")) (v "x11")) (mull (Conv U64 (v "x25")) (v "x15"))) (mull (Conv U64 (v "x33")) (v "x7")))) (mull (Conv U64 (v "x27")) (v "x13"))) (mull (Conv U64 (v "x31")) (v "x9"))) (mull (Conv U64 (v "x23")) (v "x17"))) (mull (Conv U64 (v "x35")) (v "x5")));
    dl "x47" (addl (addl (addl (addl (addl (addl (addl (mull (Conv U64 (v "x29")) (v "x13")) (mull (Conv U64 (v "x31")) (v "x11"))) (mull (Conv U64 (v "x27")) (v "x15"))) (mull (Conv U64 (v "x33")) (v "x9"))) (mull (Conv U64 (v "x25")) (v "x17"))) (mull (Conv U64 (v "x35")) (v "x7"))) (mull (Conv U64 (v "x23")) (v "x19"))) (mull (Conv U64 (v "x37")) (v "x5")));
    dl "x48" (addl (addl (addl (addl (addl (mull (Conv U64 (v "x31")) (v "x13")) (mull (Lit 0x2) (addl (addl (addl (mull (Conv U64 (v "x29")) (v "x15")) (mull (Conv U64 (v "x33")) (v "x11"))) (mull (Conv U64 (v "x25")) (v "x19"))) (mull (Conv U64 (v "x37")) (v "x7"))))) (mull (Conv U64 (v "x27")) (v "x17"))) (mull (Conv U64 (v "x35")) (v "x9"))) (mull (Conv U64 (v "x23")) (v "x21"))) (mull (Conv U64 (v "x39")) (v "x5")));
    dl "x49" (addl (addl (addl (addl (addl (addl (addl (addl (addl (mull (Conv U64 (v "x31")) (v "x15")) (mull (Conv U64 (v "x33")) (v "x13"))) (mull (Conv U64 (v "x29")) (v "x17"))) (mull (Conv U64 (v "x35")) (v "x11"))) (mull (Conv U64 (v "x27")) (v "x19"))) (mull (Conv U64 (v "x37")) (v "x9"))) (mull (Conv U64 (v "x25")) (v "x21"))) (mull (Conv U64 (v "x39")) (v "x7"))) (mull (Conv U64 (v "x23")) (v "x20"))) (mull (Conv U64 (v "x38")) (v "x5")));
    dl "x50" (addl (addl (addl (addl (mull (Lit 0x2) (addl (addl (addl (addl (mull (Conv U64 (v "x33")) (v "x15")) (mull (Conv U64 (v "x29")) (v "x19"))) (mull (Conv U64 (v "x37")) (v "x11"))) (mull (Conv U64 (v "x25")) (v "x20"))) (mull (Conv U64 (v "x38")) (v "x7")))) (mull (Conv U64 (v "x31")) (v "x17"))) (mull (Conv U64 (v "x35")) (v "x13"))) (mull (Conv U64 (v "x27")) (v "x21"))) (mull (Conv U64 (v "x39")) (v "x9")));
    dl "x51" (addl (addl (addl (addl (addl (addl (addl (mull (Conv U64 (v "x33")) (v "x17")) (mull (Conv U64 (v "x35")) (v "x15"))) (mull (Conv U64 (v "x31")) (v "x19"))) (mull (Conv U64 (v "x37")) (v "x13"))) (mull (Conv U64 (v "x29")) (v "x21"))) (mull (Conv U64 (v "x39")) (v "x11"))) (mull (Conv U64 (v "x27")) (v "x20"))) (mull (Conv U64 (v "x38")) (v "x9")));
    dl "x52" (addl (addl (addl (mull (Conv U64 (v "x35")) (v "x17")) (mull (Lit 0x2) (addl (addl (addl (mull (Conv U64 (v "x33")) (v "x19")) (mull (Conv U64 (v "x37")) (v "x15"))) (mull (Conv U64 (v "x29")) (v "x20"))) (mull (Conv U64 (v "x38")) (v "x11"))))) (mull (Conv U64 (v "x31")) (v "x21"))) (mull (Conv U64 (v "x39")) (v "x13")));
    dl "x53" (addl (addl (addl (addl (addl (mull (Conv U64 (v "x35")) (v "x19")) (mull (Conv U64 (v "x37")) (v "x17"))) (mull (Conv U64 (v "x33")) (v "x21"))) (mull (Conv U64 (v "x39")) (v "x15"))) (mull (Conv U64 (v "x31")) (v "x20"))) (mull (Conv U64 (v "x38")) (v "x13")));
    dl "x54" (addl (addl (mull (Lit 0x2) (addl (addl (mull (Conv U64 (v "x37")) (v "x19")) (mull (Conv U64 (v "x33")) (v "x20"))) (mull (Conv U64 (v "x38")) (v "x15")))) (mull (Conv U64 (v "x35")) (v "x21"))) (mull (Conv U64 (v "x39")) (v "x17")));
    dl "x55" (addl (addl (addl (mull (Conv U64 (v "x37")) (v "x21")) (mull (Conv U64 (v "x39")) (v "x19"))) (mull (Conv U64 (v "x35")) (v "x20"))) (mull (Conv U64 (v "x38")) (v "x17")));
    dl "x56" (addl (mull (Conv U64 (v "x39")) (v "x21")) (mull (Lit 0x2) (addl (mull (Conv U64 (v "x37")) (v "x20")) (mull (Conv U64 (v "x38")) (v "x19")))));
    dl "x57" (addl (mull (Conv U64 (v "x39")) (v "x20")) (mull (Conv U64 (v "x38")) (v "x21")));
    dl "x58" (mull (Conv U64 (mulw (Lit 0x2) (v "x38"))) (v "x20"));
    dl "x59" (addl (v "x48") (shll (v "x58") (Lit 0x4)));
    dl "x60" (addl (v "x59") (shll (v "x58") (Lit 0x1)));
    dl "x61" (addl (v "x60") (v "x58"));
    dl "x62" (addl (v "x47") (shll (v "x57") (Lit 0x4)));
    dl "x63" (addl (v "x62") (shll (v "x57") (Lit 0x1)));
    dl "x64" (addl (v "x63") (v "x57"));
    dl "x65" (addl (v "x46") (shll (v "x56") (Lit 0x4)));
    dl "x66" (addl (v "x65") (shll (v "x56") (Lit 0x1)));
    dl "x67" (addl (v "x66") (v "x56"));
    dl "x68" (addl (v "x45") (shll (v "x55") (Lit 0x4)));
    dl "x69" (addl (v "x68") (shll (v "x55") (Lit 0x1)));
    dl "x70" (addl (v "x69") (v "x55"));
    dl "x71" (addl (v "x44") (shll (v "x54") (Lit 0x4)));
    dl "x72" (addl (v "x71") (shll (v "x54") (Lit 0x1)));
    dl "x73" (addl (v "x72") (v "x54"));
    dl "x74" (addl (v "x43") (shll (v "x53") (Lit 0x4)));
    dl "x75" (addl (v "x74") (shll (v "x53") (Lit 0x1)));
    dl "x76" (addl (v "x75") (v "x53"));
    dl "x77" (addl (v "x42") (shll (v "x52") (Lit 0x4)));
    dl "x78" (addl (v "x77") (shll (v "x52") (Lit 0x1)));
    dl "x79" (addl (v "x78") (v "x52"));
    dl "x80" (addl (v "x41") (shll (v "x51") (Lit 0x4)));
    dl "x81" (addl (v "x80") (shll (v "x51") (Lit 0x1)));
    dl "x82" (addl (v "x81") (v "x51"));
    dl "x83" (addl (v "x40") (shll (v "x50") (Lit 0x4)));
    dl "x84" (addl (v "x83") (shll (v "x50") (Lit 0x1)));
    dl "x85" (addl (v "x84") (v "x50"));
    dl "x86" (shrl (v "x85") (Lit 0x1a));
    dw "x87" (andw (Conv U32 (v "x85")) (Lit 0x3ffffff));
    dl "x88" (addl (v "x86") (v "x82"));
    dl "x89" (shrl (v "x88") (Lit 0x19));
    dw "x90" (andw (Conv U32 (v "x88")) (Lit 0x1ffffff));
    dl "x91" (addl (v "x89") (v "x79"));
    dl "x92" (shrl (v "x91") (Lit 0x1a));
    dw "x93" (andw (Conv U32 (v "x91")) (Lit 0x3ffffff));
    dl "x94" (addl (v "x92") (v "x76"));
    dl "x95" (shrl (v "x94") (Lit 0x19));
    dw "x96" (andw (Conv U32 (v "x94")) (Lit 0x1ffffff));
    dl "x97" (addl (v "x95") (v "x73"));
    dl "x98" (shrl (v "x97") (Lit 0x1a));
    dw "x99" (andw (Conv U32 (v "x97")) (Lit 0x3ffffff));
    dl "x100" (addl (v "x98") (v "x70"));
    dl "x101" (shrl (v "x100") (Lit 0x19));
    dw "x102" (andw (Conv U32 (v "x100")) (Lit 0x1ffffff));
    dl "x103" (addl (v "x101") (v "x67"));
    dl "x104" (shrl (v "x103") (Lit 0x1a));
    dw "x105" (andw (Conv U32 (v "x103")) (Lit 0x3ffffff));
    dl "x106" (addl (v "x104") (v "x64"));
    dl "x107" (shrl (v "x106") (Lit 0x19));
    dw "x108" (andw (Conv U32 (v "x106")) (Lit 0x1ffffff));
    dl "x109" (addl (v "x107") (v "x61"));
    dl "x110" (shrl (v "x109") (Lit 0x1a));
    dw "x111" (andw (Conv U32 (v "x109")) (Lit 0x3ffffff));
    dl "x112" (addl (v "x110") (v "x49"));
    dl "x113" (shrl (v "x112") (Lit 0x19));
    dw "x114" (andw (Conv U32 (v "x112")) (Lit 0x1ffffff));
    dl "x115" (addl (v "x87") (mull (Lit 0x13) (v "x113")));
    dw "x116" (Conv U32 (shrl (v "x115") (Lit 0x1a)));
    dw "x117" (andw (Conv U32 (v "x115")) (Lit 0x3ffffff));
    dw "x118" (addw (v "x116") (v "x90"));
    dw "x119" (shrw (v "x118") (Lit 0x19));
    dw "x120" (andw (v "x118") (Lit 0x1ffffff));
    st U32 out 0 (v "x117");
    st U32 out 1 (v "x120");
    st U32 out 2 (addw (v "x119") (v "x93"));
    st U32 out 3 (v "x96");
    st U32 out 4 (v "x99");
    st U32 out 5 (v "x102");
    st U32 out 6 (v "x105");
    st U32 out 7 (v "x108");
    st U32 out 8 (v "x111");
    st U32 out 9 (v "x114")].
(** curve25519-fiat32.h:797-839 the body of the loop *)
Definition bit_ : list stmt :=
  [dw "b" (Bin I32 And (Lit 1) (Bin I32 Shr (ld_ U8 ("e", 0) (Bin I32 Quot (v "pos") (Lit 8))) (Bin I32 And (v "pos") (Lit 7))))].
Definition rung_ : list stmt :=
  let x1 := ("x1", 0) in let x2 := ("x2", 0) in let z2 := ("z2", 0) in let x3 := ("x3", 0) in let z3 := ("z3", 0) in
  let x2l := ("x2l", 0) in let z2l := ("z2l", 0) in let x3l := ("x3l", 0) in
  let tmp0 := ("tmp0", 0) in let tmp1 := ("tmp1", 0) in let tmp0l := ("tmp0l", 0) in let tmp1l := ("tmp1l", 0) in
  [dw "swap" (xorw (v "swap") (v "b"));
   fe_cswap_ x2 x3 "swap";
   fe_cswap_ z2 z3 "swap";
   dw "swap" (v "b");
   fe_sub_ tmp0l x3 z3;
   fe_sub_ tmp1l x2 z2;
   fe_add_ x2l x2 z2;
   fe_add_ z2l x3 z3;
   fe_mul_ z3 tmp0l x2l;
   fe_mul_ z2 z2l tmp1l;
   fe_sqr_ tmp0 tmp1l;
   fe_sqr_ tmp1 x2l;
   fe_add_ x3l z3 z2;
   fe_sub_ z2l z3 z2;
   fe_mul_ x2 tmp1 tmp0;
   fe_sub_ tmp1l tmp1 tmp0;
   fe_sqr_ z2 z2l;
   fe_mul121666_ z3 tmp1l;
   fe_sqr_ x3 x3l;
   fe_add_ tmp0l tmp0 z3;
   fe_mul_ z3 x1 z2;
   fe_mul_ z2 tmp1l tmp0l].
(** curve25519-fiat32.h:752-860 and src/curve25519.c:95-98; pos >= 0 is written -1 < pos *)
Definition before_ (scalar point : ptr) : list stmt :=
  [dw "swap" (Lit 0);
   copy U8 ("e", 0) scalar 32;
   clamp_secret_ ("e", 0);
   fe_frombytes_ ("x1", 0) point;
   fe_1_ ("x2", 0);
   fe_0_ ("z2", 0);
   fe_copy_ ("x3", 0) ("x1", 0);
   fe_1_ ("z3", 0);
   Set_ I32 "pos" (Lit 254)].
Definition ladder_ : stmt :=
  While (Bin I32 Lt (Lit (-1)) (v "pos")) (block (bit_ ++ rung_ ++ [Set_ I32 "pos" (Bin I32 Sub (v "pos") (Lit 1))])).
Definition after_ (out : ptr) : list stmt :=
  [fe_cswap_ ("x2", 0) ("x3", 0) "swap";
   fe_cswap_ ("z2", 0) ("z3", 0) "swap";
   fe_invert_ ("z2", 0) ("z2", 0);
   fe_mul_ ("x2", 0) ("x2", 0) ("z2", 0);
   fe_tobytes_ out ("x2", 0)].
(** memzero_explicit *)
Definition clear_ : list stmt :=
  [zero U32 ("x1", 0) 10; zero U32 ("x2", 0) 10; zero U32 ("z2", 0) 10; zero U32 ("x3", 0) 10; zero U32 ("z3", 0) 10; zero U32 ("x2l", 0) 10; zero U32 ("z2l", 0) 10; zero U32 ("x3l", 0) 10;
   zero U8 ("e", 0) 32].
Definition curve25519_generic_ (out scalar point : ptr) : stmt := block (before_ scalar point ++ [ladder_] ++ after_ out ++ clear_).
