(** Model of src/ctype.h. *)
From Coq Require Import ZArith Bool.
From Verif Require Import Base.
Open Scope Z_scope.

(** src/ctype.h:13-17 [char_is_space]: [d] is an unsigned char; the 0x80001F table has bits
    0-4 and 23; [1U >> (d >> 5)] is 1 only for d < 32 (shift amounts are at most 7). *)
Definition char_is_space (c : Z) : bool :=
  let d := u8 (c - 9) in
  negb (Z.land (Z.shiftr 0x80001F (Z.land d 31)) (Z.shiftr 1 (Z.shiftr d 5)) =? 0).

(** src/ctype.h:19-22 [char_is_digit]: sign bit of a 32-bit conjunction. *)
Definition char_is_digit (c : Z) : bool :=
  negb (Z.shiftr (u32 (Z.land (48 - 1 - c) (c - (57 + 1)))) 31 =? 0).

(** src/ctype.h:24-27 [char_is_alpha]. *)
Definition char_is_alpha (c : Z) : bool :=
  negb (Z.shiftr (u32 (Z.land (97 - 1 - Z.lor c 32) (Z.lor c 32 - (122 + 1)))) 31 =? 0).
