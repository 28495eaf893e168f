(** src/encoding.c:11-125 as programs of Leak.v, statement by statement.  Calls of the static inline functions are written out, with the
    array and the offset the pointer argument stands for. *)
From Coq Require Import String ZArith List Bool.
From Verif Require Import Base Leak.
Import ListNotations.
Open Scope string_scope.
Open Scope Z_scope.

(** int and unsigned int arithmetic. *)
Definition add := Bin I32 Add. Definition sub := Bin I32 Sub. Definition and_ := Bin I32 And. Definition or_ := Bin I32 Or.
Definition shl := Bin I32 Shl. Definition shr := Bin I32 Shr.
Definition addu := Bin U32 Add. Definition subu := Bin U32 Sub. Definition mulu := Bin U32 Mul. Definition andu := Bin U32 And.
Definition oru := Bin U32 Or. Definition xoru := Bin U32 Xor. Definition shru := Bin U32 Shr. Definition ltu := Bin U32 Lt.
Definition cpl (e : expr) : expr := xoru e (Lit 4294967295).
(** for (i = 0; i < n; i += k) *)
Definition for_ (i : string) (n : expr) (k : Z) (body : list stmt) : stmt :=
  Seq (Set_ U32 i (Lit 0)) (While (ltu (Var i) n) (block (body ++ [Set_ U32 i (addu (Var i) (Lit k))]))).

(** src/encoding.c:11-22 encode_base64(&dest[doff], &src[soff]) *)
Definition encode_base64_ (dest : string) (doff : expr) (src : string) (soff : expr) : stmt :=
  let s k := At U8 src (addu soff (Lit k)) in
  let x := At U8 "input" (Var "j") in
  block
   [Put U8 "input" (Lit 0) (and_ (shr (s 0) (Lit 2)) (Lit 63));
    Put U8 "input" (Lit 1) (and_ (or_ (shl (s 0) (Lit 4)) (shr (s 1) (Lit 4))) (Lit 63));
    Put U8 "input" (Lit 2) (and_ (or_ (shl (s 1) (Lit 2)) (shr (s 2) (Lit 6))) (Lit 63));
    Put U8 "input" (Lit 3) (and_ (s 2) (Lit 63));
    for_ "j" (Lit 4) 1
     [Put CHAR dest (addu doff (Var "j"))
       (add (sub (sub (add (add x (Lit 65))
         (and_ (shr (sub (Lit 25) x) (Lit 8)) (Lit 6)))
         (and_ (shr (sub (Lit 51) x) (Lit 8)) (Lit 75)))
         (and_ (shr (sub (Lit 61) x) (Lit 8)) (Lit 15)))
         (and_ (shr (sub (Lit 62) x) (Lit 8)) (Lit 3)))]].

(** src/encoding.c:24-33 key_to_base64 *)
Definition key_to_base64_ : stmt :=
  block
   [for_ "i" (Bin I32 Quot (Lit 32) (Lit 3)) 1 [encode_base64_ "base64" (mulu (Var "i") (Lit 4)) "key" (mulu (Var "i") (Lit 3))];
    Put U8 "tail" (Lit 0) (At U8 "key" (addu (mulu (Var "i") (Lit 3)) (Lit 0)));
    Put U8 "tail" (Lit 1) (At U8 "key" (addu (mulu (Var "i") (Lit 3)) (Lit 1)));
    Put U8 "tail" (Lit 2) (Lit 0);
    encode_base64_ "base64" (mulu (Var "i") (Lit 4)) "tail" (Lit 0);
    Put CHAR "base64" (Lit (45 - 2)) (Lit 61);
    Put CHAR "base64" (Lit (45 - 1)) (Lit 0)].

(** src/encoding.c:35-48 val = decode_base64(&src[off]) *)
Definition decode_base64_ (src : string) (off : expr) : stmt :=
  let c := At CHAR src (addu off (Var "j")) in
  let range lo hi v := and_ (shr (and_ (sub (sub (Lit lo) (Lit 1)) c) (sub c (add (Lit hi) (Lit 1)))) (Lit 8)) v in
  block
   [Set_ I32 "val" (Lit 0);
    for_ "j" (Lit 4) 1
     [Set_ I32 "val" (or_ (Var "val") (shl
       (add (add (add (add (add (Lit (-1))
         (range 65 90 (sub c (Lit 64))))
         (range 97 122 (sub c (Lit 70))))
         (range 48 57 (add c (Lit 5))))
         (range 43 43 (Lit 63)))
         (range 47 47 (Lit 64)))
       (subu (Lit 18) (mulu (Lit 6) (Var "j")))))]].

(** src/encoding.c:59-67: the loop and what follows it. *)
Definition from_base64_body : stmt :=
  let val := Var "val" in
  block
   [for_ "i" (Bin I32 Quot (Lit 32) (Lit 3)) 1
     [decode_base64_ "base64" (mulu (Var "i") (Lit 4));
      Set_ U8 "ret" (oru (Var "ret") (shru (Conv U32 val) (Lit 31)));
      Put U8 "key" (addu (mulu (Var "i") (Lit 3)) (Lit 0)) (and_ (shr val (Lit 16)) (Lit 255));
      Put U8 "key" (addu (mulu (Var "i") (Lit 3)) (Lit 1)) (and_ (shr val (Lit 8)) (Lit 255));
      Put U8 "key" (addu (mulu (Var "i") (Lit 3)) (Lit 2)) (and_ val (Lit 255))];
    Put CHAR "tail" (Lit 0) (At CHAR "base64" (addu (mulu (Var "i") (Lit 4)) (Lit 0)));
    Put CHAR "tail" (Lit 1) (At CHAR "base64" (addu (mulu (Var "i") (Lit 4)) (Lit 1)));
    Put CHAR "tail" (Lit 2) (At CHAR "base64" (addu (mulu (Var "i") (Lit 4)) (Lit 2)));
    Put CHAR "tail" (Lit 3) (Lit 65);
    decode_base64_ "tail" (Lit 0);
    Set_ U8 "ret" (oru (Var "ret") (oru (shru (Conv U32 val) (Lit 31)) (and_ val (Lit 255))));
    Put U8 "key" (addu (mulu (Var "i") (Lit 3)) (Lit 0)) (and_ (shr val (Lit 16)) (Lit 255));
    Put U8 "key" (addu (mulu (Var "i") (Lit 3)) (Lit 1)) (and_ (shr val (Lit 8)) (Lit 255));
    Return (and_ (Lit 1) (shr (sub (Var "ret") (Lit 1)) (Lit 8)))].
(** src/encoding.c:50-72 key_from_base64 *)
Definition key_from_base64_ : stmt :=
  block
   [Set_ U8 "ret" (Lit 0);
    Strlen "n" "base64";
    If (Bin U64 Ne (Var "n") (Lit (45 - 1))) (Return (Lit 0))
     (If (Bin I32 Ne (At CHAR "base64" (Lit (45 - 2))) (Lit 61)) (Return (Lit 0)) Skip);
    from_base64_body].

(** src/encoding.c:74-83 key_to_hex *)
Definition key_to_hex_ : stmt :=
  let digit e := addu (addu (Lit 87) e) (andu (shru (subu e (Lit 10)) (Lit 8)) (cpl (Lit 38))) in
  let k := At U8 "key" (Var "i") in
  block
   [for_ "i" (Lit 32) 1
     [Put CHAR "hex" (mulu (Var "i") (Lit 2)) (digit (shr k (Lit 4)));
      Put CHAR "hex" (addu (mulu (Var "i") (Lit 2)) (Lit 1)) (digit (and_ k (Lit 15)))];
    Put CHAR "hex" (mulu (Var "i") (Lit 2)) (Lit 0)].

(** src/encoding.c:94-100 and 103-109 *)
Definition hex_digit_ (c : expr) : list stmt :=
  [Set_ U8 "c" (Conv U8 c);
   Set_ U8 "c_num" (xoru (Var "c") (Lit 48));
   Set_ U8 "c_num0" (shru (subu (Var "c_num") (Lit 10)) (Lit 8));
   Set_ U8 "c_alpha" (subu (andu (Var "c") (cpl (Lit 32))) (Lit 55));
   Set_ U8 "c_alpha0" (shru (xoru (subu (Var "c_alpha") (Lit 10)) (subu (Var "c_alpha") (Lit 16))) (Lit 8));
   Set_ U8 "ret" (or_ (Var "ret") (shr (sub (or_ (Var "c_num0") (Var "c_alpha0")) (Lit 1)) (Lit 8)));
   Set_ U8 "c_val" (or_ (and_ (Var "c_num0") (Var "c_num")) (and_ (Var "c_alpha0") (Var "c_alpha")))].
(** src/encoding.c:93-113 *)
Definition from_hex_body : stmt :=
  block
   [for_ "i" (Lit (65 - 1)) 2
     (hex_digit_ (At CHAR "hex" (Var "i")) ++ [Set_ U8 "c_acc" (mulu (Var "c_val") (Lit 16))] ++
      hex_digit_ (At CHAR "hex" (addu (Var "i") (Lit 1))) ++
      [Put U8 "key" (Bin U32 Quot (Var "i") (Lit 2)) (or_ (Var "c_acc") (Var "c_val"))]);
    Return (and_ (Lit 1) (shr (sub (Var "ret") (Lit 1)) (Lit 8)))].
(** src/encoding.c:85-114 key_from_hex *)
Definition key_from_hex_ : stmt :=
  block
   [Set_ U8 "ret" (Lit 0);
    Strlen "n" "hex";
    If (Bin U64 Ne (Var "n") (Lit (65 - 1))) (Return (Lit 0)) Skip;
    from_hex_body].

(** src/encoding.c:116-125 key_is_zero *)
Definition key_is_zero_ : stmt :=
  block
   [Set_ U8 "acc" (Lit 0);
    for_ "i" (Lit 32) 1 [Set_ U8 "acc" (or_ (Var "acc") (At U8 "key" (Var "i")))];
    Return (and_ (Lit 1) (shr (sub (Var "acc") (Lit 1)) (Lit 8)))].
