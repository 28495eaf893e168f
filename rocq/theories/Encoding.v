(** Model of src/encoding.c (src/encoding.h:13-14 gives WG_KEY_LEN_BASE64 = 45 and
    WG_KEY_LEN_HEX = 65, both with the NUL). *)
From Coq Require Import ZArith List Bool.
From Verif Require Import Base.
Import ListNotations.
Open Scope Z_scope.

Definition at_ (l : list Z) (i : nat) : Z := nth i l 0.

(** src/encoding.c:16-20: one output character.  [x] is a uint8_t promoted to int; the sum is
    stored in a char, i.e. reduced modulo 256. *)
Definition b64_out (x : Z) : Z :=
  u8 (x + 65
      + Z.land (Z.shiftr (25 - x) 8) 6
      - Z.land (Z.shiftr (51 - x) 8) 75
      - Z.land (Z.shiftr (61 - x) 8) 15
      + Z.land (Z.shiftr (62 - x) 8) 3).

(** src/encoding.c:11-22 [encode_base64]. *)
Definition encode_base64 (s0 s1 s2 : Z) : list Z :=
  map b64_out
    [ Z.land (Z.shiftr s0 2) 63;
      Z.land (Z.lor (Z.shiftl s0 4) (Z.shiftr s1 4)) 63;
      Z.land (Z.lor (Z.shiftl s1 2) (Z.shiftr s2 6)) 63;
      Z.land s2 63 ].

(** src/encoding.c:24-33 [key_to_base64]: ten full groups, one group of two bytes, then index 43 is
    overwritten with '='. The final NUL is implicit. *)
Definition key_to_base64 (key : list Z) : list Z :=
  let full := flat_map (fun i => encode_base64 (at_ key (i * 3)) (at_ key (i * 3 + 1)) (at_ key (i * 3 + 2)))
                       (seq 0 10) in
  let all := full ++ encode_base64 (at_ key 30) (at_ key 31) 0 in
  firstn 43 all ++ [61].

(** src/encoding.c:40-46: contribution of one character, before shifting.  [c] is the promoted
    value of a char.  The right shifts are arithmetic (gcc, clang). *)
Definition b64_in (c : Z) : Z :=
  -1
  + Z.land (Z.shiftr (Z.land ((65 - 1) - c) (c - (90 + 1))) 8) (c - 64)
  + Z.land (Z.shiftr (Z.land ((97 - 1) - c) (c - (122 + 1))) 8) (c - 70)
  + Z.land (Z.shiftr (Z.land ((48 - 1) - c) (c - (57 + 1))) 8) (c + 5)
  + Z.land (Z.shiftr (Z.land ((43 - 1) - c) (c - (43 + 1))) 8) 63
  + Z.land (Z.shiftr (Z.land ((47 - 1) - c) (c - (47 + 1))) 8) 64.

(** src/encoding.c:35-48 [decode_base64].  Values stay within 24 bits plus sign, so int arithmetic is
    exact; shifting a negative value left is taken as multiplication (as gcc and clang do). *)
Definition decode_base64 (sg : bool) (c0 c1 c2 c3 : Z) : Z :=
  let d c k := Z.shiftl (b64_in (char_val sg c)) k in
  Z.lor (Z.lor (Z.lor (Z.lor 0 (d c0 18)) (d c1 12)) (d c2 6)) (d c3 0).

(** src/encoding.c:50-72 [key_from_base64].  Returns [None] where the C returns false (the output
    buffer is then unspecified to callers). *)
Definition key_from_base64 (sg : bool) (s : list Z) : option (list Z) :=
  if negb (Nat.eqb (length s) 44) || negb (at_ s 43 =? 61) then None else
  let vals := map (fun i => decode_base64 sg (at_ s (i * 4)) (at_ s (i * 4 + 1))
                                             (at_ s (i * 4 + 2)) (at_ s (i * 4 + 3)))
                  (seq 0 10) in
  let ret1 := fold_left (fun ret v => u8 (Z.lor ret (Z.shiftr (u32 v) 31))) vals 0 in
  let v := decode_base64 sg (at_ s 40) (at_ s 41) (at_ s 42) 65 in
  let ret2 := u8 (Z.lor ret1 (Z.lor (Z.shiftr (u32 v) 31) (Z.land v 255))) in
  let key := flat_map (fun v => [ Z.land (Z.shiftr v 16) 255; Z.land (Z.shiftr v 8) 255; Z.land v 255 ]) vals
             ++ [ Z.land (Z.shiftr v 16) 255; Z.land (Z.shiftr v 8) 255 ] in
  if Z.land 1 (Z.shiftr (ret2 - 1) 8) =? 0 then None else Some key.

(** src/encoding.c:79-80: one hex digit; unsigned 32-bit arithmetic, stored in a char. *)
Definition hex_out (x : Z) : Z :=
  u8 (u32 (87 + x + Z.land (Z.shiftr (u32 (x - 10)) 8) (u32 (Z.lnot 38)))).

(** src/encoding.c:74-83 [key_to_hex]. *)
Definition key_to_hex (key : list Z) : list Z :=
  flat_map (fun i => [ hex_out (Z.shiftr (at_ key i) 4); hex_out (Z.land (at_ key i) 15) ]) (seq 0 32).

(** src/encoding.c:94-100 (and 103-109): value and error contribution of one hex character.
    All variables are uint8_t; the arithmetic is 32-bit unsigned except [... - 1], where the operand is a
    promoted uint8_t. *)
Definition hex_in (c : Z) : Z * Z :=
  let c_num := u8 (Z.lxor c 48) in
  let c_num0 := u8 (Z.shiftr (u32 (c_num - 10)) 8) in
  let c_alpha := u8 (u32 (Z.land c (u32 (Z.lnot 32)) - 55)) in
  let c_alpha0 := u8 (Z.shiftr (Z.lxor (u32 (c_alpha - 10)) (u32 (c_alpha - 16))) 8) in
  let err := Z.shiftr (Z.lor c_num0 c_alpha0 - 1) 8 in
  let c_val := Z.lor (Z.land c_num0 c_num) (Z.land c_alpha0 c_alpha) in
  (c_val, err).

(** src/encoding.c:85-114 [key_from_hex]. *)
Definition key_from_hex (s : list Z) : option (list Z) :=
  if negb (Nat.eqb (length s) 64) then None else
  let step acc i :=
    let '(key, ret) := acc in
    let '(v0, e0) := hex_in (at_ s (i * 2)) in
    let '(v1, e1) := hex_in (at_ s (i * 2 + 1)) in
    (key ++ [ u8 (Z.lor (u8 (v0 * 16)) v1) ], u8 (Z.lor (u8 (Z.lor ret e0)) e1)) in
  let '(key, ret) := fold_left step (seq 0 32) ([], 0) in
  if Z.land 1 (Z.shiftr (ret - 1) 8) =? 0 then None else Some key.

(** src/encoding.c:116-125 [key_is_zero]. *)
Definition key_is_zero (key : list Z) : bool :=
  let acc := fold_left (fun acc i => Z.lor acc (at_ key i)) (seq 0 32) 0 in
  negb (Z.land 1 (Z.shiftr (acc - 1) 8) =? 0).
