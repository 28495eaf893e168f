(** X25519 as RFC 7748 (sections 4.1 and 5) defines it, on numbers.  Nothing here refers to the model. *)
From Coq Require Import ZArith List Bool.
Import ListNotations.
Open Scope Z_scope.

(** The prime of section 4.1. *)
Definition p25519 : Z := 2 ^ 255 - 19.

(** Section 5: decodeLittleEndian, decodeScalar25519, decodeUCoordinate (bits = 255), encodeUCoordinate. *)
Fixpoint decode_le (l : list Z) : Z := match l with [] => 0 | b :: l' => b + 256 * decode_le l' end.
Fixpoint encode_le (n : nat) (v : Z) : list Z := match n with O => [] | S n' => v mod 256 :: encode_le n' (v / 256) end.
(** k_list[0] &= 248; k_list[31] &= 127; k_list[31] |= 64. *)
Definition decode_scalar (k : list Z) : Z := 
  decode_le (map (fun i => let b := nth i k 0 in
                           if Nat.eqb i 0 then Z.land b 248 else if Nat.eqb i 31 then Z.lor (Z.land b 127) 64 else b) (seq 0 32)).
(** u_list[-1] &= (1 << (bits % 8)) - 1. *)
Definition decode_u (u : list Z) : Z :=
  decode_le (map (fun i => let b := nth i u 0 in if Nat.eqb i 31 then Z.land b 127 else b) (seq 0 32)).
Definition encode_u (u : Z) : list Z := encode_le 32 (u mod p25519).

(** Arithmetic in GF(p). *)
Definition fadd (a b : Z) : Z := (a + b) mod p25519.
Definition fsub (a b : Z) : Z := (a - b) mod p25519.
Definition fmult (a b : Z) : Z := (a * b) mod p25519.
Definition fpow (a n : Z) : Z := a ^ n mod p25519.
Definition a24 : Z := 121665.

(** The variables x_2, z_2, x_3, z_3, swap of the pseudo code. *)
Record rfc_state := mk_rfc { r_x2 : Z; r_z2 : Z; r_x3 : Z; r_z3 : Z; r_swap : bool }.
Definition cswap (swap : bool) (a b : Z) : Z * Z := if swap then (b, a) else (a, b).

(** The body of the loop, for the bit k_t. *)
Definition rfc_step (x1 : Z) (k_t : bool) (s : rfc_state) : rfc_state :=
  let swap := xorb (r_swap s) k_t in
  let (x2, x3) := cswap swap (r_x2 s) (r_x3 s) in
  let (z2, z3) := cswap swap (r_z2 s) (r_z3 s) in
  let A := fadd x2 z2 in
  let AA := fpow A 2 in
  let B := fsub x2 z2 in
  let BB := fpow B 2 in
  let E := fsub AA BB in
  let C := fadd x3 z3 in
  let D := fsub x3 z3 in
  let DA := fmult D A in
  let CB := fmult C B in
  mk_rfc (fmult AA BB) (fmult E (fadd AA (fmult a24 E))) (fpow (fadd DA CB) 2) (fmult x1 (fpow (fsub DA CB) 2)) k_t.

(** For t = n-1 down to 0. *)
Fixpoint rfc_loop (x1 k : Z) (n : nat) (s : rfc_state) : rfc_state :=
  match n with
  | O => s
  | S t => rfc_loop x1 k t (rfc_step x1 (Z.testbit k (Z.of_nat t)) s)
  end.

Definition rfc_ladder (k u : Z) : Z :=
  let s := rfc_loop u k 255 (mk_rfc 1 0 u 1 false) in
  let (x2, _) := cswap (r_swap s) (r_x2 s) (r_x3 s) in
  let (z2, _) := cswap (r_swap s) (r_z2 s) (r_z3 s) in
  fmult x2 (fpow z2 (p25519 - 2)).

Definition x25519 (k u : list Z) : list Z := encode_u (rfc_ladder (decode_scalar k) (decode_u u)).
