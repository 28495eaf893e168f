(** Independent specification of key texts: RFC 4648 base64 by table, and hexadecimal. *)
From Coq Require Import String ZArith List Bool.
From Verif Require Import Base.
Import ListNotations.
Open Scope Z_scope.

(** RFC 4648 section 4, table 1. *)
Definition b64_alphabet : list Z :=
  str "ABCDEFGHIJKLMNOPQRSTUVWXYZabcdefghijklmnopqrstuvwxyz0123456789+/".

Definition b64_char (d : Z) : Z := nth (Z.to_nat d) b64_alphabet 0.

(** RFC 4648: 24-bit groups give four digits; a final 16-bit group gives three digits and one '=';
    a final 8-bit group gives two digits and two '='. *)
Fixpoint rfc4648 (l : list Z) : list Z :=
  match l with
  | a :: b :: c :: l' =>
      let n := a * 65536 + b * 256 + c in
      b64_char (n / 262144) :: b64_char (n / 4096 mod 64) :: b64_char (n / 64 mod 64) :: b64_char (n mod 64)
        :: rfc4648 l'
  | [a; b] =>
      let n := a * 65536 + b * 256 in
      [b64_char (n / 262144); b64_char (n / 4096 mod 64); b64_char (n / 64 mod 64); 61]
  | [a] =>
      let n := a * 65536 in
      [b64_char (n / 262144); b64_char (n / 4096 mod 64); 61; 61]
  | [] => []
  end.

(** A key: 32 bytes. *)
Definition is_key (k : list Z) : Prop := length k = 32%nat /\ Forall is_byte k.

(** Hexadecimal. *)
Definition hex_lower : list Z := str "0123456789abcdef".
Definition hex_spec (k : list Z) : list Z :=
  flat_map (fun b => [nth (Z.to_nat (b / 16)) hex_lower 0; nth (Z.to_nat (b mod 16)) hex_lower 0]) k.

(** Value of a hexadecimal digit of either case. *)
Definition hexval (c : Z) : option Z :=
  if (48 <=? c) && (c <=? 57) then Some (c - 48)
  else if (97 <=? c) && (c <=? 102) then Some (c - 87)
  else if (65 <=? c) && (c <=? 70) then Some (c - 55)
  else None.

Fixpoint unhex (s : list Z) : option (list Z) :=
  match s with
  | [] => Some []
  | a :: b :: s' =>
      match hexval a, hexval b, unhex s' with
      | Some x, Some y, Some k => Some (x * 16 + y :: k)
      | _, _, _ => None
      end
  | _ => None
  end.

(** Character classes. *)
Definition space_spec (c : Z) : Prop := c = 9 \/ c = 10 \/ c = 11 \/ c = 12 \/ c = 13 \/ c = 32.
Definition digit_spec (c : Z) : Prop := 48 <= c <= 57.
Definition alpha_spec (c : Z) : Prop := 65 <= c <= 90 \/ 97 <= c <= 122.
