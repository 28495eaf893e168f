(** What a numeral is, independently of strtoul. *)
From Coq Require Import ZArith List Bool.
Import ListNotations.
Open Scope Z_scope.

(** [c] is the decimal (hexadecimal) digit with value [v]. *)
Definition dec_digit (c v : Z) : Prop := 48 <= c <= 57 /\ v = c - 48.
Definition hex_digit (c v : Z) : Prop :=
  (48 <= c <= 57 /\ v = c - 48) \/ (97 <= c <= 102 /\ v = c - 87) \/ (65 <= c <= 70 /\ v = c - 55).

(** A non-empty string of digits and its value, most significant digit first. *)
Inductive numeral (digit : Z -> Z -> Prop) (base : Z) : list Z -> Z -> Prop :=
| num_one : forall c v, digit c v -> numeral digit base [c] v
| num_more : forall s n c v, numeral digit base s n -> digit c v -> numeral digit base (s ++ [c]) (n * base + v).

Definition decimal : list Z -> Z -> Prop := numeral dec_digit 10.
Definition hexadecimal : list Z -> Z -> Prop := numeral hex_digit 16.
