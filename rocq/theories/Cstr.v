(** The libc string functions the tools call, on byte lists.  These model libc (C11 7.22.1.4, POSIX
    strcasecmp/strsep/strchr/strrchr in the C locale, printf %u and %x), not repository code. *)
From Coq Require Import ZArith List Bool Lia.
From Verif Require Import Base.
Import ListNotations.
Open Scope Z_scope.

(** strcmp(a, b) == 0 is [beq a b]; strcasecmp(a, b) == 0: *)
Definition ci_eq (a b : list Z) : bool := beq (lowers a) (lowers b).

(** strchr: the part before the first [c] and the part after it. *)
Fixpoint split_first (c : Z) (s : list Z) : option (list Z * list Z) :=
  match s with
  | [] => None
  | x :: s' =>
      if x =? c then Some ([], s')
      else match split_first c s' with
           | Some (a, b) => Some (x :: a, b)
           | None => None
           end
  end.

(** strrchr: the part before the last [c] and the part after it. *)
Fixpoint split_last (c : Z) (s : list Z) : option (list Z * list Z) :=
  match s with
  | [] => None
  | x :: s' =>
      match split_last c s' with
      | Some (a, b) => Some (x :: a, b)
      | None => if x =? c then Some ([], s') else None
      end
  end.

Definition has_char (c : Z) (s : list Z) : bool := existsb (Z.eqb c) s.

(** Repeated strsep(&s, sep) until it returns NULL, for a non-NULL start: all fields. *)
Fixpoint split_all (c : Z) (s : list Z) : list (list Z) :=
  match s with
  | [] => [[]]
  | x :: s' =>
      if x =? c then [] :: split_all c s'
      else match split_all c s' with
           | f :: fs => (x :: f) :: fs
           | [] => [[x]]
           end
  end.

(** isspace in the C locale. *)
Definition isspace (c : Z) : bool := ((9 <=? c) && (c <=? 13)) || (c =? 32).

(** Value of [c] as a digit of [base]. *)
Definition digit_in (base : Z) (c : Z) : option Z :=
  let v := if (48 <=? c) && (c <=? 57) then c - 48
           else if (97 <=? c) && (c <=? 122) then c - 87
           else if (65 <=? c) && (c <=? 90) then c - 55
           else base in
  if v <? base then Some v else None.

(** Longest prefix of digits: its value (exact) and the rest; [n] counts the digits. *)
Fixpoint take_digits (base acc : Z) (n : nat) (s : list Z) : Z * nat * list Z :=
  match s with
  | c :: s' =>
      match digit_in base c with
      | Some v => take_digits base (acc * base + v) (S n) s'
      | None => (acc, n, s)
      end
  | [] => (acc, n, [])
  end.

Fixpoint skip_spaces (s : list Z) : list Z :=
  match s with
  | c :: s' => if isspace c then skip_spaces s' else s
  | [] => []
  end.

(** strtoul(s, &end, base) for base 10 and 16: result and [end].  [ulmax] is ULONG_MAX.  On overflow the
    result is ULONG_MAX; a minus sign negates modulo ULONG_MAX+1; without digits [end] is [s] (for a lone "0x"
    prefix, the "x"). *)
Definition strtoul (ulmax base : Z) (s : list Z) : Z * list Z :=
  let s1 := skip_spaces s in
  let '(neg, s2) := match s1 with
                    | 45 :: t => (true, t)
                    | 43 :: t => (false, t)
                    | _ => (false, s1)
                    end in
  let '(s3, pref) := match s2 with
                     | 48 :: x :: t => if (base =? 16) && ((x =? 120) || (x =? 88)) then (t, Some (x :: t)) else (s2, None)
                     | _ => (s2, None)
                     end in
  let '(v, n, rest) := take_digits base 0 0 s3 in
  match n with
  | O => match pref with Some p => (0, p) | None => (0, s) end
  | _ => if ulmax <? v then (ulmax, rest)
         else (if neg then (- v) mod (ulmax + 1) else v, rest)
  end.

(** strtoull: the same with ULLONG_MAX = 2^64-1. *)

(** printf("%u") and printf("%x") (and %llu, PRIu64): digits, most significant first. *)
Definition digit_char (d : Z) : Z := if d <? 10 then 48 + d else 87 + d.

Fixpoint print_aux (fuel : nat) (base n : Z) (acc : list Z) : list Z :=
  match fuel with
  | O => acc
  | S f =>
      let acc' := digit_char (n mod base) :: acc in
      if n / base =? 0 then acc' else print_aux f base (n / base) acc'
  end.

Definition print_num (base n : Z) : list Z := print_aux (S (Z.to_nat (Z.log2 n))) base n [].
Definition print_dec (n : Z) : list Z := print_num 10 n.
Definition print_hex (n : Z) : list Z := print_num 16 n.
