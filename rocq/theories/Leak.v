(** A small part of C with what an observer of time and caches can see: the direction of every branch, the index of every array access and
    the lengths strlen runs over.  Expressions and statements are data, so that a program is the text of a C function and nothing else.
    Undefined behaviour (signed overflow, a shift by the width or more, an index outside an array, a string without its end) has no outcome.
    Left shifts of negative numbers and right shifts of them are taken as gcc and clang define them; char is signed or not, as [sg] says. *)
From Coq Require Import String ZArith List Bool Lia.
From Verif Require Import Base.
Import ListNotations.
Open Scope Z_scope.

Inductive ctype := I32 | U32 | U8 | CHAR | U64 | U128.
Inductive binop := Add | Sub | Mul | And | Or | Xor | Shl | Shr | Lt | Ne | Quot.
Inductive expr :=
| Lit (z : Z)
| Var (x : string)
| At (t : ctype) (a : string) (i : expr)             (* a[i], the elements of a being of type t *)
| Bin (t : ctype) (op : binop) (e1 e2 : expr)        (* the operands converted to t *)
| Conv (t : ctype) (e : expr).
Inductive stmt :=
| Skip
| Set_ (t : ctype) (x : string) (e : expr)           (* x = e, x being of type t *)
| Put (t : ctype) (a : string) (i e : expr)          (* a[i] = e *)
| Seq (s1 s2 : stmt)
| If (e : expr) (s1 s2 : stmt)
| While (e : expr) (s : stmt)
| Strlen (x a : string)                              (* x = strlen(a) *)
| Return (e : expr).

Inductive seen := SawBranch (taken : bool) | SawIndex (a : string) (i : Z) | SawLength (a : string) (n : Z).
Definition trace := list seen.

(** Variables and arrays by name.  Elements of arrays are kept as their representation, without sign. *)
Definition env (A : Type) := list (string * A).
Fixpoint get {A} (m : env A) (x : string) : option A :=
  match m with [] => None | (y, v) :: m' => if String.eqb x y then Some v else get m' x end.
Fixpoint put {A} (m : env A) (x : string) (v : A) : env A :=
  match m with [] => [(x, v)] | (y, w) :: m' => if String.eqb x y then (y, v) :: m' else (y, w) :: put m' x v end.
Fixpoint replace_at {A} (l : list A) (n : nat) (v : A) : list A :=
  match l, n with [] , _ => [] | _ :: l', O => v :: l' | x :: l', S n' => x :: replace_at l' n' v end.
Record state := mk_state { st_vars : env Z; st_arrays : env (list Z) }.

Section Semantics.
Variable sg : bool.
Variable fuel : nat.

Definition lowest (t : ctype) : Z := match t with I32 => - 2 ^ 31 | CHAR => if sg then - 128 else 0 | _ => 0 end.
Definition highest (t : ctype) : Z :=
  match t with I32 => 2 ^ 31 - 1 | U32 => 2 ^ 32 - 1 | U8 => 255 | CHAR => if sg then 127 else 255 | U64 => 2 ^ 64 - 1 | U128 => 2 ^ 128 - 1 end.
(** How an element is kept in memory; for unsigned types this is the conversion to the type. *)
Definition stored (t : ctype) (z : Z) : Z := match t with I32 | U32 => u32 z | U8 | CHAR => u8 z | U64 => u64 z | U128 => z mod 2 ^ 128 end.
Definition width (t : ctype) : Z := match t with I32 | U32 => 32 | U8 | CHAR => 8 | U64 => 64 | U128 => 128 end.
Definition b2z (b : bool) : Z := if b then 1 else 0.

(** The exact result; [None]: undefined. *)
Definition exact (t : ctype) (op : binop) (a b : Z) : option Z :=
  match op with
  | Add => Some (a + b) | Sub => Some (a - b) | Mul => Some (a * b)
  | And => Some (Z.land a b) | Or => Some (Z.lor a b) | Xor => Some (Z.lxor a b)
  | Shl => if (0 <=? b) && (b <? width t) then Some (Z.shiftl a b) else None
  | Shr => if (0 <=? b) && (b <? width t) then Some (Z.shiftr a b) else None
  | Lt => Some (b2z (a <? b)) | Ne => Some (b2z (negb (a =? b)))
  | Quot => if b =? 0 then None else Some (Z.quot a b)
  end.
(** Signed types must not overflow, unsigned ones wrap.  (A conversion to a signed type that changes the value is not modelled either.) *)
Definition fits (t : ctype) (z : Z) : option Z :=
  match t with
  | I32 | CHAR => if (lowest t <=? z) && (z <=? highest t) then Some z else None
  | _ => Some (stored t z)
  end.
(** An operand of the type, or converted to it; conversions to a signed type that change the value are not modelled. *)
Definition operand (t : ctype) (z : Z) : option Z := fits t z.
Definition compute (t : ctype) (op : binop) (a b : Z) : option Z :=
  match operand t a, operand t b with
  | Some x, Some y => match exact t op x y with Some r => fits t r | None => None end
  | _, _ => None
  end.
(** The value of an element. *)
Definition loaded (t : ctype) (cell : Z) : Z :=
  match t with CHAR => char_val sg cell | I32 => if 2 ^ 31 <=? cell then cell - 2 ^ 32 else cell | _ => cell end.

(** The value and what was seen. *)
Fixpoint eval (e : expr) (s : state) : option (Z * trace) :=
  match e with
  | Lit z => Some (z, [])
  | Var x => match get (st_vars s) x with Some v => Some (v, []) | None => None end
  | At t a i =>
      match eval i s, get (st_arrays s) a with
      | Some (n, l), Some c =>
          if (0 <=? n) && (n <? Z.of_nat (length c)) then Some (loaded t (nth (Z.to_nat n) c 0), l ++ [SawIndex a n]) else None
      | _, _ => None
      end
  | Bin t op e1 e2 =>
      match eval e1 s, eval e2 s with
      | Some (v1, l1), Some (v2, l2) => match compute t op v1 v2 with Some v => Some (v, l1 ++ l2) | None => None end
      | _, _ => None
      end
  | Conv t e1 => match eval e1 s with Some (v, l) => match fits t v with Some w => Some (w, l) | None => None end | None => None end
  end.

(** The first NUL. *)
Fixpoint strlen_of (c : list Z) : option Z :=
  match c with [] => None | x :: c' => if x =? 0 then Some 0 else match strlen_of c' with Some n => Some (n + 1) | None => None end end.

(** The state afterwards, the returned value if the function returned, and what was seen.  [None]: undefined, or more than [fuel] rounds of
    a loop. *)
Definition outcome : Type := option (state * option Z * trace).
Fixpoint loop (cond : state -> option (Z * trace)) (body : state -> outcome) (n : nat) (s : state) : outcome :=
  match n with
  | O => None
  | S n' =>
      match cond s with
      | None => None
      | Some (v, l) =>
          if v =? 0 then Some (s, None, l ++ [SawBranch false])
          else match body s with
               | None => None
               | Some (s1, Some r, l1) => Some (s1, Some r, l ++ [SawBranch true] ++ l1)
               | Some (s1, None, l1) =>
                   match loop cond body n' s1 with
                   | None => None
                   | Some (s2, r, l2) => Some (s2, r, l ++ [SawBranch true] ++ l1 ++ l2)
                   end
               end
      end
  end.
Fixpoint exec (c : stmt) (s : state) {struct c} : outcome :=
  match c with
  | Skip => Some (s, None, [])
  | Set_ t x e =>
      match eval e s with
      | Some (v, l) => match fits t v with Some w => Some (mk_state (put (st_vars s) x w) (st_arrays s), None, l) | None => None end
      | None => None
      end
  | Put t a i e =>
      match eval i s, eval e s, get (st_arrays s) a with
      | Some (n, l1), Some (v, l2), Some cells =>
          if (0 <=? n) && (n <? Z.of_nat (length cells))
          then Some (mk_state (st_vars s) (put (st_arrays s) a (replace_at cells (Z.to_nat n) (stored t v))), None, l1 ++ l2 ++ [SawIndex a n])
          else None
      | _, _, _ => None
      end
  | Seq c1 c2 =>
      match exec c1 s with
      | None => None
      | Some (s1, Some r, l1) => Some (s1, Some r, l1)
      | Some (s1, None, l1) => match exec c2 s1 with None => None | Some (s2, r, l2) => Some (s2, r, l1 ++ l2) end
      end
  | If e c1 c2 =>
      match eval e s with
      | None => None
      | Some (v, l) =>
          let b := negb (v =? 0) in
          match exec (if b then c1 else c2) s with None => None | Some (s1, r, l1) => Some (s1, r, l ++ [SawBranch b] ++ l1) end
      end
  | While e c1 => loop (eval e) (exec c1) fuel s
  | Strlen x a =>
      match get (st_arrays s) a with
      | None => None
      | Some cells =>
          match strlen_of cells with
          | None => None
          | Some n => Some (mk_state (put (st_vars s) x n) (st_arrays s), None, [SawLength a n])
          end
      end
  | Return e => match eval e s with Some (v, l) => Some (s, Some v, l) | None => None end
  end.
End Semantics.

Definition block (cs : list stmt) : stmt := fold_right Seq Skip cs.
