(** Model of src/terminal.c. *)
From Coq Require Import String ZArith List Bool.
From Verif Require Import Base Ctype.
Import ListNotations.
Open Scope Z_scope.

(** src/terminal.c:16-31 [color_mode]: [var] is getenv("WG_COLOR_MODE"), [tty] is isatty(fileno(stdout)). (The value is cached in a
    static variable; the environment does not change during a run.) *)
Definition color_mode (var : option (list Z)) (tty : bool) : bool :=
  match var with
  | Some v => if beq v (str "always") then true else if beq v (str "never") then false else tty
  | None => tty
  end.

Section Filter.
Variable sg : bool.

(** src/terminal.c:49-54: the inner loop from j = i + 2 (the rest of the buffer), and the last assignment.  When no letter is found
    the last assignment writes the terminating NUL again. *)
Fixpoint wipe (l : list Z) : list Z :=
  match l with
  | [] => []
  | c :: l' => if char_is_alpha (char_val sg c) then 0 :: l' else 0 :: wipe l'
  end.

(** src/terminal.c:46-56: the loop on i, on the buffer from i on; "i < len - 2" is "at least three bytes are left".  (For len < 2 the
    test of line 45 skips it.)  [fuel]: the number of bytes left. *)
Fixpoint scan (fuel : nat) (s : list Z) : list Z :=
  match fuel with
  | O => s
  | S n =>
      match s with
      | a :: b :: c :: t =>
          if (a =? 27) && (b =? 91) then 0 :: scan n (0 :: wipe (c :: t))
          else a :: scan n (b :: c :: t)
      | _ => s
      end
  end.

(** fputs(&str[i]): up to the first NUL. *)
Fixpoint cstring (s : list Z) : list Z :=
  match s with
  | [] => []
  | c :: s' => if c =? 0 then [] else c :: cstring s'
  end.
(** src/terminal.c:60-63: j goes over the NULs after it. *)
Fixpoint skip_nul (s : list Z) : list Z :=
  match s with
  | c :: s' => if c =? 0 then skip_nul s' else s
  | [] => []
  end.
(** src/terminal.c:58-64. *)
Fixpoint emit (fuel : nat) (s : list Z) : list Z :=
  match fuel with
  | O => []
  | S n =>
      match s with
      | [] => []
      | _ => cstring s ++ emit n (skip_nul (skipn (length (cstring s)) s))
      end
  end.

(** src/terminal.c:33-67 [filter_ansi], 69-76 [terminal_printf]: [text] is the formatted text (vasprintf, assumed to succeed). *)
Definition terminal_printf (color : bool) (text : list Z) : list Z :=
  if color then text
  else let s := scan (length text) text in emit (length s) s.
End Filter.
