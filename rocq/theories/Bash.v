(** The bash(1) constructs src/wg-quick/linux.bash uses, on byte strings.  These model bash (5.x, LC_ALL=C, extglob set, IFS
    unchanged), not repository code; line numbers say where the script relies on them. *)
From Coq Require Import ZArith List Bool.
From Verif Require Import Base Cstr.
Import ListNotations.
Open Scope Z_scope.

Fixpoint drop_while (f : Z -> bool) (s : list Z) : list Z :=
  match s with
  | c :: s' => if f c then drop_while f s' else s
  | [] => []
  end.
(** Remove the longest prefix and the longest suffix of characters satisfying [f]. *)
Definition ltrim (f : Z -> bool) (s : list Z) : list Z := drop_while f s.
Definition rtrim (f : Z -> bool) (s : list Z) : list Z := rev (drop_while f (rev s)).
Definition trim (f : Z -> bool) (s : list Z) : list Z := rtrim f (ltrim f s).

(** IFS white space that can occur inside a line. *)
Definition blankb (c : Z) : bool := (c =? 32) || (c =? 9).
(** IFS characters. *)
Definition ifsb (c : Z) : bool := blankb c || (c =? 10).

(** [while read -r line || [[ -n $line ]]; do ...; done < file] (line 50): the values [line] takes.  NUL bytes are dropped; each line
    loses its leading and trailing IFS white space; an unterminated last line counts if something is left of it. *)
Definition no_nul (s : list Z) : list Z := filter (fun c => negb (c =? 0)) s.
Definition raw_lines (text : list Z) : list (list Z) * list Z :=
  let fs := split_all 10 (no_nul text) in (removelast fs, last fs []).
Definition read_loop (text : list Z) : list (list Z) :=
  let '(ls, end_) := raw_lines text in
  map (trim blankb) ls ++ (match trim blankb end_ with [] => [] | l => [l] end).
(** [while read -r line; do ...; done] (lines 135, 150, 194, 205, 236, 263, 338): the unterminated last line is not seen. *)
Definition read_complete (text : list Z) : list (list Z) := map (trim blankb) (fst (raw_lines text)).

(** [${s%%c*}]: the part before the first [c], or everything.  [${s#*c}]: the part after the first [c], or everything. *)
Definition before (c : Z) (s : list Z) : list Z := match split_first c s with Some (a, _) => a | None => s end.
Definition after (c : Z) (s : list Z) : list Z := match split_first c s with Some (_, b) => b | None => s end.

(** [${s//c/d}] for single characters (lines 58 and 60). *)
Definition map_char (c d : Z) (s : list Z) : list Z := map (fun x => if x =? c then d else x) s.

(** Word splitting of an unquoted expansion. *)
Fixpoint words_go (cur : list Z) (s : list Z) : list (list Z) :=
  match s with
  | [] => match cur with [] => [] | _ => [rev cur] end
  | c :: s' =>
      if ifsb c then (match cur with [] => [] | _ => [rev cur] end) ++ words_go [] s'
      else words_go (c :: cur) s'
  end.
Definition words (s : list Z) : list (list Z) := words_go [] s.

(** [$(command)]: the output without NUL bytes and without trailing newlines. *)
Definition captured (out : list Z) : list Z := rtrim (Z.eqb 10) (no_nul out).

(** Does [s] begin with [p]?  What follows. *)
Fixpoint strip_prefix (p s : list Z) : option (list Z) :=
  match p, s with
  | [], _ => Some s
  | x :: p', y :: s' => if x =? y then strip_prefix p' s' else None
  | _ :: _, [] => None
  end.
Definition starts_with (p s : list Z) : bool := match strip_prefix p s with Some _ => true | None => false end.
(** [[[ $s == *"p"* ]]] *)
Fixpoint contains (p s : list Z) : bool :=
  starts_with p s || match s with [] => false | _ :: s' => contains p s' end.
(** [[[ $s == *"p" ]]] *)
Fixpoint ends_with (p s : list Z) : bool :=
  beq p s || match s with [] => false | _ :: s' => ends_with p s' end.

(** [${s//p/r}] for a literal, non-empty pattern: from left to right, without overlaps.  ([fuel]: at most one step per character.) *)
Fixpoint replace_all_go (fuel : nat) (p r s : list Z) : list Z :=
  match fuel, s with
  | O, _ => s
  | _, [] => []
  | S n, c :: s' => match strip_prefix p s with
                    | Some rest => r ++ replace_all_go n p r rest
                    | None => c :: replace_all_go n p r s'
                    end
  end.
Definition replace_all (p r s : list Z) : list Z := replace_all_go (length s) p r s.
(** [${s/p/r}]: the first occurrence only. *)
Fixpoint replace_first (p r s : list Z) : list Z :=
  match strip_prefix p s with
  | Some rest => r ++ rest
  | None => match s with [] => [] | c :: s' => c :: replace_first p r s' end
  end.
