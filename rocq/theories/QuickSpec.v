(** Independent specification of how wg-quick reads a configuration file. *)
From Coq Require Import String ZArith List Bool.
From Verif Require Import Base ConfigSpec.
Import ListNotations.
Open Scope Z_scope.

(** [t] is [s] without the characters satisfying [P] at its two ends. *)
Definition trimmed (P : Z -> Prop) (s t : list Z) : Prop :=
  exists a b, s = a ++ t ++ b /\ Forall P a /\ Forall P b /\
              (t = [] \/ exists x y u v, t = x :: u /\ t = v ++ [y] /\ ~ P x /\ ~ P y).
(** space, tab *)
Definition blank (c : Z) : Prop := c = 32 \/ c = 9.
(** space, tab, newline, vertical tab, form feed, carriage return *)
Definition space (c : Z) : Prop := c = 32 \/ 9 <= c <= 13.

(** [a] is [s] up to the first [c], or all of it. *)
Definition upto (c : Z) (s a : list Z) : Prop := ~ In c a /\ (s = a \/ exists r, s = a ++ c :: r).

(** The lines of a file: ended by newlines, the last one perhaps not; an unfinished last line that is blank does not count. *)
Definition file_lines (text : list Z) (lines : list (list Z)) : Prop :=
  exists full rest, text = concat (map (fun l => l ++ [10]) full) ++ rest /\ Forall (fun l => ~ In 10 l) full /\ ~ In 10 rest /\
    ((Forall blank rest /\ lines = full) \/ (~ Forall blank rest /\ lines = full ++ [rest])).

(** Key and value of a line: what precedes a comment, divided at the first equals sign; without one the value is the key. *)
Definition key_of (line k : list Z) : Prop := exists a b, upto 35 line a /\ upto 61 a b /\ trimmed space b k.
Definition value_of (line v : list Z) : Prop :=
  exists a b, upto 35 line a /\ ((~ In 61 a /\ b = a) \/ exists k, ~ In 61 k /\ a = k ++ 61 :: b) /\ trimmed space b v.

(** [line], after the lines [pre], stands in an [Interface] section: the last line that looks like a section header is "[Interface]". *)
Definition header (line : list Z) : Prop := exists k, key_of line (91 :: k).
Definition interface_header (line : list Z) : Prop := exists k, key_of line k /\ ci k (str "[Interface]").
Definition in_interface (pre : list (list Z)) (line : list Z) : Prop :=
  exists a h b, pre ++ [line] = a ++ h :: b /\ interface_header h /\ Forall (fun l => ~ header l) b.

(** wg-quick's own settings. *)
Definition own_keys : list string :=
  ["Address"; "MTU"; "DNS"; "Table"; "PreUp"; "PreDown"; "PostUp"; "PostDown"; "SaveConfig"]%string.
Definition sets (name : string) (pre : list (list Z)) (line v : list Z) : Prop :=
  in_interface pre line /\ (exists k, key_of line k /\ ci k (str name)) /\ value_of line v.
Definition own (pre : list (list Z)) (line : list Z) : Prop := exists name v, In name own_keys /\ sets name pre line v.

(** The [v] for which [P pre line v] holds, over the lines of a file in order ([pre]: the lines before). *)
Inductive picks (P : list (list Z) -> list Z -> list Z -> Prop) : list (list Z) -> list (list Z) -> list (list Z) -> Prop :=
| pk_end : forall pre, picks P pre [] []
| pk_take : forall pre l ls v vs, P pre l v -> picks P (pre ++ [l]) ls vs -> picks P pre (l :: ls) (v :: vs)
| pk_skip : forall pre l ls vs, (forall v, ~ P pre l v) -> picks P (pre ++ [l]) ls vs -> picks P pre (l :: ls) vs.

(** The values of a setting, in the order of the file. *)
Definition values (name : string) (lines vs : list (list Z)) : Prop := picks (sets name) [] lines vs.
(** The lines that are not wg-quick's. *)
Definition others (lines kept : list (list Z)) : Prop := picks (fun pre l v => v = l /\ ~ own pre l) [] lines kept.

(** The entries of a list value: separated by commas and white space. *)
Definition separator (c : Z) : Prop := c = 44 \/ c = 32 \/ c = 9 \/ c = 10.
Inductive entries : list Z -> list (list Z) -> Prop :=
| en_nil : forall s, Forall separator s -> entries s []
| en_cons : forall a w b ws, Forall separator a -> w <> [] -> Forall (fun c => ~ separator c) w ->
    (b = [] \/ exists c b', b = c :: b' /\ separator c) -> entries b ws -> entries (a ++ w ++ b) (w :: ws).

(** The members of a list that satisfy [P] and those that do not, both in order. *)
Inductive divide (P : list Z -> Prop) : list (list Z) -> list (list Z) -> list (list Z) -> Prop :=
| dv_nil : divide P [] [] []
| dv_yes : forall w ws a b, P w -> divide P ws a b -> divide P (w :: ws) (w :: a) b
| dv_no : forall w ws a b, ~ P w -> divide P ws a b -> divide P (w :: ws) a (w :: b).

(** A DNS entry that is a server rather than a search domain. *)
Definition server (w : list Z) : Prop := In 58 w \/ Forall (fun c => 48 <= c <= 57 \/ c = 46) w.

(** Characters that make bash look for file names. *)
Definition plain_word (w : list Z) : Prop := Forall (fun c => ~ In c (str "*?[\(")) w.
(** [glob] leaves words without them alone. *)
Definition glob_plain (glob : list Z -> list (list Z)) : Prop := forall w, plain_word w -> glob w = [w].
