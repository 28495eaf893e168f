(** Independent vocabulary for C48: what nft(8) and iptables(8) print and read. *)
From Coq Require Import String ZArith List Bool.
From Verif Require Import Base Cstr Bash Quick QuickRun QuickRunSpec QuickRouteSpec.
Import ListNotations.
Open Scope Z_scope.

Definition have (program : list Z) : command := argv [str "type"; str "-p"; program].
Definition list_tables : command := argv [str "nft"; str "list"; str "tables"].
Definition nft_load (input : list Z) : command := mk_cmd [str "nft"; str "-f"; str "/dev/fd/63"] input.
Definition save_rules (iptables : list Z) : command := argv [iptables ++ str "-save"].
Definition load_rules (iptables : list Z) (input : list Z) : command := mk_cmd [iptables ++ str "-restore"; str "-n"] input.

(** A line without newline or NUL that does not end in white space (nor begin with it). *)
Definition clean (l : list Z) : Prop := ~ In 0 l /\ ~ In 10 l /\ blankb (hd 0 l) = false /\ blankb (last l 0) = false.
Definition one_word (w : list Z) : Prop := w <> [] /\ Forall (fun c => c <> 0 /\ c <> 9 /\ c <> 10 /\ c <> 32) w.

(** ** nft: tables are pairs of a family and a name. *)
Definition nft_listing (tables : list (list Z * list Z)) : list Z := unlines (map (fun t => str "table " ++ fst t ++ 32 :: snd t) tables).
Definition nft_delete (t : list Z * list Z) : list Z := str "delete table " ++ fst t ++ 32 :: snd t.
Definition own_table (ifc : list Z) : list Z := str "wg-quick-" ++ ifc.
(** A line of a script that creates the table [name] of [family] or something in it. *)
Definition nft_adds (family name line : list Z) : Prop := exists verb rest,
  In verb (map str ["add table "; "add chain "; "add rule "]%string) /\ line = verb ++ family ++ 32 :: name ++ rest /\ (rest = [] \/ exists r, rest = 32 :: r).

(** ** iptables: a firewall is a list of tables, each with its rules in order ("CHAIN ..."). *)
Definition rule := list Z.
Definition firewall : Type := list (list Z * list rule).
(** What iptables-save prints: comments, and for each table its name, its chains, its rules and COMMIT. *)
Inductive dump : firewall -> list (list Z) -> Prop :=
| du_nil : dump [] []
| du_comment : forall fw c ls, dump fw ls -> dump fw ((35 :: c) :: ls)
| du_table : forall name chains rules fw ls, dump fw ls ->
    dump ((name, rules) :: fw) ((42 :: name) :: map (cons 58) chains ++ map (fun r => str "-A " ++ r) rules ++ str "COMMIT" :: ls).

(** What iptables-restore -n does with lines "*TABLE", "-D RULE" and "COMMIT" ([None]: it fails). *)
Fixpoint remove1 (r : rule) (l : list rule) : option (list rule) :=
  match l with
  | [] => None
  | x :: l' => if beq x r then Some l' else option_map (cons x) (remove1 r l')
  end.
Fixpoint delete_rule (name : list Z) (r : rule) (fw : firewall) : option firewall :=
  match fw with
  | [] => None
  | (n, l) :: fw' =>
      if beq n name then option_map (fun l' => (n, l') :: fw') (remove1 r l) else option_map (cons (n, l)) (delete_rule name r fw')
  end.
Fixpoint restore (table : option (list Z)) (ls : list (list Z)) (fw : firewall) : option firewall :=
  match ls, table with
  | [], None => Some fw
  | [], Some _ => None
  | l :: ls', None => match l with 42 :: name => restore (Some name) ls' fw | _ => None end
  | l :: ls', Some name =>
      if beq l (str "COMMIT") then restore None ls' fw
      else match l with
           | 45 :: 68 :: 32 :: r => match delete_rule name r fw with Some fw' => restore table ls' fw' | None => None end
           | _ => None
           end
  end.

(** The comment wg-quick marks its rules with. *)
Definition comment (ifc : list Z) : list Z := str "-m comment --comment ""wg-quick(8) rule for " ++ ifc ++ [34].
Definition carries (ifc : list Z) (r : rule) : Prop := exists a b, r = a ++ comment ifc ++ b.
(** The rules that do not carry the comment, in order. *)
Inductive without (ifc : list Z) : list rule -> list rule -> Prop :=
| wo_nil : without ifc [] []
| wo_drop : forall r l l', carries ifc r -> without ifc l l' -> without ifc (r :: l) l'
| wo_keep : forall r l l', ~ carries ifc r -> without ifc l l' -> without ifc (r :: l) (r :: l').
Definition cleaned (ifc : list Z) (t t' : list Z * list rule) : Prop := fst t' = fst t /\ without ifc (snd t) (snd t').

(** ** The addresses of the interface *)
(** "inet ADDRESS/..." or "inet6 ADDRESS/..." at position [length pre]. *)
Definition inet_at (l pre a : list Z) : Prop := exists six d rest, (six = [] \/ six = [54]) /\ 48 <= d <= 57 /\
  l = pre ++ str "inet" ++ six ++ 32 :: a ++ 47 :: d :: rest /\ a <> [] /\ Forall (fun c => 48 <= c <= 57 \/ 97 <= c <= 102 \/ c = 58 \/ c = 46) a.
Definition names_inet (l a : list Z) : Prop := exists pre, inet_at l pre a /\ forall pre' a', inet_at l pre' a' -> (length pre' <= length pre)%nat.
Inductive addresses : list (list Z) -> list (list Z) -> Prop :=
| ad_nil : addresses [] []
| ad_some : forall l ls a as_, names_inet l a -> addresses ls as_ -> addresses (l :: ls) (a :: as_)
| ad_none : forall l ls as_, (forall pre a, ~ inet_at l pre a) -> addresses ls as_ -> addresses (l :: ls) as_.
Definition show_addresses (family ifc : list Z) : command := argv [str "ip"; str "-o"; family; str "addr"; str "show"; str "dev"; ifc].
