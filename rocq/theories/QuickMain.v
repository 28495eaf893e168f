(** Model of src/wg-quick/linux.bash, part 4: arguments, auto_su, finding the configuration file (lines 10-12, 27-28, 35-50, 73-86, 363-389).

    What the file system answers (test -e, readlink -f, stat, the contents) is a parameter.  Not modelled: the wording of messages; standard error
    and output of the commands run later; signals before the first command. *)
From Coq Require Import String ZArith List Bool.
From Verif Require Import Base Cstr Bash Quick QuickRun QuickSave.
Import ListNotations.
Open Scope Z_scope.

Record files := mk_files {
  f_exists : list Z -> bool;                    (* [[ -e path ]] *)
  f_resolve : list Z -> option (list Z);        (* readlink -f; None: it fails *)
  f_mode : list Z -> option Z;                  (* stat -c %a; None: it fails *)
  f_read : list Z -> option (list Z * bool)     (* None: cannot be opened; otherwise the bytes that can be read, and whether reading stopped with an error rather than at the end
                                                   (always with one for a directory); the builtin read returns 1 in both cases *)
}.
(** Messages on standard error. *)
Inductive said := Usage | NotThere (path : list Z) | BadName | WorldAccessible (path : list Z) | BadBool.
(** How the script ends; [Becomes]: it is replaced by another program. *)
Inductive ending := Ends (st : Z) | Endless | Becomes (argv : list (list Z)).
Record ran := mk_ran { r_end : ending; r_out : list Z; r_err : list said; r_hist : history }.

Section Main.
Variable sys : system.
Variable glob : list Z -> list (list Z).
Variable fuel : nat.
Variable amp : bool.                            (* bash is 5.2 or later *)
Variable userspace : list Z.                    (* ${WG_QUICK_USERSPACE_IMPLEMENTATION:-wireguard-go} *)
Variable fs : files.
Variable uid : Z.                               (* $UID *)
Variables bash self program : list Z.           (* $BASH, $SELF and $PROGRAM *)

(** ${path%/*} *)
Definition dirname (path : list Z) : list Z := match split_last 47 path with Some (d, _) => d | None => path end.
(** src/wg-quick/linux.bash:47; an operand that is missing because stat failed is a syntax error, that is, a failure *)
Definition world_accessible (path : list Z) : bool :=
  match f_mode fs path, f_mode fs (dirname path) with
  | Some m, Some d => negb (Z.land (Z.land m d) 7 =? 0)
  | _, _ => true
  end.

(** src/wg-quick/linux.bash:40-74 parse_options: messages, and either the exit status or INTERFACE, CONFIG_FILE and the other variables *)
Definition find_options (arg : list Z) : list said * (Z + (list Z * list Z * options)) :=
  let path := config_path arg in
  if negb (f_exists fs path) then ([NotThere path], inl 1)
  else match interface_of path with
  | None => ([BadName], inl 1)
  | Some ifc =>
      match f_resolve fs path with
      | None => ([], inl 1)
      | Some p =>
          let conf := captured (p ++ [10]) in
          let warning := if world_accessible conf then [WorldAccessible conf] else [] in
          match f_read fs conf with
          | None => (warning, inl 1)
          | Some (text, _) =>
              match parse_options glob text with
              | None => (warning ++ [BadBool], inl 1)
              | Some o => (warning, inr (ifc, conf, o))
              end
          end
      end
  end.

(** src/wg-quick/linux.bash:84-86 auto_su *)
Definition sudo (args : list (list Z)) : list (list Z) :=
  [!"sudo"; !"-p"; program ++ !" must be run as root. Please enter the password for %u to continue: "; !"--"; bash; !"--"; self] ++ args.
Definition as_root (args : list (list Z)) (body : ran) : ran :=
  if uid =? 0 then body else mk_ran (Becomes (sudo args)) [] [] [].

Definition of_outcome (err : list said) (x : outcome) : ran :=
  mk_ran (match fst x with Some st => Ends st | None => Endless end) [] err (snd x).
Definition with_options (arg : list Z) (f : list said -> list Z -> list Z -> options -> ran) : ran :=
  match find_options arg with
  | (err, inl st) => mk_ran (Ends st) [] err []
  | (err, inr (ifc, conf, o)) => f err ifc conf o
  end.

(** src/wg-quick/linux.bash:365-389 *)
Definition main (args : list (list Z)) : ran :=
  match args with
  | [a] =>
      if beq a !"--help" || beq a !"-h" || beq a !"help" then mk_ran (Ends 0) [] [Usage] []
      else mk_ran (Ends 1) [] [Usage] []
  | [v; arg] =>
      if beq v !"up" then as_root args (with_options arg (fun err ifc conf o => of_outcome err (cmd_up sys glob fuel ifc o userspace)))
      else if beq v !"down" then as_root args (with_options arg (fun err ifc conf o => of_outcome err (cmd_down sys glob fuel ifc o conf amp)))
      else if beq v !"save" then as_root args (with_options arg (fun err ifc conf o => of_outcome err (cmd_save sys glob ifc o conf amp)))
      else if beq v !"strip" then as_root args (with_options arg (fun err ifc conf o => mk_ran (Ends 0) (cmd_strip o) err []))
      else mk_ran (Ends 1) [] [Usage] []
  | _ => mk_ran (Ends 1) [] [Usage] []
  end.
End Main.
