(** Model of src/wg.c: main.  Usage texts on the standard error are not modelled. *)
From Coq Require Import String ZArith List Bool.
From Verif Require Import Base Encoding Types Config Uapi Setconf Showconf Show Keys.
Import ListNotations.
Open Scope Z_scope.

(** What the program finds around it.  [y_file]: fopen(path, "r") fails, or the bytes delivered before the end of the file or before a read
    error ([snd]: it was an error; getline does not tell the two apart, and setconf.c does not ask ferror). *)
Record system (W : Type) := mk_system {
  y_env : env;
  y_backend : backend W;
  y_list : W -> option (list Z) * W;
  y_show : show_env;
  y_qsort : list origin -> list origin;
  y_scope_name : list Z -> Z -> list Z;
  y_file : list Z -> option (list Z * bool);
  y_random : random;
  y_junk : list Z;
  y_stdin : list Z;
  y_public : list Z -> list Z
}.
Arguments y_env {W}. Arguments y_backend {W}. Arguments y_list {W}. Arguments y_show {W}. Arguments y_qsort {W}. Arguments y_scope_name {W}.
Arguments y_file {W}. Arguments y_random {W}. Arguments y_junk {W}. Arguments y_stdin {W}. Arguments y_public {W}.

(** src/setconf.c:114-130: the lines getline delivers. *)
Definition lines_of {W} (Y : system W) (path : list Z) : option (list (list Z)) :=
  option_map (fun f => getlines (fst f)) (y_file Y path).

Definition quiet {W} (r : Z * W) : ending * W := (Exit (fst r) [], snd r).
Definition silent {W} (r : Z * list Z) (w : W) : ending * W := (Exit (fst r) (snd r), w).

(** src/wg.c:15-29 subcommands. *)
Definition subcommands {W} (Y : system W) : list (list Z * (list (list Z) -> W -> ending * W)) :=
  let show argv w := show_main (y_show Y) W (y_list Y) (y_backend Y) argv w in
  let showconf argv w := let '(s, t, w1) := showconf_main (y_scope_name Y) (y_backend Y) argv w in (Exit s t, w1) in
  let set argv w := quiet (set_main W (y_env Y) (y_backend Y) argv w) in
  let setconf argv w := quiet (setconf_main W (y_env Y) (y_backend Y) (y_qsort Y) (lines_of Y) argv w) in
  let genkey argv w := silent (genkey_main (y_random Y) (y_junk Y) argv) w in
  let pubkey argv w := silent (pubkey_main (e_sg (y_env Y)) (y_public Y) argv (y_stdin Y)) w in
  [(str "show", show); (str "showconf", showconf); (str "set", set); (str "setconf", setconf); (str "addconf", setconf);
   (str "syncconf", setconf); (str "genkey", genkey); (str "genpsk", genkey); (str "pubkey", pubkey)].

Definition descriptions : list (string * string) :=
  [("show", "Shows the current configuration and device information");
   ("showconf", "Shows the current configuration of a given WireGuard interface, for use with `setconf'");
   ("set", "Change the current configuration, add peers, remove peers, or change peers");
   ("setconf", "Applies a configuration file to a WireGuard interface");
   ("addconf", "Appends a configuration file to a WireGuard interface");
   ("syncconf", "Synchronizes a configuration file to a WireGuard interface");
   ("genkey", "Generates a new private key and writes it to stdout");
   ("genpsk", "Generates a new preshared key and writes it to stdout");
   ("pubkey", "Reads a private key from stdin and writes a public key to stdout")]%string.

(** src/wg.c:31-38 show_usage. *)
Definition usage_text (prog : list Z) : list Z :=
  str "Usage: " ++ prog ++ str " <cmd> [<args>]" ++ [10; 10] ++ str "Available subcommands:" ++ [10] ++
  flat_map (fun d => str "  " ++ str (fst d) ++ str ": " ++ str (snd d) ++ [10]) descriptions ++
  str "You may pass `--help' to any of these subcommands to view usage." ++ [10].
(** src/wg.c:45, src/version.h *)
Definition version_text : list Z :=
  str "wireguard-tools v1.0.20210914 - https://git.zx2c4.com/wireguard-tools/" ++ [10].

(** src/wg.c:58-61: the loop over the table. *)
Fixpoint lookup {A} (name : list Z) (table : list (list Z * A)) : option A :=
  match table with
  | [] => None
  | (n, f) :: table' => if beq name n then Some f else lookup name table'
  end.

(** src/wg.c:40-66 main; [argv] is not empty. *)
Definition wg_main {W} (Y : system W) (argv : list (list Z)) (w : W) : ending * W :=
  let is a names := existsb (fun n => beq a (str n)) names in
  match argv with
  | [prog; a] =>
      if is a ["-v"; "--version"; "version"]%string then (Exit 0 version_text, w)
      else if is a ["-h"; "--help"; "help"]%string then (Exit 0 (usage_text prog), w)
      else match lookup a (subcommands Y) with Some f => f [a] w | None => (Exit 1 [], w) end
  | _ :: a :: rest => match lookup a (subcommands Y) with Some f => f (a :: rest) w | None => (Exit 1 [], w) end
  | _ => show_main (y_show Y) W (y_list Y) (y_backend Y) [str "show"] w
  end.
