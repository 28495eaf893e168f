(** Model of src/wg-quick/android.c, part 6: the command line (main, auto_su). *)
From Coq Require Import String ZArith List Bool.
From Verif Require Import Base AndOptions AndIf AndQuick.
Import ListNotations.
Open Scope Z_scope.

(** What the program does: prints how it is used and ends with a status, becomes another program, or runs commands. *)
Inductive ran := Usage (status : Z) | Becomes (args : list (list Z)) | Ran (e : ended).
(** The settings that cmd_up is given; None: a null pointer that is read.  [behind]: the memory behind the strings of the lists of applications, which get_uid_list reads
    (see C69). *)
Definition wanted_of (behind : list Z) (iface : list Z) (s : settings) : option wanted :=
  let pointed o := match o with None => None | Some t => Some (t ++ 0 :: behind) end in
  match s_config s, s_addrs s, s_dnses s with
  | Some c, Some a, Some d => Some (mk_wanted iface c (s_mtu s) a d (pointed (s_excluded s)) (pointed (s_included s)))
  | _, _, _ => None
  end.
(** src/wg-quick/android.c:612-631 auto_su; 1274-1303 main.  [argv] with the name of the program.  The message of parse_options and a missing file end it with an error. *)
Definition main (w : world) (ulmax sdk uid : Z) (random : list Z) (from_app : bool) (behind : list Z) (fopen : list Z -> option file) (argv : list (list Z)) : ran :=
  match argv with
  | [_; a] => if beq a (str "help") || beq a (str "--help") || beq a (str "-h") then Usage 0 else Usage 1
  | [_; verb; a] =>
      if beq verb (str "up") then
        if negb (uid =? 0) then Becomes (str "su" :: str "-p" :: str "-c" :: argv)
        else match parse_options fopen a with
             | Refused => Ran (Failed [])
             | Parsed iface _ s => match wanted_of behind iface s with None => Ran No_telling | Some q => Ran (cmd_up w ulmax sdk random from_app q) end
             end
      else if beq verb (str "down") then
        if negb (uid =? 0) then Becomes (str "su" :: str "-p" :: str "-c" :: argv)
        else match parse_options fopen a with
             | Refused => Ran (Failed [])
             | Parsed iface _ _ => Ran (cmd_down w ulmax from_app iface)
             end
      else Usage 1
  | _ => Usage 1
  end.
