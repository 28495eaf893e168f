(** What the commands wg-quick runs to save a configuration do to files, and what a power failure may leave of them.  Nothing here mentions the
    model of wg-quick. *)
From Coq Require Import String ZArith List Bool.
From Verif Require Import Base Bash Quick QuickRun QuickRunSpec.
Import ListNotations.
Open Scope Z_scope.

(** A file: its contents, whether they have reached the disk, its permission bits. *)
Record file := mk_file { f_data : list Z; f_durable : bool; f_mode : Z }.
(** [d_file]: what each name denotes now; [d_past]: what else it may turn out to denote after a power failure (changes of names reach the disk
    at an unknown moment); [d_mask]: the umask of the shell. *)
Record disk := mk_disk { d_file : list Z -> option file; d_past : list Z -> list (option file); d_mask : Z }.

Inductive deed :=
| Bystands                                  (* does not touch the files in question *)
| Writes (path text : list Z)               (* echo TEXT > PATH *)
| Syncs (path : list Z) | Moves (from to : list Z) | Removes (path : list Z)
| Masks (word : list Z) | AsksMask
| Unknown.
Definition bystanders : list (list Z) := words_of
  ["ip"; "wg"; "nft"; "iptables-save"; "ip6tables-save"; "iptables-restore"; "ip6tables-restore"; "resolvconf"; "sysctl"; "sort"; "cat";
   "eval"; "test"; "type"; "command"; "<"]%string.
Definition deed_of (c : command) : deed :=
  match c_argv c with
  | w :: args =>
      if existsb (beq w) bystanders then Bystands
      else match args with
           | [] => if beq w (str "umask") then AsksMask else Unknown
           | [p] => if beq w (str ">") then Writes p (c_input c) else if beq w (str "sync") then Syncs p
                    else if beq w (str "umask") then Masks p else Unknown
           | [p; q] => if beq w (str "mv") then Moves p q else if beq w (str "rm") && beq p (str "-f") then Removes q else Unknown
           | _ => Unknown
           end
  | [] => Unknown
  end.

Definition octal (w : list Z) : Z := fold_left (fun v c => 8 * v + (c - 48)) w 0.
(** A new file gets the permissions 0666 less the umask; rewriting a file keeps those it has. *)
Definition mode_for (d : disk) (p : list Z) : Z :=
  match d_file d p with Some f => f_mode f | None => Z.land 438 (Z.lnot (d_mask d)) end.
(** All names but those in [l] keep their meaning. *)
Definition others (l : list (list Z)) (d d' : disk) : Prop :=
  (forall p, ~ In p l -> d_file d' p = d_file d p /\ d_past d' p = d_past d p).
Definition written (p text : list Z) (d d' : disk) : Prop :=
  others [p] d d' /\ d_mask d' = d_mask d /\
  d_file d' p = Some (mk_file text false (mode_for d p)) /\
  d_past d' p = match d_file d p with Some _ => d_past d p | None => None :: d_past d p end.
Definition synced (p : list Z) (d d' : disk) : Prop :=
  others [p] d d' /\ d_mask d' = d_mask d /\ d_past d' p = d_past d p /\
  d_file d' p = match d_file d p with Some f => Some (mk_file (f_data f) true (f_mode f)) | None => None end.
Definition moved (p q : list Z) (d d' : disk) : Prop :=
  others [p; q] d d' /\ d_mask d' = d_mask d /\
  d_file d p <> None /\ d_file d' q = d_file d p /\ d_file d' p = None /\
  d_past d' q = d_file d q :: d_past d q /\ d_past d' p = d_file d p :: d_past d p.
Definition removed (p : list Z) (d d' : disk) : Prop :=
  others [p] d d' /\ d_mask d' = d_mask d /\ d_file d' p = None /\ d_past d' p = d_file d p :: d_past d p.

(** A command that succeeds does its work; one that fails may have done nothing, or all of it, or have written anything. *)
Definition effect (c : command) (a : answer) (d d' : disk) : Prop :=
  let ok := a_status a = 0 in
  match deed_of c with
  | Bystands => d' = d
  | Writes p text => (ok /\ written p text d d') \/ (~ ok /\ (d' = d \/ exists data, written p data d d'))
  | Syncs p => (ok /\ synced p d d') \/ (~ ok /\ (d' = d \/ synced p d d'))
  | Moves p q => (ok /\ moved p q d d') \/ (~ ok /\ (d' = d \/ moved p q d d'))
  | Removes p => (ok /\ removed p d d') \/ (~ ok /\ (d' = d \/ removed p d d'))
  | Masks w => others [] d d' /\ ((ok /\ d_mask d' = octal w) \/ (~ ok /\ d_mask d' = d_mask d))
  | AsksMask => d' = d /\ octal (captured (a_output a)) = d_mask d
  | Unknown => True
  end.

(** The state after a sequence of commands. *)
Inductive after : disk -> history -> disk -> Prop :=
| after_nil : forall d, after d [] d
| after_cons : forall d c a d1 h d2, effect c a d d1 -> after d1 h d2 -> after d ((c, a) :: h) d2.
(** [instant d h d']: starting from [d], [d'] is the state at some instant while the commands of [h] run: between two of them, or while one runs,
    whether it is going to succeed or to fail. *)
Definition instant (d : disk) (h : history) (d' : disk) : Prop :=
  exists h1 h2 d1, h = h1 ++ h2 /\ after d h1 d1 /\
    (d' = d1 \/ exists c a h3, h2 = (c, a) :: h3 /\ exists a', effect c a' d1 d').
(** What may be found under the name [p] after a power failure at that instant: data that had not reached the disk may be anything. *)
Definition found (d : disk) (p : list Z) (x : option file) : Prop :=
  exists y, In y (d_file d p :: d_past d p) /\
    (x = y \/ exists f data, y = Some f /\ f_durable f = false /\ x = Some (mk_file data false (f_mode f))).

(** On disk since long. *)
Definition settled (d : disk) (p : list Z) (x : option file) : Prop :=
  d_file d p = x /\ d_past d p = [] /\ (forall f, x = Some f -> f_durable f = true).
(** Nobody but the owner may read or write it. *)
Definition private (f : file) : Prop := Z.land (f_mode f) 63 = 0.

Definition temporary (conf : list Z) : list Z := conf ++ str ".tmp".
(** [h] contains writing [text] to the temporary file. *)
Definition writes_text (conf text : list Z) (h : history) : Prop := exists a, In (mk_cmd [str ">"; temporary conf] text, a) h.
