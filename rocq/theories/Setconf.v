(** Model of src/setconf.c and src/set.c: the commands that change an interface.  What they print on the standard error
    is not modelled; allocation failures are not modelled.  The functions of src/ipc.c they call are a [backend]. *)
From Coq Require Import String ZArith List Bool.
From Verif Require Import Base Types Config.
Import ListNotations.
Open Scope Z_scope.

(** src/ipc.h:16-17 ipc_get_device (result, device, world afterwards) and ipc_set_device (result, world afterwards), over the state
    [W] of the rest of the system.  [None] for the device: the pointer is NULL. *)
Record backend (W : Type) := mk_backend {
  b_get : list Z -> W -> Z * option device * W;
  b_set : device -> W -> Z * W
}.
Arguments b_get {W}. Arguments b_set {W}.

(** libc memcmp(a, b, WG_KEY_LEN): the difference of the first bytes that differ (only its sign matters). *)
Fixpoint memcmp (a b : list Z) : Z :=
  match a, b with
  | x :: a', y :: b' => if x =? y then memcmp a' b' else x - y
  | _, _ => 0
  end.

(** src/setconf.c:16-19 [struct pubkey_origin]: key and from_file. *)
Definition origin : Type := list Z * bool.

(** src/setconf.c:21-28 [pubkey_cmp]. *)
Definition pubkey_cmp (a b : origin) : Z :=
  let ret := memcmp (fst a) (fst b) in
  if negb (ret =? 0) then ret else Z.b2z (snd a) - Z.b2z (snd b).

(** src/setconf.c:76-94: the loop over the sorted array; the keys of the peers it prepends, in the order in which it meets them. *)
Fixpoint removals (arr : list origin) : list (list Z) :=
  match arr with
  | [] => []
  | (k, from_file) :: rest =>
      if from_file then removals rest
      else if match rest with
              | [] => true
              | (k', from_file') :: _ => negb from_file' || negb (memcmp k k' =? 0)
              end
           then k :: removals rest
           else removals rest
  end.

(** src/setconf.c:80-90: calloc, flags = WGPEER_REMOVE_ME, the key. *)
Definition removal (k : list Z) : peer :=
  mk_peer true false false false false k zero_key EpNone 0 0 0 0 0 [].

Section Commands.
Variable W : Type.
Variable e : env.
Variable B : backend W.
(** libc qsort with pubkey_cmp. *)
Variable qsort : list origin -> list origin.
(** fopen(path, "r") and getline until it fails: the lines, or None. *)
Variable open_lines : list Z -> option (list (list Z)).

(** src/setconf.c:61-63, 76-94: what the file's device becomes. *)
Definition merge_runtime (file runtime : device) : device :=
  let arr := map (fun p => (p_pub p, true)) (d_peers file) ++ map (fun p => (p_pub p, false)) (d_peers runtime) in
  set_peers (rev (map removal (removals (qsort arr))) ++ d_peers file) (set_replace_peers false file).

(** src/setconf.c:30-99 [sync_conf]: None is "return false".  (A runtime pointer that is NULL although ipc_get_device returned 0
    would be dereferenced; no backend does that, see C22-C25.) *)
Definition sync_conf (file : device) (w : W) : option device * W :=
  match d_peers file with
  | [] => (Some file, w)
  | _ =>
      let '(ret, r, w1) := b_get B (d_name file) w in
      if negb (ret =? 0) then (None, w1)
      else match r with
           | None => (None, w1)
           | Some runtime =>
               match d_peers runtime with
               | [] => (Some file, w1)
               | _ => (Some (merge_runtime file runtime), w1)
               end
           end
  end.

(** src/setconf.c:101-156 [setconf_main]: exit status and world afterwards.  [argv] has argv[0] first. *)
Definition setconf_main (argv : list (list Z)) (w : W) : Z * W :=
  match argv with
  | [cmd; iface; path] =>
      match open_lines path with
      | None => (1, w)
      | Some lines =>
          match read_config e (beq cmd (str "addconf")) lines with
          | None => (1, w)
          | Some d0 =>
              let d := set_name (firstn 15 iface) d0 in
              let '(r, w1) := if beq cmd (str "syncconf") then sync_conf d w else (Some d, w) in
              match r with
              | None => (1, w1)
              | Some d' => let '(ret, w2) := b_set B d' w1 in if negb (ret =? 0) then (1, w2) else (0, w2)
              end
          end
      end
  | _ => (1, w)
  end.

(** src/set.c:15-41 [set_main]. *)
Definition set_main (argv : list (list Z)) (w : W) : Z * W :=
  match argv with
  | cmd :: iface :: (_ :: _) as args =>
      match config_read_cmd e (skipn 2 argv) with
      | None => (1, w)
      | Some d =>
          let '(ret, w1) := b_set B (set_name (firstn 15 iface) d) w in if negb (ret =? 0) then (1, w1) else (0, w1)
      end
  | _ => (1, w)
  end.
End Commands.
