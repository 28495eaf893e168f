(** Model of src/genkey.c, src/pubkey.c and curve25519_clamp_secret (src/curve25519.h:18-22).  Writing to the standard output is
    assumed to succeed (the programs do not look at the result of puts). *)
From Coq Require Import String ZArith List Bool.
From Verif Require Import Base Ctype Encoding.
Import ListNotations.
Open Scope Z_scope.

(** src/curve25519.h:18-22 curve25519_clamp_secret *)
Definition clamp_secret (k : list Z) : list Z :=
  match k with
  | b0 :: rest => Z.land b0 248 :: removelast rest ++ [Z.lor (Z.land (last rest 0) 127) 64]
  | [] => []
  end.

(** The sources of randomness: what each call answers.  getentropy and getrandom may not be compiled in ([None]); getentropy fills the buffer
    or fails; getrandom fails or gives some bytes; read gives some bytes (none: end of file) or fails. *)
Inductive read_result := ReadErr (errno : Z) | Read (b : list Z).
Record random := mk_random {
  r_entropy : option (option (list Z));
  r_getrandom : option (option (list Z));
  r_open : bool;
  r_reads : list read_result
}.

(** Bytes written over the beginning of a buffer; a kernel never writes more than it was asked for. *)
Definition put_at (out : list Z) (i : nat) (b : list Z) : list Z :=
  firstn i out ++ b ++ skipn (i + length b) out.

(** src/genkey.c:55-64: the loop; returns the final i and the buffer. *)
Fixpoint urandom (reads : list read_result) (out : list Z) (i : nat) : nat * list Z :=
  if Nat.ltb i (length out) then
    match reads with
    | Read b :: rest =>
        let b := firstn (length out - i) b in
        match b with [] => (i, out) | _ => urandom rest (put_at out i b) (i + length b) end
    | _ => (i, out)
    end
  else (i, out).

(** src/genkey.c:31-66 get_random_bytes; [out]: the buffer before (uninitialised). *)
Definition get_random_bytes (r : random) (out : list Z) : bool * list Z :=
  if Nat.ltb 256 (length out) then (false, out)
  else
    match r_entropy r with
    | Some (Some b) => (true, b)
    | _ =>
        let (full, out1) :=
          match r_getrandom r with
          | Some (Some b) => let b := firstn (length out) b in (Nat.eqb (length b) (length out), put_at out 0 b)
          | _ => (false, out)
          end in
        if full then (true, out1)
        else if r_open r then
               let (i, out2) := urandom (r_reads r) out1 0 in (Nat.eqb i (length out), out2)
             else (false, out1)
    end.

(** src/genkey.c:75-99 genkey_main: exit status and output.  [junk]: the key array before. *)
Definition genkey_main (r : random) (junk : list Z) (argv : list (list Z)) : Z * list Z :=
  match argv with
  | [name] =>
      let (ok, key) := get_random_bytes r junk in
      if negb ok then (1, [])
      else let key := if beq name (str "genkey") then clamp_secret key else key in (0, key_to_base64 key ++ [10])
  | _ => (1, [])
  end.

(** src/pubkey.c:32-40: getc until EOF; false: another character was found. *)
Fixpoint only_trailing (l : list Z) : bool :=
  match l with
  | [] => true
  | c :: l' => if (c =? 0) || char_is_space c then only_trailing l' else false
  end.
(** A C string in a buffer: up to the first NUL. *)
Fixpoint upto_nul (l : list Z) : list Z :=
  match l with [] => [] | c :: l' => if c =? 0 then [] else c :: upto_nul l' end.

(** src/pubkey.c:14-50 pubkey_main; [pub] is curve25519_generate_public.  A read error on stdin is like its end. *)
Definition pubkey_main (sg : bool) (pub : list Z -> list Z) (argv : list (list Z)) (stdin : list Z) : Z * list Z :=
  match argv with
  | [_] =>
      let b := firstn 44 stdin in
      if negb (Nat.eqb (length b) 44) then (1, [])
      else if negb (only_trailing (skipn 44 stdin)) then (1, [])
      else match key_from_base64 sg (upto_nul b) with
           | None => (1, [])
           | Some k => (0, key_to_base64 (pub k) ++ [10])
           end
  | _ => (1, [])
  end.
