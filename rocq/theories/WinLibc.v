(** Model of src/wincompat/libc.c: strsep and getline for Windows.  [None] in a result: an access outside of a block. *)
From Coq Require Import ZArith List Bool.
From Verif Require Import Base Types NlSpec Ipc Fields.
Import ListNotations.
Open Scope Z_scope.

(** strcspn: bytes before the first that is in [sep] *)
Fixpoint strcspn (s sep : list Z) : Z := match s with [] => 0 | c :: s' => if existsb (Z.eqb c) sep then 0 else 1 + strcspn s' sep end.

(** src/wincompat/libc.c:11-23.  [b]: the block the string is in; [s]: *str, an offset or null.  Result: the pointer returned, the block, the new *str. *)
Definition strsep (b : list Z) (s : option Z) (sep : list Z) : option (option Z * list Z * option Z) :=
  match s with
  | None => Some (None, b, None)
  | Some s =>
      let* x := cstr_at b s in
      let e := s + strcspn x sep in
      let* c := peek b e 1 in
      if le_val c =? 0 then Some (Some s, b, None)
      else let* b := poke b e [0] in Some (Some s, b, Some (e + 1))
  end.

(** src/wincompat/libc.c:25-63.  [s]: what fgetc() will deliver, [fin]: and what comes then.  [hp d n]: malloc or realloc of n bytes after d bytes were read (see Ipc.heap); BUFSIZ is 512.
    Result: return value, *buf, *bufsiz, what is left of the stream. *)
Inductive after := Eof | Failed.
Fixpoint getdelim_loop (hp : heap) (delim : Z) (fin : after) (b : list Z) (size d : Z) (s : list Z) : option (Z * list Z * Z * list Z) :=
  match s with
  | [] =>
      match fin with
      | Failed => Some (-1, b, size, [])
      | Eof => if d =? 0 then Some (-1, b, size, []) else let* b := poke b d [0] in Some (d, b, size, [])
      end
  | c :: s' =>
      let* b := poke b d [c] in
      let d := d + 1 in
      if c =? delim then let* b := poke b d [0] in Some (d, b, size, s')
      else if size <=? d + 2 then
        let n := u64 (size * 2) in
        match hp d n with
        | None => Some (-1, b, size, s')
        | Some junk => getdelim_loop hp delim fin (resize b n junk) n d s'
        end
      else getdelim_loop hp delim fin b size d s'
  end.
Definition BUFSIZ : Z := 512.
Definition getdelim (hp : heap) (delim : Z) (fin : after) (buf : option (list Z)) (bufsiz : Z) (s : list Z) : option (Z * option (list Z) * Z * list Z) :=
  let go b size := let* (r, b, size, s) := getdelim_loop hp delim fin b size 0 s in Some (r, Some b, size, s) in
  match buf with
  | Some b => if bufsiz =? 0 then match hp 0 BUFSIZ with None => Some (-1, None, BUFSIZ, s) | Some junk => go (map junk (zrange 0 512)) BUFSIZ end else go b bufsiz
  | None => match hp 0 BUFSIZ with None => Some (-1, None, BUFSIZ, s) | Some junk => go (map junk (zrange 0 512)) BUFSIZ end
  end.

(** src/wincompat/libc.c:65-68 *)
Definition getline (hp : heap) := getdelim hp 10.

(** The loop of the callers (src/setconf.c:119-130, src/ipc-uapi.h:97, 168): getline(&line, &n, f) until it returns a negative number; the bytes of each line. *)
Fixpoint read_lines (fuel : nat) (hp : heap) (fin : after) (buf : option (list Z)) (bufsiz : Z) (s : list Z) : option (list (list Z)) :=
  match fuel with
  | O => None
  | S fuel =>
      match getline hp fin buf bufsiz s with
      | None => None
      | Some (r, buf, bufsiz, s) =>
          if r <? 0 then Some []
          else match buf with
               | None => None
               | Some b => let* x := peek b 0 r in let* ls := read_lines fuel hp fin (Some b) bufsiz s in Some (x :: ls)
               end
      end
  end.
(** Repeated strsep(&s, sep) until it returns null: the pointers returned, the block in the end. *)
Fixpoint strsep_all (fuel : nat) (b : list Z) (s : option Z) (sep : list Z) : option (list Z * list Z) :=
  match fuel with
  | O => None
  | S fuel =>
      match strsep b s sep with
      | None => None
      | Some (None, b, _) => Some ([], b)
      | Some (Some p, b, s) => let* (ps, b) := strsep_all fuel b s sep in Some (p :: ps, b)
      end
  end.
