(** Model of src/wg-quick/android.c, part 1: which applications use the tunnel (set_users and get_uid_list).

    A string that is read with pointers is given as the memory from its first byte on: its bytes, the NUL, and whatever lies behind it up to the end of what may be
    read.  Reading and writing outside of an object have outcomes of their own. *)
From Coq Require Import String ZArith List Bool.
From Verif Require Import Base Cstr.
Import ListNotations.
Open Scope Z_scope.

Inductive memory_result (A : Type) :=
| Reads_past           (* reads outside of an object *)
| Writes_past          (* writes outside of an object *)
| Fails                (* prints an error and exits *)
| Is (a : A).
Arguments Reads_past {A}. Arguments Writes_past {A}. Arguments Fails {A}. Arguments Is {A}.

(** strchrnul: what comes before the first [c] or NUL, and the memory from there on. *)
Fixpoint strchrnul (c : Z) (m : list Z) : option (list Z * list Z) :=
  match m with
  | [] => None
  | x :: m' => if (x =? c) || (x =? 0) then Some ([], m)
               else match strchrnul c m' with Some (a, b) => Some (x :: a, b) | None => None end
  end.

(** src/wg-quick/android.c:752: for (i = 1, comma = selected; comma; comma = strchr(comma + 1, ','), ++i).  The argument is the memory from [comma] on; the result is
    what is added to [i] from there. *)
Fixpoint count_from (fuel : nat) (comma : list Z) : option nat :=
  match fuel with
  | O => None
  | S f =>
      match strchrnul 44 (tl comma) with
      | None => None
      | Some (_, 44 :: m) => match count_from f (44 :: m) with Some n => Some (S n) | None => None end
      | Some (_, _) => Some 1%nat
      end
  end.
Definition capacity (selected : list Z) : option nat :=
  match count_from (length selected) selected with Some n => Some (S n) | None => None end.

(** src/wg-quick/android.c:763-775: one line of packages.list; getline's line as the C string.  [ulmax] is ULONG_MAX, uid_t has 32 bits. *)
Definition package_of (ulmax : Z) (line : list Z) : option (list Z * Z) :=
  match split_first 32 line with
  | None => None
  | Some (name, r) =>
      let u := match split_first 32 r with Some (a, _) => a | None => r end in
      let '(v, e) := strtoul ulmax 10 u in
      if (u32 v =? 0) || beq u [] || negb (beq e []) then None else Some (name, u32 v)
  end.

(** src/wg-quick/android.c:777-782: for (start = selected; comma = strchrnul(start, ','), *start; start = comma + 1): how often the name is found. *)
Fixpoint found (fuel : nat) (name start : list Z) : option nat :=
  match fuel with
  | O => None
  | S f =>
      match strchrnul 44 start with
      | None => None
      | Some (token, rest) =>
          match start with
          | 0 :: _ => Some 0%nat
          | _ =>
              match found f name (tl rest) with
              | None => None
              | Some n => Some ((if negb (beq token []) && beq token name then 1 else 0) + n)%nat
              end
          end
      end
  end.

(** src/wg-quick/android.c:762-783: the loop over the lines; [room] is how many more elements uid_list has. *)
Fixpoint collect (ulmax : Z) (selected : list Z) (lines : list (list Z)) (room : nat) : memory_result (list Z) :=
  match lines with
  | [] => Is []
  | l :: ls =>
      match package_of ulmax l with
      | None => collect ulmax selected ls room
      | Some (name, uid) =>
          match found (length selected) name selected with
          | None => Reads_past
          | Some n =>
              if (room <? n)%nat then Writes_past
              else match collect ulmax selected ls (room - n) with Is us => Is (repeat uid n ++ us) | other => other end
          end
      end
  end.

(** src/wg-quick/android.c:736-739 compare_uid: the difference of two uid_t as an int.  src/wg-quick/android.c:783 qsort: which sorting algorithm makes no difference
    where the order is one. *)
Definition s32 (z : Z) : Z := let v := u32 z in if v <? 2 ^ 31 then v else v - 2 ^ 32.
Fixpoint insert (u : Z) (l : list Z) : list Z :=
  match l with
  | [] => [u]
  | v :: l' => if s32 (v - u) <? 0 then v :: insert u l' else u :: l
  end.
Definition sort_uids (l : list Z) : list Z := fold_right insert [] l.

(** src/wg-quick/android.c:741-785 get_uid_list: the array it returns.  [lines]: packages.list, None if it cannot be opened. *)
Definition get_uid_list (ulmax : Z) (lines : option (list (list Z))) (selected : option (list Z)) : memory_result (list Z) :=
  match selected with
  | None => Is [0]
  | Some m =>
      match capacity m with
      | None => Reads_past
      | Some cap =>
          match lines with
          | None => Fails
          | Some ls =>
              match collect ulmax m ls cap with
              | Is us => Is (sort_uids us ++ repeat 0 (cap - length us))
              | other => other
              end
          end
      end
  end.

(** src/wg-quick/android.c:803-808, 818: the loop for excluded applications, without the commands: the ranges that are printed and the last [start]. *)
Fixpoint ranges_between (start : Z) (uids : list Z) : option (list (Z * Z) * Z) :=
  match uids with
  | [] => None
  | u :: us =>
      if u =? 0 then Some ([], start)
      else match ranges_between (u32 (u + 1)) us with
           | None => None
           | Some (rs, e) => Some (if u32 (u - 1) <? start then rs else (start, u32 (u - 1)) :: rs, e)
           end
  end.
(** src/wg-quick/android.c:823: the loop for included applications *)
Fixpoint each_uid (uids : list Z) : option (list (Z * Z)) :=
  match uids with
  | [] => None
  | u :: us => if u =? 0 then Some [] else match each_uid us with Some rs => Some ((u, u) :: rs) | None => None end
  end.

(** src/wg-quick/android.c:806-809, 818, 824 *)
Definition range_text (r : Z * Z) : list Z :=
  if fst r =? snd r then print_dec (fst r) else print_dec (fst r) ++ 45 :: print_dec (snd r).
(** src/wg-quick/android.c:812, 827, 834, with the "ndc " of line 222 *)
Definition users_command (netid : Z) (ranges : list Z) : list Z := str "ndc network users add " ++ print_dec netid ++ 32 :: ranges.
(** src/wg-quick/android.c:102-112 concat_and_free(orig, " ", new) *)
Definition joined (orig : option (list Z)) (new : list Z) : list Z := match orig with None => new | Some t => t ++ 32 :: new end.
(** src/wg-quick/android.c:810-815, 825-830: every 18 ranges make a command; [n] is args_per_command, an unsigned int. *)
Fixpoint feed (netid n : Z) (cur : option (list Z)) (rs : list (Z * Z)) : list (list Z) * option (list Z) :=
  match rs with
  | [] => ([], cur)
  | r :: rs' =>
      let text := joined cur (range_text r) in
      if u32 (n + 1) mod 18 =? 0 then
        let '(cs, last) := feed netid (u32 (n + 1)) None rs' in (users_command netid text :: cs, last)
      else feed netid (u32 (n + 1)) (Some text) rs'
  end.
Definition finish (netid : Z) (cs : list (list Z)) (last : option (list Z)) : list (list Z) :=
  match last with None => cs | Some t => cs ++ [users_command netid t] end.

(** src/wg-quick/android.c:787-835 set_users: the commands, in order; the first that fails ends the program (line 241). *)
Definition set_users (ulmax : Z) (lines : option (list (list Z))) (netid : Z) (excluded included : option (list Z)) : memory_result (list (list Z)) :=
  match excluded, included with
  | Some _, Some _ => Fails
  | None, Some _ =>
      match get_uid_list ulmax lines included with
      | Reads_past => Reads_past | Writes_past => Writes_past | Fails => Fails
      | Is uids =>
          match each_uid uids with
          | None => Reads_past
          | Some rs => let '(cs, last) := feed netid 0 None rs in Is (finish netid cs last)
          end
      end
  | _, None =>
      match get_uid_list ulmax lines excluded with
      | Reads_past => Reads_past | Writes_past => Writes_past | Fails => Fails
      | Is uids =>
          match ranges_between 0 uids with
          | None => Reads_past
          | Some (rs, start) =>
              let '(cs, last) := feed netid 0 None rs in
              Is (finish netid cs (if start <? 99999 then Some (joined last (range_text (start, 99999))) else last))
          end
      end
  end.
