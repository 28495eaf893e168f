(** inet_pton / inet_ntop as implemented by glibc (resolv/inet_pton.c, resolv/inet_ntop.c, 2.36).
    These are libc functions, not repository code; the tools call them at src/config.c:164,167,
    src/show.c:99-103, src/showconf.c:62-72, src/ipc-uapi.h:90-99,252-258. *)
From Coq Require Import ZArith List Bool Lia.
From Verif Require Import Base Cstr.
Import ListNotations.
Open Scope Z_scope.

(** glibc inet_pton4: dotted quad, no leading zeros, each at most 255. *)
Fixpoint pton4_go (s tmp : list Z) (cur : Z) (saw : bool) (octets : nat) : option (list Z) :=
  match s with
  | [] => if Nat.ltb octets 4 then None else Some (tmp ++ [cur])
  | ch :: s' =>
      if (48 <=? ch) && (ch <=? 57) then
        let new := cur * 10 + (ch - 48) in
        if saw && (cur =? 0) then None
        else if 255 <? new then None
        else if saw then pton4_go s' tmp new true octets
        else if Nat.ltb 3 octets then None
        else pton4_go s' tmp new true (S octets)
      else if (ch =? 46) && saw then
        if Nat.eqb octets 4 then None
        else pton4_go s' (tmp ++ [cur]) 0 false octets
      else None
  end.
Definition inet_pton4 (s : list Z) : option (list Z) := pton4_go s [] 0 false 0.

(** glibc inet_ntop4: "%u.%u.%u.%u". *)
Definition inet_ntop4 (a : list Z) : list Z :=
  match a with
  | [a0; a1; a2; a3] => print_dec a0 ++ 46 :: print_dec a1 ++ 46 :: print_dec a2 ++ 46 :: print_dec a3
  | _ => []
  end.

(** The end of glibc inet_pton6: store the pending group and expand "::". *)
Definition pton6_finish (xd : nat) (val : Z) (tp : list Z) (colonp : option nat) : option (list Z) :=
  let tp' := match xd with
             | O => Some tp
             | _ => if Nat.ltb 16 (length tp + 2) then None else Some (tp ++ [val / 256; val mod 256])
             end in
  match tp' with
  | None => None
  | Some t =>
      match colonp with
      | Some k => if Nat.eqb (length t) 16 then None
                  else Some (firstn k t ++ repeat 0 (16 - length t) ++ skipn k t)
      | None => if Nat.eqb (length t) 16 then Some t else None
      end
  end.

(** glibc inet_pton6, main loop. *)
Fixpoint pton6_go (s curtok : list Z) (xd : nat) (val : Z) (tp : list Z) (colonp : option nat) : option (list Z) :=
  match s with
  | [] => pton6_finish xd val tp colonp
  | ch :: s' =>
      match digit_in 16 ch with
      | Some d =>
          if Nat.eqb xd 4 then None
          else let val' := val * 16 + d in
               if 65535 <? val' then None
               else pton6_go s' curtok (S xd) val' tp colonp
      | None =>
          if ch =? 58 then
            match xd with
            | O => match colonp with
                   | Some _ => None
                   | None => pton6_go s' s' O val tp (Some (length tp))
                   end
            | _ => match s' with
                   | [] => None
                   | _ => if Nat.ltb 16 (length tp + 2) then None
                          else pton6_go s' s' O 0 (tp ++ [val / 256; val mod 256]) colonp
                   end
            end
          else if (ch =? 46) && Nat.leb (length tp + 4) 16 then
            match inet_pton4 curtok with
            | Some q => pton6_finish O 0 (tp ++ q) colonp
            | None => None
            end
          else None
      end
  end.

(** glibc inet_pton6: a leading ':' must be "::". *)
Definition inet_pton6 (s : list Z) : option (list Z) :=
  match s with
  | [] => None
  | 58 :: s' => match s' with
                | 58 :: _ => pton6_go s' s' O 0 [] None
                | _ => None
                end
  | _ => pton6_go s s O 0 [] None
  end.

(** Eight 16-bit words of an IPv6 address. *)
Fixpoint words (b : list Z) : list Z :=
  match b with
  | x :: y :: b' => x * 256 + y :: words b'
  | _ => []
  end.

(** glibc inet_ntop6: the longest run of zero words (the first one among equals); (base, len). *)
Fixpoint best_run (i : nat) (ws : list Z) (cur best : option (nat * nat)) : option (nat * nat) :=
  let better c b := match c with
                    | None => b
                    | Some (_, cl) => match b with
                                      | None => c
                                      | Some (_, bl) => if Nat.ltb bl cl then c else b
                                      end
                    end in
  match ws with
  | [] => better cur best
  | w :: ws' =>
      if w =? 0 then
        best_run (S i) ws' (match cur with None => Some (i, 1%nat) | Some (b, l) => Some (b, S l) end) best
      else best_run (S i) ws' None (better cur best)
  end.

Definition zero_run (ws : list Z) : option (nat * nat) :=
  match best_run 0 ws None None with
  | Some (b, l) => if Nat.ltb l 2 then None else Some (b, l)
  | None => None
  end.

(** glibc inet_ntop6, printing loop from word [i]; [v4] is the text of the last four bytes. *)
Fixpoint ntop6_go (i : nat) (ws : list Z) (run : option (nat * nat)) (w5 : Z) (v4 : list Z) : list Z :=
  match ws with
  | [] => []
  | w :: ws' =>
      let inside := match run with
                    | Some (b, l) => Nat.leb b i && Nat.ltb i (b + l)
                    | None => false
                    end in
      if inside then
        (match run with Some (b, _) => if Nat.eqb i b then [58] else [] | None => [] end)
          ++ ntop6_go (S i) ws' run w5 v4
      else
        (if Nat.eqb i 0 then [] else [58]) ++
        (if Nat.eqb i 6 && match run with
                           | Some (O, 6%nat) => true
                           | Some (O, 5%nat) => w5 =? 65535
                           | _ => false
                           end
         then v4
         else print_hex w ++ ntop6_go (S i) ws' run w5 v4)
  end.

Definition inet_ntop6 (a : list Z) : list Z :=
  let ws := words a in
  let run := zero_run ws in
  ntop6_go 0 ws run (nth 5 ws 0) (inet_ntop4 (skipn 12 a))
  ++ match run with Some (b, l) => if Nat.eqb (b + l) 8 then [58] else [] | None => [] end.
