(** Specification: the ioctl SIOCGIFGMEMB (OpenBSD and FreeBSD, if_getgroupmembers()).  With a length of 0 it states how much room the members of the group take; otherwise it
    writes them, if they fit, and leaves the length alone. *)
From Coq Require Import ZArith List Bool.
From Verif Require Import Base Types NlSpec.
Import ListNotations.
Open Scope Z_scope.

(** An interface name: 1 to 15 bytes, no NUL; stored in 16 bytes, filled up with zeros. *)
Definition ifname (n : list Z) : Prop := n <> [] /\ ~ In 0 n /\ len n <= 15.
Definition member (n : list Z) : list Z := n ++ repeat 0 (16 - length n).

(** [now i]: the members of the group at the time of call [i], or an error (ENOENT: there is no such group). *)
Definition SIOCGIFGMEMB (now : nat -> Z + list (list Z)) (i : nat) (n : Z) (blk : list Z) : Z + Z * list Z :=
  match now i with
  | inl e => inl e
  | inr names =>
      if n =? 0 then inr (16 * Z.of_nat (length names), blk)
      else if n <? 16 * Z.of_nat (length names) then inl 22
      else inr (n, concat (map member names) ++ skipn (16 * length names) blk)
  end.
