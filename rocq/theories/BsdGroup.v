(** Model of kernel_get_wireguard_interfaces of src/ipc-openbsd.h:30-59; src/ipc-freebsd.h:22-51 is the same text.  [None]: an access outside of the block. *)
From Coq Require Import ZArith List Bool.
From Verif Require Import Base Types NlSpec Ipc Fields.
Import ListNotations.
Open Scope Z_scope.

(** struct ifg_req: 16 bytes of name. *)
Definition sz_ifg : Z := 16.

(** The loop of src/ipc-openbsd.h:50-54.  [n]: ifgr_len / 16 (the kernel states whole members). *)
Fixpoint group_loop (hp : heap) (blk : list Z) (off : Z) (n : nat) (l : slist) (ret : Z) : option (Z * slist) :=
  match n with
  | O => Some (ret, l)
  | S n' =>
      let* name := cstr_at blk off in
      let* (ret, l) := string_list_add hp l name in
      if ret <? 0 then Some (ret, l) else group_loop hp blk (off + sz_ifg) n' l ret
  end.

(** What SIOCGIFGMEMB does is the parameter [ioctl]: in state number 0 and 1 (the first and the second call) with ifgr_len and the block, an errno or the new ones. *)
Definition group_interfaces (sock : Z + Z) (ioctl : nat -> Z -> list Z -> Z + Z * list Z) (room : option Z) (hp : heap) (l : slist) : option (Z * slist) :=
  match sock with
  | inr e => Some (- e, l)
  | inl _ =>
      match ioctl 0%nat 0 [] with
      | inl e => Some (if e =? ENOENT then 0 else - e, l)
      | inr (n, _) =>
          match room with
          | Some e => Some (- e, l)                        (* calloc fails *)
          | None =>
              match ioctl 1%nat n (repeat 0 (Z.to_nat n)) with
              | inl e => Some (- e, l)
              | inr (n', blk) => group_loop hp blk 0 (Z.to_nat (n' / sz_ifg)) l 0
              end
          end
      end
  end.
