(** Model of src/ipc-openbsd.h (amd64: little endian, LP64): the structures of src/uapi/openbsd/net/if_wg.h in memory. *)
From Coq Require Import ZArith List Bool.
From Verif Require Import Base Types Encoding NlSpec NlSet Fields Ipc ObsdSpec.
Import ListNotations.
Open Scope Z_scope.

(** AF_INET6 is 24 on OpenBSD.  In the records of Types.v the family of an allowed IP is the number Linux uses; it is translated where the code stores or
    loads it.  Numbers are sa_family_t, one byte. *)
Definition BSD_INET6 : Z := 24.
Definition af_out (f : Z) : Z := if f =? AF_INET6 then BSD_INET6 else u8 f.
Definition af_in (f : Z) : Z := if f =? BSD_INET6 then AF_INET6 else f.

(** The endpoint union as 28 bytes: struct sockaddr_in (length 16) or sockaddr_in6 (28), as getaddrinfo() fills them; all zero if there is none. *)
Definition bsd_sockaddr (e : endpoint) : list Z :=
  match e with
  | EpNone => repeat 0 28
  | Ep4 a port => [16; AF_INET] ++ be16 port ++ a ++ repeat 0 8 ++ repeat 0 12
  | Ep6 a port flow scope => [28; BSD_INET6] ++ be16 port ++ le 4 flow ++ a ++ le 4 scope
  end.
(** The union read back by its family. *)
Definition bsd_endpoint (b : list Z) : endpoint :=
  match b with
  | _ :: f :: p0 :: p1 :: rest =>
      let port := 256 * p0 + p1 in
      if f =? AF_INET then Ep4 (firstn 4 rest) port
      else if f =? BSD_INET6 then Ep6 (firstn 16 (skipn 4 rest)) port (le_val (firstn 4 rest)) (le_val (firstn 4 (skipn 20 rest)))
      else EpNone
  | _ => EpNone
  end.

(** sizeof (struct wg_interface_io) etc., if_wg.h:34-41,58-75,83-91 *)
Definition sz_iface : Z := 80.
Definition sz_peer : Z := 144.
Definition sz_aip : Z := 24.

(** src/ipc-openbsd.h:252-266 the allowed IPs of a peer, from address [a]: a_af at 0, a_cidr at 4, the address at 8 *)
Fixpoint put_aips (b : list Z) (a : Z) (l : list allowedip) (count : Z) : option (list Z * Z * Z) :=
  match l with
  | [] => Some (b, a, count)
  | x :: l' =>
      let* b := poke b a [af_out (a_family x)] in
      let* b := poke b (a + 4) (le 4 (a_cidr x)) in
      if a_family x =? AF_INET then let* b := poke b (a + 8) (a_ip x) in put_aips b (a + sz_aip) l' (count + 1)
      else if a_family x =? AF_INET6 then let* b := poke b (a + 8) (a_ip x) in put_aips b (a + sz_aip) l' (count + 1)
      else put_aips b a l' count
  end.

(** src/ipc-openbsd.h:226-269 one peer at address [a]: p_flags 0, p_public 8, p_psk 40, p_pka 72, p_endpoint 76, p_aips_count 136, p_aips 144 *)
Definition put_peer (b : list Z) (a : Z) (p : peer) : option (list Z * Z) :=
  let* b := poke b a (le 4 1) in
  let* b := poke b (a + 8) (p_pub p) in
  let* b := (if p_has_psk p then let* b := poke b (a + 40) (p_psk p) in or_bits b a 4 2 else Some b) in
  let* b := (if p_has_ka p then let* b := poke b (a + 72) (le 2 (p_ka p)) in or_bits b a 4 4 else Some b) in
  let sa := bsd_sockaddr (p_endpoint p) in
  let* b := (if ((nth 1 sa 0 =? AF_INET) || (nth 1 sa 0 =? BSD_INET6)) && (nth 0 sa 0 <=? 28)
             then let* b := poke b (a + 76) (firstn (Z.to_nat (nth 0 sa 0)) sa) in or_bits b a 4 8 else Some b) in
  let* b := (if p_replace_aips p then or_bits b a 4 16 else Some b) in
  let* b := (if p_remove p then or_bits b a 4 32 else Some b) in
  let* (b, a', n) := put_aips b (a + sz_peer) (p_aips p) 0 in
  let* b := poke b (a + 136) (le 8 n) in
  Some (b, a').

Fixpoint put_peers (b : list Z) (a : Z) (l : list peer) (count : Z) : option (list Z * Z) :=
  match l with
  | [] => Some (b, count)
  | p :: l' => let* (b, a') := put_peer b a p in put_peers b a' l' (count + 1)
  end.

(** src/ipc-openbsd.h:184,196-200 the size, modulo 2^64 *)
Definition io_size (d : device) : Z :=
  u64 (fold_left (fun n p => fold_left (fun n _ => n + sz_aip) (p_aips p) (n + sz_peer)) (d_peers d) sz_iface).

(** src/ipc-openbsd.h:204-271 filling the block: i_flags 0 (one byte), i_port 2, i_rtable 4, i_public 8, i_private 40, i_peers_count 72, i_peers 80 *)
Definition fill (d : device) : option (list Z) :=
  let b := repeat 0 (Z.to_nat (io_size d)) in
  let* b := (if d_has_priv d then let* b := poke b 40 (d_priv d) in or_bits b 0 1 2 else Some b) in
  let* b := (if d_has_port d then let* b := poke b 2 (le 2 (d_port d)) in or_bits b 0 1 4 else Some b) in
  let* b := (if d_has_fwmark d then let* b := poke b 4 (le 4 (d_fwmark d)) in or_bits b 0 1 8 else Some b) in
  let* b := (if d_replace_peers d then or_bits b 0 1 16 else Some b) in
  let* (b, n) := put_peers b sz_iface (d_peers d) 0 in
  poke b 72 (le 8 n).

(** src/ipc-openbsd.h:182-281 kernel_set_device.  [sock]: the datagram socket or the errno of socket(); [mem]: calloc succeeds; [ioctl]: what SIOCSWG does with
    name and block.  Result: return value, state of the kernel, what was handed to it. *)
Definition kernel_set_device {K} (sock : Z + Z) (mem : bool) (ioctl : K -> list Z -> list Z -> Z + K) (d : device) (k : K) : option (Z * K * list (list Z * list Z)) :=
  match sock with
  | inr e => Some (- e, k, [])
  | inl _ =>
      if negb mem then Some (- ENOMEM, k, [])
      else
        let name := firstn 15 (d_name d) in
        let* b := fill d in
        match ioctl k name b with
        | inl e => Some (- e, k, [(name, b)])
        | inr k' => Some (0, k', [(name, b)])
        end
  end.

(** ** Reading *)

(** Outcome of a step that may run out of memory ([None]: outside of the block). *)
Inductive got (A : Type) := Got (x : A) (mem : nat) | NoMem.
Arguments Got {A}. Arguments NoMem {A}.

(** The union after memcpy of [n] bytes into the zeroed peer. *)
Definition sa_copy (x : list Z) : list Z := x ++ repeat 0 (28 - length x).

(** src/ipc-openbsd.h:150-171 [mem]: how many allocations still succeed.  The address of an allowed IP of another family stays zero. *)
Fixpoint get_aips (b : list Z) (n : nat) (a : Z) (mem : nat) : option (got (list allowedip * Z)) :=
  match n with
  | O => Some (Got ([], a) mem)
  | S n' =>
      match mem with
      | O => Some NoMem
      | S mem =>
          let* af := peek b a 1 in
          let f := le_val af in
          let* x := (if f =? AF_INET then let* ip := peek b (a + 8) 4 in let* c := peek b (a + 4) 4 in Some (mk_aip AF_INET ip (u8 (le_val c)))
                     else if f =? BSD_INET6 then let* ip := peek b (a + 8) 16 in let* c := peek b (a + 4) 4 in Some (mk_aip AF_INET6 ip (u8 (le_val c)))
                     else Some (mk_aip f (repeat 0 16) 0)) in
          let* r := get_aips b n' (a + sz_aip) mem in
          match r with NoMem => Some NoMem | Got (l, a') mem => Some (Got (x :: l, a') mem) end
      end
  end.

Definition s64 (z : Z) : Z := if z <? 2 ^ 63 then z else z - 2 ^ 64.
Definition bit (v : list Z) (n : Z) : bool := Z.testbit (le_val v) n.

(** src/ipc-openbsd.h:113-173 the peers *)
Fixpoint get_peers (b : list Z) (n : nat) (a : Z) (mem : nat) : option (got (list peer)) :=
  match n with
  | O => Some (Got [] mem)
  | S n' =>
      match mem with
      | O => Some NoMem
      | S mem =>
          let* fl := peek b a 4 in
          let* pub := (if bit fl 0 then peek b (a + 8) 32 else Some zero_key) in
          let* psk := (if bit fl 1 then peek b (a + 40) 32 else Some zero_key) in
          let* ka := (if bit fl 2 then let* x := peek b (a + 72) 2 in Some (le_val x) else Some 0) in
          let* ep := (if bit fl 3 then
                        let* l := peek b (a + 76) 1 in
                        if le_val l <=? 16 then let* x := peek b (a + 76) (le_val l) in Some (bsd_endpoint (sa_copy x)) else Some EpNone
                      else Some EpNone) in
          let* rx := peek b (a + 112) 8 in
          let* tx := peek b (a + 104) 8 in
          let* sec := peek b (a + 120) 8 in
          let* nsec := peek b (a + 128) 8 in
          let* c := peek b (a + 136) 8 in
          let* r := get_aips b (Z.to_nat (le_val c)) (a + sz_peer) mem in
          match r with
          | NoMem => Some NoMem
          | Got (aips, a') mem =>
              let p := mk_peer false false (bit fl 0) (bit fl 1 && negb (key_is_zero psk)) (bit fl 2) pub psk ep (s64 (le_val sec)) (s64 (le_val nsec)) (le_val rx) (le_val tx) ka aips in
              let* r := get_peers b n' a' mem in
              match r with NoMem => Some NoMem | Got l mem => Some (Got (p :: l) mem) end
          end
      end
  end.

(** src/ipc-openbsd.h:87-173 the device from the block *)
Definition get_block (iface : list Z) (b : list Z) (mem : nat) : option (got device) :=
  match mem with
  | O => Some NoMem
  | S mem =>
      let* fl := peek b 0 1 in
      let* mark := (if bit fl 3 then let* x := peek b 4 4 in Some (le_val x) else Some 0) in
      let* port := (if bit fl 2 then let* x := peek b 2 2 in Some (le_val x) else Some 0) in
      let* pub := (if bit fl 0 then peek b 8 32 else Some zero_key) in
      let* priv := (if bit fl 1 then peek b 40 32 else Some zero_key) in
      let* c := peek b 72 8 in
      let* r := get_peers b (Z.to_nat (le_val c)) sz_iface mem in
      match r with
      | NoMem => Some NoMem
      | Got ps mem => Some (Got (mk_device (firstn 15 iface) 0 false (bit fl 1) (bit fl 0) (bit fl 2) (bit fl 3) pub priv mark port ps) mem)
      end
  end.

(** One answer of SIOCGWG ([answer_io] of ObsdSpec.v): an errno, or the size the kernel states and the bytes it wrote into the block. *)

(** src/ipc-openbsd.h:76-85 the loop.  [blk]: the block (None: null), [last] the size given to the kernel; [junk] what realloc's new bytes hold.  The kernel may not
    write beyond what it was given.  Result: an errno or the block. *)
Fixpoint fetch (answers : list answer_io) (grow : nat -> bool) (junk : Z -> Z) (i : nat) (blk : option (list Z)) (last : Z) : option (Z + option (list Z)) :=
  match answers with
  | [] => None
  | IoErr e :: _ => Some (inl e)
  | Io size data :: rest =>
      if last <? len data then None
      else
        let blk := match blk with None => None | Some b => Some (data ++ skipn (length data) b) end in
        if size <=? last then Some (inr blk)
        else if negb (grow i) then Some (inl ENOMEM)
        else
          let old := match blk with None => [] | Some b => b end in
          fetch rest grow junk (S i) (Some (resize old size junk)) size
  end.

(** src/ipc-openbsd.h:61-180 kernel_get_device *)
Definition kernel_get_device (sock : Z + Z) (iface : list Z) (answers : list answer_io) (grow : nat -> bool) (junk : Z -> Z) (mem : nat) : option (Z * option device) :=
  match sock with
  | inr e => Some (- e, None)
  | inl _ =>
      match fetch answers grow junk 0 None 0 with
      | None => None
      | Some (inl e) => Some (- e, None)
      | Some (inr None) => None                       (* wg_iface is null *)
      | Some (inr (Some b)) =>
          match get_block iface b mem with
          | None => None
          | Some NoMem => Some (- ENOMEM, None)
          | Some (Got d _) => Some (0, Some d)
          end
      end
  end.
