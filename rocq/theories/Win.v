(** Model of kernel_get_device and kernel_set_device of src/ipc-windows.h (x64: little endian, LLP64): the structures of src/uapi/windows/wireguard.h in memory.
    [None] in a result: an access outside of the block. *)
From Coq Require Import ZArith List Bool.
From Verif Require Import Base Types Encoding NlSpec NlSet Fields Ipc Obsd WinSpec.
Import ListNotations.
Open Scope Z_scope.

(** AF_INET6 is 23 on Windows (see Obsd.v about families); families have two bytes.  errno values of the C runtime. *)
Definition WIN_INET6 : Z := 23.
Definition waf_out (f : Z) : Z := if f =? AF_INET6 then WIN_INET6 else u16 f.
Definition EACCES : Z := 13.
Definition EOVERFLOW : Z := 132.

(** The endpoint union as 28 bytes. *)
Definition win_sockaddr (e : endpoint) : list Z :=
  match e with
  | EpNone => repeat 0 28
  | Ep4 a port => le 2 AF_INET ++ be16 port ++ a ++ repeat 0 8 ++ repeat 0 12
  | Ep6 a port flow scope => le 2 WIN_INET6 ++ be16 port ++ le 4 flow ++ a ++ le 4 scope
  end.

(** sizeof (WG_IOCTL_INTERFACE), sizeof (WG_IOCTL_PEER), sizeof (WG_IOCTL_ALLOWED_IP) *)
Definition wz_iface : Z := 80.
Definition wz_peer : Z := 136.
Definition wz_aip : Z := 24.

(** src/ipc-windows.h:418-432 the allowed IPs of a peer: Address at 0, AddressFamily at 16, Cidr at 18 *)
Fixpoint wput_aips (b : list Z) (a : Z) (l : list allowedip) (count : Z) : option (list Z * Z * Z) :=
  match l with
  | [] => Some (b, a, count)
  | x :: l' =>
      let* b := poke b (a + 16) (le 2 (waf_out (a_family x))) in
      let* b := poke b (a + 18) [u8 (a_cidr x)] in
      if a_family x =? AF_INET then let* b := poke b a (a_ip x) in wput_aips b (a + wz_aip) l' (count + 1)
      else if a_family x =? AF_INET6 then let* b := poke b a (a_ip x) in wput_aips b (a + wz_aip) l' (count + 1)
      else wput_aips b a l' count
  end.

(** src/ipc-windows.h:391-435 one peer: Flags 0, PublicKey 8, PresharedKey 40, PersistentKeepalive 72, Endpoint 76, AllowedIPsCount 128 *)
Definition wput_peer (b : list Z) (a : Z) (p : peer) : option (list Z * Z) :=
  let* b := poke b a (le 4 1) in
  let* b := poke b (a + 8) (p_pub p) in
  let* b := (if p_has_psk p then let* b := poke b (a + 40) (p_psk p) in or_bits b a 4 2 else Some b) in
  let* b := (if p_has_ka p then let* b := poke b (a + 72) (le 2 (p_ka p)) in or_bits b a 4 4 else Some b) in
  let sa := win_sockaddr (p_endpoint p) in
  let family := le_val (firstn 2 sa) in
  let* b := (if family =? AF_INET then let* b := poke b (a + 76) (firstn 16 sa) in or_bits b a 4 8
             else if family =? WIN_INET6 then let* b := poke b (a + 76) sa in or_bits b a 4 8 else Some b) in
  let* b := (if p_replace_aips p then or_bits b a 4 32 else Some b) in
  let* b := (if p_remove p then or_bits b a 4 64 else Some b) in
  let* (b, a', n) := wput_aips b (a + wz_peer) (p_aips p) 0 in
  let* b := poke b (a + 128) (le 4 n) in
  Some (b, a').

Fixpoint wput_peers (b : list Z) (a : Z) (l : list peer) (count : Z) : option (list Z * Z) :=
  match l with
  | [] => Some (b, count)
  | p :: l' => let* (b, a') := wput_peer b a p in wput_peers b a' l' (count + 1)
  end.

(** src/ipc-windows.h:357-370 the size in a DWORD; [None]: EOVERFLOW *)
Fixpoint wadd (n : Z) (l : list allowedip) : option Z :=
  match l with [] => Some n | _ :: l' => if 2 ^ 32 - 1 - n <? wz_aip then None else wadd (n + wz_aip) l' end.
Fixpoint wsize (n : Z) (ps : list peer) : option Z :=
  match ps with
  | [] => Some n
  | p :: ps' => if 2 ^ 32 - 1 - n <? wz_peer then None else let* n := wadd (n + wz_peer) (p_aips p) in wsize n ps'
  end.

(** src/ipc-windows.h:375-437 filling the block: Flags 0, ListenPort 4, PrivateKey 6, PublicKey 38, PeersCount 72 *)
Definition wfill (size : Z) (d : device) : option (list Z) :=
  let b := repeat 0 (Z.to_nat size) in
  let* b := (if d_has_priv d then let* b := poke b 6 (d_priv d) in or_bits b 0 4 2 else Some b) in
  let* b := (if d_has_port d then let* b := poke b 4 (le 2 (d_port d)) in or_bits b 0 4 4 else Some b) in
  let* b := (if d_replace_peers d then or_bits b 0 4 8 else Some b) in
  let* (b, n) := wput_peers b wz_iface (d_peers d) 0 in
  poke b 72 (le 4 n).

(** src/ipc-windows.h:342-450 kernel_set_device.  [handle]: the device, or errno when kernel_interface_handle() returned NULL; [mem]: calloc succeeds; [ioctl]: WG_IOCTL_SET.
    Result: return value, state of the driver, blocks handed to it, handles left open. *)
Definition kernel_set_device {K} (handle : unit + Z) (mem : bool) (ioctl : K -> list Z -> option K) (d : device) (k : K) : option (Z * K * list (list Z) * nat) :=
  match handle with
  | inr e => Some (- e, k, [], 0%nat)
  | inl _ =>
      match wsize wz_iface (d_peers d) with
      | None => Some (- EOVERFLOW, k, [], 0%nat)
      | Some size =>
          if negb mem then Some (- ENOMEM, k, [], 0%nat)
          else
            let* b := wfill size d in
            match ioctl k b with
            | None => Some (- EACCES, k, [b], 0%nat)
            | Some k' => Some (0, k', [b], 0%nat)
            end
      end
  end.

(** ** Reading *)

(** The endpoint of a peer: the union is copied by its family (src/ipc-windows.h:294-299) *)
Definition win_endpoint (b : list Z) (a : Z) : option endpoint :=
  let* f := peek b a 2 in
  if le_val f =? AF_INET then let* x := peek b a 16 in Some (Ep4 (firstn 4 (skipn 4 x)) (256 * nth 2 x 0 + nth 3 x 0))
  else if le_val f =? WIN_INET6 then
    let* x := peek b a 28 in Some (Ep6 (firstn 16 (skipn 8 x)) (256 * nth 2 x 0 + nth 3 x 0) (le_val (firstn 4 (skipn 4 x))) (le_val (firstn 4 (skipn 24 x))))
  else Some EpNone.

(** src/ipc-windows.h:309-330 *)
Fixpoint wget_aips (b : list Z) (n : nat) (a : Z) (mem : nat) : option (got (list allowedip * Z)) :=
  match n with
  | O => Some (Got ([], a) mem)
  | S n' =>
      match mem with
      | O => Some NoMem
      | S mem =>
          let* af := peek b (a + 16) 2 in
          let f := le_val af in
          let* x := (if f =? AF_INET then let* ip := peek b a 4 in let* c := peek b (a + 18) 1 in Some (mk_aip AF_INET ip (le_val c))
                     else if f =? WIN_INET6 then let* ip := peek b a 16 in let* c := peek b (a + 18) 1 in Some (mk_aip AF_INET6 ip (le_val c))
                     else Some (mk_aip f (repeat 0 16) 0)) in
          let* r := wget_aips b n' (a + wz_aip) mem in
          match r with NoMem => Some NoMem | Got (l, a') mem => Some (Got (x :: l, a') mem) end
      end
  end.

(** src/ipc-windows.h:266-332 the peers: TxBytes 104, RxBytes 112, LastHandshake 120 (the difference of seconds is unsigned, tv_sec signed) *)
Fixpoint wget_peers (b : list Z) (n : nat) (a : Z) (mem : nat) : option (got (list peer)) :=
  match n with
  | O => Some (Got [] mem)
  | S n' =>
      match mem with
      | O => Some NoMem
      | S mem =>
          let* fl := peek b a 4 in
          let* pub := (if bit fl 0 then peek b (a + 8) 32 else Some zero_key) in
          let* psk := (if bit fl 1 then peek b (a + 40) 32 else Some zero_key) in
          let* ka := (if bit fl 2 then let* x := peek b (a + 72) 2 in Some (le_val x) else Some 0) in
          let* ep := (if bit fl 3 then win_endpoint b (a + 76) else Some EpNone) in
          let* rx := peek b (a + 112) 8 in
          let* tx := peek b (a + 104) 8 in
          let* t := peek b (a + 120) 8 in
          let sec := if le_val t =? 0 then 0 else s64 (u64 (le_val t / 10000000 - 11644473600)) in
          let nsec := if le_val t =? 0 then 0 else le_val t mod 10000000 * 100 in
          let* c := peek b (a + 128) 4 in
          let* r := wget_aips b (Z.to_nat (le_val c)) (a + wz_peer) mem in
          match r with
          | NoMem => Some NoMem
          | Got (aips, a') mem =>
              let p := mk_peer false false (bit fl 0) (bit fl 1 && negb (key_is_zero psk)) (bit fl 2) pub psk ep sec nsec (le_val rx) (le_val tx) ka aips in
              let* r := wget_peers b n' a' mem in
              match r with NoMem => Some NoMem | Got l mem => Some (Got (p :: l) mem) end
          end
      end
  end.

(** src/ipc-windows.h:244-332 the device from the block; IFNAMSIZ is 64 (src/wincompat/compat.h:21).  What was allocated is not freed when memory runs out. *)
Definition wget_block (iface : list Z) (b : list Z) (mem : nat) : option (got device) :=
  match mem with
  | O => Some NoMem
  | S mem =>
      let* fl := peek b 0 4 in
      let* port := (if bit fl 2 then let* x := peek b 4 2 in Some (le_val x) else Some 0) in
      let* pub := (if bit fl 0 then peek b 38 32 else Some zero_key) in
      let* priv := (if bit fl 1 then peek b 6 32 else Some zero_key) in
      let* c := peek b 72 4 in
      let* r := wget_peers b (Z.to_nat (le_val c)) wz_iface mem in
      match r with
      | NoMem => Some NoMem
      | Got ps mem => Some (Got (mk_device (firstn 63 iface) 0 false (bit fl 1) (bit fl 0) (bit fl 2) false pub priv 0 port ps) mem)
      end
  end.

(** src/ipc-windows.h:233-242 the loop: [blk] the buffer (None: null) of [last] bytes; [grow i]: malloc succeeds.  The driver may not write beyond what it was given.
    Result: an errno (the function returns at once) or the buffer. *)
Fixpoint wfetch (answers : list answer_dio) (grow : nat -> bool) (junk : Z -> Z) (i : nat) (blk : option (list Z)) (last : Z) : option (Z + option (list Z)) :=
  match answers with
  | [] => None
  | DioErr :: _ => Some (inl EACCES)
  | DioOk data :: _ =>
      if last <? len data then None
      else Some (inr (match blk with None => None | Some b => Some (data ++ skipn (length data) b) end))
  | DioMore size :: rest =>
      if negb (grow i) then Some (inl ENOMEM)
      else wfetch rest grow junk (S i) (Some (map junk (zrange 0 (Z.to_nat size)))) size
  end.

(** src/ipc-windows.h:215-340 kernel_get_device.  Result: return value, device, handles left open (the early returns do not close it). *)
Definition kernel_get_device (handle : unit + Z) (iface : list Z) (answers : list answer_dio) (grow : nat -> bool) (junk : Z -> Z) (mem : nat) : option (Z * option device * nat) :=
  match handle with
  | inr e => Some (- e, None, 0%nat)
  | inl _ =>
      match wfetch answers grow junk 0 None 0 with
      | None => None
      | Some (inl e) => Some (- e, None, 1%nat)
      | Some (inr None) => None                       (* wg_iface is null *)
      | Some (inr (Some b)) =>
          match wget_block iface b mem with
          | None => None
          | Some NoMem => Some (- ENOMEM, None, 0%nat)
          | Some (Got d _) => Some (0, Some d, 0%nat)
          end
      end
  end.
