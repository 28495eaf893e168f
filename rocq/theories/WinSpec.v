(** Specification: the structures of WireGuardNT's ioctls (src/uapi/windows/wireguard.h, x64) as sequences of bytes, and what they mean to the driver. *)
From Coq Require Import ZArith List Bool.
From Verif Require Import Base Types NlSpec ObsdSpec.
Import ListNotations.
Open Scope Z_scope.

(** WG_IOCTL_ALLOWED_IP: 16 bytes of address, ADDRESS_FAMILY (two bytes), UCHAR Cidr, padding to a multiple of 8. *)
Record w_aip := mk_w_aip { wa_addr : list Z; wa_af : Z; wa_cidr : Z }.
Definition waip_bytes (x : w_aip) (b : list Z) : Prop :=
  bytes 16 (wa_addr x) /\ word 16 (wa_af x) /\ word 8 (wa_cidr x) /\ exists pad, bytes 5 pad /\ b = concat [wa_addr x; le 2 (wa_af x); [wa_cidr x]; pad].

(** WG_IOCTL_PEER: flags, ProtocolVersion, PublicKey, PresharedKey, USHORT PersistentKeepalive, SOCKADDR_INET (28 bytes), TxBytes, RxBytes, LastHandshake, ULONG AllowedIPsCount;
    the allowed IPs follow. *)
Record w_peer := mk_w_peer { wp_flags : Z; wp_version : Z; wp_pub : list Z; wp_psk : list Z; wp_ka : Z; wp_sa : list Z; wp_tx : Z; wp_rx : Z; wp_time : Z; wp_aips : list w_aip }.
Definition wpeer_bytes (r : w_peer) (b : list Z) : Prop :=
  word 32 (wp_flags r) /\ word 32 (wp_version r) /\ bytes 32 (wp_pub r) /\ bytes 32 (wp_psk r) /\ word 16 (wp_ka r) /\ bytes 28 (wp_sa r)
  /\ word 64 (wp_tx r) /\ word 64 (wp_rx r) /\ word 64 (wp_time r)
  /\ exists pad pad' aips, bytes 2 pad /\ bytes 4 pad' /\ Forall2 waip_bytes (wp_aips r) aips /\ word 32 (Z.of_nat (length aips))
  /\ b = concat [le 4 (wp_flags r); le 4 (wp_version r); wp_pub r; wp_psk r; le 2 (wp_ka r); pad; wp_sa r; le 8 (wp_tx r); le 8 (wp_rx r);
                 le 8 (wp_time r); le 4 (Z.of_nat (length aips)); pad'] ++ concat aips.

(** WG_IOCTL_INTERFACE: flags, USHORT ListenPort, PrivateKey, PublicKey, ULONG PeersCount; the peers follow. *)
Record w_iface := mk_w_iface { wi_flags : Z; wi_port : Z; wi_priv : list Z; wi_pub : list Z; wi_peers : list w_peer }.
Definition wiface_bytes (r : w_iface) (b : list Z) : Prop :=
  word 32 (wi_flags r) /\ word 16 (wi_port r) /\ bytes 32 (wi_priv r) /\ bytes 32 (wi_pub r)
  /\ exists pad pad' peers, bytes 2 pad /\ bytes 4 pad' /\ Forall2 wpeer_bytes (wi_peers r) peers /\ word 32 (Z.of_nat (length peers))
  /\ b = concat [le 4 (wi_flags r); le 2 (wi_port r); wi_priv r; wi_pub r; pad; le 4 (Z.of_nat (length peers)); pad'] ++ concat peers.

(** A socket address: family (2 or 23, two bytes), port (big endian), address; for IPv6 flow information before and scope after it. *)
Definition wsays_endpoint (sa : list Z) : option endpoint :=
  match sa with
  | f0 :: f1 :: p0 :: p1 :: rest =>
      if f0 + 256 * f1 =? 2 then Some (Ep4 (firstn 4 rest) (256 * p0 + p1))
      else if f0 + 256 * f1 =? 23 then Some (Ep6 (firstn 16 (skipn 4 rest)) (256 * p0 + p1) (le_val (firstn 4 rest)) (le_val (firstn 4 (skipn 20 rest))))
      else None
  | _ => None
  end.
Definition wsays_aip (x : w_aip) : option allowedip :=
  if wa_af x =? 2 then Some (mk_aip AF_INET (firstn 4 (wa_addr x)) (wa_cidr x))
  else if wa_af x =? 23 then Some (mk_aip AF_INET6 (wa_addr x) (wa_cidr x)) else None.

(** WG_IOCTL_SET.  Flags of a peer: 0 public key, 1 preshared key, 2 keepalive, 3 endpoint, 4 protocol version, 5 replace allowed IPs, 6 remove, 7 update only; of the
    interface: 0 public key, 1 private key, 2 port, 3 replace peers.  There is no mark. *)
Definition wasks_peer (r : w_peer) (q : rq_peer) : Prop :=
  let f := Z.testbit (wp_flags r) in
  f 0 = true /\ rp_pub q = wp_pub r /\ rp_psk q = opt (f 1) (wp_psk r) /\ rp_ka q = opt (f 2) (wp_ka r)
  /\ (if f 3 then rp_endpoint q = wsays_endpoint (wp_sa r) /\ wsays_endpoint (wp_sa r) <> None else rp_endpoint q = None)
  /\ f 4 = false /\ rp_replace q = f 5 /\ rp_remove q = f 6 /\ f 7 = false
  /\ map wsays_aip (wp_aips r) = map Some (rp_aips q).
Definition wasks (name b : list Z) (q : request) : Prop :=
  exists r, wiface_bytes r b /\
  let f := Z.testbit (wi_flags r) in
  rq_name q = name /\ rq_priv q = opt (f 1) (wi_priv r) /\ rq_port q = opt (f 2) (wi_port r) /\ rq_fwmark q = None /\ rq_replace q = f 3
  /\ f 0 = false /\ Forall2 wasks_peer (wi_peers r) (rq_peers q).

(** WG_IOCTL_GET: the interface a block describes.  Times count units of 100 ns since 1601; 0 means never. *)
Definition unix_seconds (t : Z) : Z := if t =? 0 then 0 else t / 10 ^ 7 - 11644473600.
Definition unix_nanoseconds (t : Z) : Z := if t =? 0 then 0 else t mod 10 ^ 7 * 100.
Definition wtells_peer (r : w_peer) (p : peer) : Prop :=
  let f := Z.testbit (wp_flags r) in
  p_remove p = false /\ p_replace_aips p = false
  /\ p_has_pub p = f 0 /\ p_pub p = if_set (f 0) (wp_pub r) zero_key
  /\ p_psk p = if_set (f 1) (wp_psk r) zero_key /\ p_has_psk p = nonzero_key (p_psk p)
  /\ p_has_ka p = f 2 /\ p_ka p = if_set (f 2) (wp_ka r) 0
  /\ Some (p_endpoint p) = (if f 3 then wsays_endpoint (wp_sa r) else Some EpNone)
  /\ p_rx p = wp_rx r /\ p_tx p = wp_tx r /\ p_hs_sec p = unix_seconds (wp_time r) /\ p_hs_nsec p = unix_nanoseconds (wp_time r)
  /\ map wsays_aip (wp_aips r) = map Some (p_aips p).
Definition wtells (b : list Z) (d : device) : Prop :=
  exists r, wiface_bytes r b /\
  let f := Z.testbit (wi_flags r) in
  d_ifindex d = 0 /\ d_replace_peers d = false /\ d_has_fwmark d = false /\ d_fwmark d = 0
  /\ d_has_pub d = f 0 /\ d_pub d = if_set (f 0) (wi_pub r) zero_key
  /\ d_has_priv d = f 1 /\ d_priv d = if_set (f 1) (wi_priv r) zero_key
  /\ d_has_port d = f 2 /\ d_port d = if_set (f 2) (wi_port r) 0
  /\ Forall2 wtells_peer (wi_peers r) (d_peers d).

(** WG_IOCTL_GET is asked again with the room the driver has stated until the block fits. *)
Inductive answer_dio := DioErr | DioMore (size : Z) | DioOk (data : list Z).
Inductive wconversation (now : nat -> option (list Z)) : nat -> Z -> list answer_dio -> nat -> Prop :=
| wconv_err : forall i room, now i = None -> wconversation now i room [DioErr] i
| wconv_done : forall i room b, now i = Some b -> len b <= room -> wconversation now i room [DioOk b] i
| wconv_more : forall i room b l j, now i = Some b -> room < len b -> wconversation now (S i) (len b) l j -> wconversation now i room (DioMore (len b) :: l) j.

(** A driver that does what the blocks given to WG_IOCTL_SET ask for, or fails and changes nothing. *)
Definition wobeys {K} (name : list Z) (apply : K -> request -> K) (ioctl : K -> list Z -> option K) : Prop :=
  forall k b q, wasks name b q -> ioctl k b = None \/ ioctl k b = Some (apply k q).
