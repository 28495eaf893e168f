(** Specification: the structures of OpenBSD's WireGuard ioctls (if_wg.h, amd64) as sequences of bytes, and what they mean to the kernel. *)
From Coq Require Import ZArith List Bool.
From Verif Require Import Base Types NlSpec.
Import ListNotations.
Open Scope Z_scope.

Definition bytes (n : Z) (b : list Z) : Prop := len b = n /\ Forall is_byte b.
Definition word (n : Z) (v : Z) : Prop := 0 <= v < 2 ^ n.

(** struct wg_aip_io: sa_family_t a_af (one byte), int a_cidr, 16 bytes of address. *)
Record raw_aip := mk_raw_aip { ra_af : Z; ra_cidr : Z; ra_addr : list Z }.
Definition aip_bytes (x : raw_aip) (b : list Z) : Prop :=
  word 8 (ra_af x) /\ word 32 (ra_cidr x) /\ bytes 16 (ra_addr x)
  /\ exists pad, bytes 3 pad /\ b = concat [[ra_af x]; pad; le 4 (ra_cidr x); ra_addr x].

(** struct wg_peer_io: int p_flags, int p_protocol_version, p_public, p_psk, uint16_t p_pka, 28 bytes of socket address, p_txbytes, p_rxbytes, time of the last handshake
    (seconds, nanoseconds), p_aips_count, the allowed IPs. *)
Record raw_peer := mk_raw_peer { rw_flags : Z; rw_version : Z; rw_pub : list Z; rw_psk : list Z; rw_pka : Z; rw_sa : list Z;
  rw_tx : Z; rw_rx : Z; rw_sec : Z; rw_nsec : Z; rw_aips : list raw_aip }.
Definition peer_bytes (r : raw_peer) (b : list Z) : Prop :=
  word 32 (rw_flags r) /\ word 32 (rw_version r) /\ bytes 32 (rw_pub r) /\ bytes 32 (rw_psk r) /\ word 16 (rw_pka r) /\ bytes 28 (rw_sa r)
  /\ word 64 (rw_tx r) /\ word 64 (rw_rx r) /\ word 64 (rw_sec r) /\ word 64 (rw_nsec r)
  /\ exists pad aips, bytes 2 pad /\ Forall2 aip_bytes (rw_aips r) aips /\ word 64 (Z.of_nat (length aips))
  /\ b = concat [le 4 (rw_flags r); le 4 (rw_version r); rw_pub r; rw_psk r; le 2 (rw_pka r); pad; rw_sa r; le 8 (rw_tx r); le 8 (rw_rx r);
                 le 8 (rw_sec r); le 8 (rw_nsec r); le 8 (Z.of_nat (length aips))] ++ concat aips.

(** struct wg_interface_io: uint8_t i_flags, in_port_t i_port, int i_rtable, i_public, i_private, i_peers_count, the peers. *)
Record raw_iface := mk_raw_iface { ri_flags : Z; ri_port : Z; ri_rtable : Z; ri_pub : list Z; ri_priv : list Z; ri_peers : list raw_peer }.
Definition iface_bytes (r : raw_iface) (b : list Z) : Prop :=
  word 8 (ri_flags r) /\ word 16 (ri_port r) /\ word 32 (ri_rtable r) /\ bytes 32 (ri_pub r) /\ bytes 32 (ri_priv r)
  /\ exists pad peers, bytes 1 pad /\ Forall2 peer_bytes (ri_peers r) peers /\ word 64 (Z.of_nat (length peers))
  /\ b = concat [[ri_flags r]; pad; le 2 (ri_port r); le 4 (ri_rtable r); ri_pub r; ri_priv r; le 8 (Z.of_nat (length peers))] ++ concat peers.

(** A socket address: length, family (AF_INET 2 in 16 bytes, AF_INET6 24 in 28), port (big endian), address; for IPv6 flow information before and scope after it. *)
Definition says_endpoint (sa : list Z) : option endpoint :=
  match sa with
  | l :: f :: p0 :: p1 :: rest =>
      if (l =? 16) && (f =? 2) then Some (Ep4 (firstn 4 rest) (256 * p0 + p1))
      else if (l =? 28) && (f =? 24) then Some (Ep6 (firstn 16 (skipn 4 rest)) (256 * p0 + p1) (le_val (firstn 4 rest)) (le_val (firstn 4 (skipn 20 rest))))
      else None
  | _ => None
  end.
Definition says_aip (x : raw_aip) : option allowedip :=
  if ra_af x =? 2 then Some (mk_aip AF_INET (firstn 4 (ra_addr x)) (ra_cidr x))
  else if ra_af x =? 24 then Some (mk_aip AF_INET6 (ra_addr x) (ra_cidr x)) else None.

(** SIOCSWG.  Flags of a peer: 0 public key, 1 preshared key, 2 keepalive, 3 endpoint, 4 replace allowed IPs, 5 remove; of the interface: 0 public key, 1 private key,
    2 port, 3 routing table, 4 replace peers. *)
Definition asks_peer (r : raw_peer) (q : rq_peer) : Prop :=
  let f := Z.testbit (rw_flags r) in
  f 0 = true /\ rp_pub q = rw_pub r /\ rp_psk q = opt (f 1) (rw_psk r) /\ rp_ka q = opt (f 2) (rw_pka r)
  /\ (if f 3 then rp_endpoint q = says_endpoint (rw_sa r) /\ says_endpoint (rw_sa r) <> None else rp_endpoint q = None)
  /\ rp_replace q = f 4 /\ rp_remove q = f 5 /\ rw_version r = 0
  /\ map says_aip (rw_aips r) = map Some (rp_aips q).
Definition asks (name b : list Z) (q : request) : Prop :=
  exists r, iface_bytes r b /\
  let f := Z.testbit (ri_flags r) in
  rq_name q = name /\ rq_priv q = opt (f 1) (ri_priv r) /\ rq_port q = opt (f 2) (ri_port r) /\ rq_fwmark q = opt (f 3) (ri_rtable r) /\ rq_replace q = f 4
  /\ f 0 = false /\ Forall2 asks_peer (ri_peers r) (rq_peers q).

(** SIOCGWG: the interface a block describes. *)
Definition signed64 (z : Z) : Z := if z <? 2 ^ 63 then z else z - 2 ^ 64.
Definition nonzero_key (k : list Z) : bool := negb (beq k zero_key).
Definition if_set {A} (b : bool) (x : A) (d : A) : A := if b then x else d.
Definition tells_peer (r : raw_peer) (p : peer) : Prop :=
  let f := Z.testbit (rw_flags r) in
  p_remove p = false /\ p_replace_aips p = false
  /\ p_has_pub p = f 0 /\ p_pub p = if_set (f 0) (rw_pub r) zero_key
  /\ p_psk p = if_set (f 1) (rw_psk r) zero_key /\ p_has_psk p = nonzero_key (p_psk p)
  /\ p_has_ka p = f 2 /\ p_ka p = if_set (f 2) (rw_pka r) 0
  /\ Some (p_endpoint p) = (if f 3 then says_endpoint (rw_sa r) else Some EpNone)
  /\ p_rx p = rw_rx r /\ p_tx p = rw_tx r /\ p_hs_sec p = signed64 (rw_sec r) /\ p_hs_nsec p = signed64 (rw_nsec r)
  /\ map says_aip (rw_aips r) = map Some (p_aips p) /\ Forall (fun a => a_cidr a < 256) (p_aips p).
Definition tells (b : list Z) (d : device) : Prop :=
  exists r, iface_bytes r b /\
  let f := Z.testbit (ri_flags r) in
  d_ifindex d = 0 /\ d_replace_peers d = false
  /\ d_has_pub d = f 0 /\ d_pub d = if_set (f 0) (ri_pub r) zero_key
  /\ d_has_priv d = f 1 /\ d_priv d = if_set (f 1) (ri_priv r) zero_key
  /\ d_has_port d = f 2 /\ d_port d = if_set (f 2) (ri_port r) 0
  /\ d_has_fwmark d = f 3 /\ d_fwmark d = if_set (f 3) (ri_rtable r) 0
  /\ Forall2 tells_peer (ri_peers r) (d_peers d).

(** SIOCGWG is asked again with the room the kernel has stated until the block fits.  [now i]: the block, or the error, at the time of call [i]; the conversation that
    starts with call [i] and room for [room] bytes ends with call [j]. *)
Inductive answer_io := IoErr (e : Z) | Io (size : Z) (data : list Z).
Inductive conversation (now : nat -> Z + list Z) : nat -> Z -> list answer_io -> nat -> Prop :=
| conv_err : forall i room e, now i = inl e -> conversation now i room [IoErr e] i
| conv_done : forall i room b, now i = inr b -> len b <= room -> conversation now i room [Io (len b) b] i
| conv_more : forall i room b l j, now i = inr b -> room < len b -> conversation now (S i) (len b) l j -> conversation now i room (Io (len b) [] :: l) j.

(** A kernel that does what the blocks given to SIOCSWG ask for, or answers an error and changes nothing. *)
Definition obeys {K} (apply : K -> request -> K) (ioctl : K -> list Z -> list Z -> Z + K) : Prop :=
  forall k name b q, asks name b q -> (exists e, 0 < e /\ ioctl k name b = inl e) \/ ioctl k name b = inr (apply k q).
