(** Model of src/containers.h. Flag words are records of booleans (one per flag bit, containers.h:41-47
    and 69-75); linked lists are Coq lists; unions are sums. *)
From Coq Require Import ZArith List Bool.
From Verif Require Import Base.
Import ListNotations.
Open Scope Z_scope.

(** Linux values of the address families. *)
Definition AF_INET : Z := 2.
Definition AF_INET6 : Z := 10.

(** src/containers.h:31-39 [struct wgallowedip]: [a_ip] is the 4 or 16 network-order bytes. *)
Record allowedip := mk_aip { a_family : Z; a_ip : list Z; a_cidr : Z }.

(** src/containers.h:55-59 the endpoint union: all zero (family 0), sockaddr_in or sockaddr_in6. *)
Inductive endpoint :=
| EpNone
| Ep4 (addr : list Z) (port : Z)
| Ep6 (addr : list Z) (port : Z) (flowinfo : Z) (scope : Z).

(** src/containers.h:49-67 [struct wgpeer]. *)
Record peer := mk_peer {
  p_remove : bool;               (* WGPEER_REMOVE_ME *)
  p_replace_aips : bool;         (* WGPEER_REPLACE_ALLOWEDIPS *)
  p_has_pub : bool;              (* WGPEER_HAS_PUBLIC_KEY *)
  p_has_psk : bool;              (* WGPEER_HAS_PRESHARED_KEY *)
  p_has_ka : bool;               (* WGPEER_HAS_PERSISTENT_KEEPALIVE_INTERVAL *)
  p_pub : list Z;
  p_psk : list Z;
  p_endpoint : endpoint;
  p_hs_sec : Z;
  p_hs_nsec : Z;
  p_rx : Z;
  p_tx : Z;
  p_ka : Z;
  p_aips : list allowedip
}.

(** src/containers.h:77-90 [struct wgdevice]. *)
Record device := mk_device {
  d_name : list Z;
  d_ifindex : Z;
  d_replace_peers : bool;        (* WGDEVICE_REPLACE_PEERS *)
  d_has_priv : bool;             (* WGDEVICE_HAS_PRIVATE_KEY *)
  d_has_pub : bool;              (* WGDEVICE_HAS_PUBLIC_KEY *)
  d_has_port : bool;             (* WGDEVICE_HAS_LISTEN_PORT *)
  d_has_fwmark : bool;           (* WGDEVICE_HAS_FWMARK *)
  d_pub : list Z;
  d_priv : list Z;
  d_fwmark : Z;
  d_port : Z;
  d_peers : list peer
}.

Definition zero_key : list Z := repeat 0 32.

(** calloc(1, sizeof(struct wgpeer)) and calloc(1, sizeof(struct wgdevice)). *)
Definition peer0 : peer :=
  mk_peer false false false false false zero_key zero_key EpNone 0 0 0 0 0 [].
Definition device0 : device :=
  mk_device [] 0 false false false false false zero_key zero_key 0 0 [].

(** Field updates (plain assignments in C). *)
Definition set_remove (p : peer) : peer :=
  mk_peer true (p_replace_aips p) (p_has_pub p) (p_has_psk p) (p_has_ka p) (p_pub p) (p_psk p) (p_endpoint p)
    (p_hs_sec p) (p_hs_nsec p) (p_rx p) (p_tx p) (p_ka p) (p_aips p).
Definition set_replace_aips (b : bool) (p : peer) : peer :=
  mk_peer (p_remove p) b (p_has_pub p) (p_has_psk p) (p_has_ka p) (p_pub p) (p_psk p) (p_endpoint p)
    (p_hs_sec p) (p_hs_nsec p) (p_rx p) (p_tx p) (p_ka p) (p_aips p).
Definition set_pub (k : list Z) (p : peer) : peer :=
  mk_peer (p_remove p) (p_replace_aips p) true (p_has_psk p) (p_has_ka p) k (p_psk p) (p_endpoint p)
    (p_hs_sec p) (p_hs_nsec p) (p_rx p) (p_tx p) (p_ka p) (p_aips p).
Definition set_psk (k : list Z) (p : peer) : peer :=
  mk_peer (p_remove p) (p_replace_aips p) (p_has_pub p) true (p_has_ka p) (p_pub p) k (p_endpoint p)
    (p_hs_sec p) (p_hs_nsec p) (p_rx p) (p_tx p) (p_ka p) (p_aips p).
Definition set_ka (n : Z) (p : peer) : peer :=
  mk_peer (p_remove p) (p_replace_aips p) (p_has_pub p) (p_has_psk p) true (p_pub p) (p_psk p) (p_endpoint p)
    (p_hs_sec p) (p_hs_nsec p) (p_rx p) (p_tx p) n (p_aips p).
Definition set_endpoint (e : endpoint) (p : peer) : peer :=
  mk_peer (p_remove p) (p_replace_aips p) (p_has_pub p) (p_has_psk p) (p_has_ka p) (p_pub p) (p_psk p) e
    (p_hs_sec p) (p_hs_nsec p) (p_rx p) (p_tx p) (p_ka p) (p_aips p).
Definition set_aips (l : list allowedip) (p : peer) : peer :=
  mk_peer (p_remove p) (p_replace_aips p) (p_has_pub p) (p_has_psk p) (p_has_ka p) (p_pub p) (p_psk p) (p_endpoint p)
    (p_hs_sec p) (p_hs_nsec p) (p_rx p) (p_tx p) (p_ka p) l.

Definition set_name (n : list Z) (d : device) : device :=
  mk_device n (d_ifindex d) (d_replace_peers d) (d_has_priv d) (d_has_pub d) (d_has_port d) (d_has_fwmark d)
    (d_pub d) (d_priv d) (d_fwmark d) (d_port d) (d_peers d).
Definition set_replace_peers (b : bool) (d : device) : device :=
  mk_device (d_name d) (d_ifindex d) b (d_has_priv d) (d_has_pub d) (d_has_port d) (d_has_fwmark d)
    (d_pub d) (d_priv d) (d_fwmark d) (d_port d) (d_peers d).
Definition set_priv (k : list Z) (d : device) : device :=
  mk_device (d_name d) (d_ifindex d) (d_replace_peers d) true (d_has_pub d) (d_has_port d) (d_has_fwmark d)
    (d_pub d) k (d_fwmark d) (d_port d) (d_peers d).
Definition set_port (n : Z) (d : device) : device :=
  mk_device (d_name d) (d_ifindex d) (d_replace_peers d) (d_has_priv d) (d_has_pub d) true (d_has_fwmark d)
    (d_pub d) (d_priv d) (d_fwmark d) n (d_peers d).
Definition set_fwmark (n : Z) (d : device) : device :=
  mk_device (d_name d) (d_ifindex d) (d_replace_peers d) (d_has_priv d) (d_has_pub d) (d_has_port d) true
    (d_pub d) (d_priv d) n (d_port d) (d_peers d).
Definition set_peers (l : list peer) (d : device) : device :=
  mk_device (d_name d) (d_ifindex d) (d_replace_peers d) (d_has_priv d) (d_has_pub d) (d_has_port d) (d_has_fwmark d)
    (d_pub d) (d_priv d) (d_fwmark d) (d_port d) l.

(** Well-formed data: what fits the C types and the protocol. *)
Definition wf_key (k : list Z) : Prop := length k = 32%nat /\ Forall is_byte k.
Definition wf_aip (a : allowedip) : Prop :=
  (a_family a = AF_INET /\ length (a_ip a) = 4%nat /\ Forall is_byte (a_ip a) /\ 0 <= a_cidr a <= 32) \/
  (a_family a = AF_INET6 /\ length (a_ip a) = 16%nat /\ Forall is_byte (a_ip a) /\ 0 <= a_cidr a <= 128).
Definition wf_endpoint (e : endpoint) : Prop :=
  match e with
  | EpNone => True
  | Ep4 a p => length a = 4%nat /\ Forall is_byte a /\ 0 <= p < 65536
  | Ep6 a p f s => length a = 16%nat /\ Forall is_byte a /\ 0 <= p < 65536 /\ 0 <= f < 2 ^ 32 /\ 0 <= s < 2 ^ 32
  end.
Definition wf_peer (p : peer) : Prop :=
  wf_key (p_pub p) /\ wf_key (p_psk p) /\ wf_endpoint (p_endpoint p) /\ 0 <= p_ka p < 65536 /\ Forall wf_aip (p_aips p)
  /\ 0 <= p_rx p < 2 ^ 64 /\ 0 <= p_tx p < 2 ^ 64
  /\ - 2 ^ 63 <= p_hs_sec p < 2 ^ 63 /\ - 2 ^ 63 <= p_hs_nsec p < 2 ^ 63.
Definition wf_device (d : device) : Prop :=
  wf_key (d_pub d) /\ wf_key (d_priv d) /\ 0 <= d_fwmark d < 2 ^ 32 /\ 0 <= d_port d < 65536 /\ Forall wf_peer (d_peers d).
