(** Specification: the name/value lists of FreeBSD's WireGuard ioctls (if_wg.c) and what they mean to the kernel. *)
From Coq Require Import String ZArith List Bool.
From Verif Require Import Base Types NlSpec ObsdSpec.
Import ListNotations.
Open Scope Z_scope.

(** nv(9): a list of named values, each a number (64 bits), a boolean, bytes, or an array of such lists. *)
Inductive nval := NNum (n : Z) | NBool (b : bool) | NBin (b : list Z) | NArr (l : list (list (string * nval))).
Definition nvl : Type := list (string * nval).
Definition names (l : nvl) : list string := map fst l.

(** No name occurs twice; what stands under the name [n], if anything. *)
Definition well_named (l : nvl) : Prop := NoDup (names l).
Definition under (l : nvl) (n : string) (o : option nval) : Prop := match o with Some v => In (n, v) l | None => ~ In n (names l) end.
Definition only (l : nvl) (ns : list string) : Prop := incl (names l) ns.

(** A socket address: length, family (AF_INET 2 in 16 bytes, AF_INET6 28 in 28), port (big endian), address; for IPv6 flow information before and scope after it. *)
Definition sa_says (sa : list Z) : option endpoint :=
  match sa with
  | l :: f :: p0 :: p1 :: rest =>
      if (l =? 16) && (f =? 2) && (len sa =? 16) then Some (Ep4 (firstn 4 rest) (256 * p0 + p1))
      else if (l =? 28) && (f =? 28) && (len sa =? 28) then Some (Ep6 (firstn 16 (skipn 4 rest)) (256 * p0 + p1) (le_val (firstn 4 rest)) (le_val (firstn 4 (skipn 20 rest))))
      else None
  | _ => None
  end.

(** SIOCSWG: the change a list asks for. *)
Definition nv_aip (l : nvl) (a : allowedip) : Prop :=
  well_named l /\ under l "cidr" (Some (NNum (a_cidr a)))
  /\ under l "ipv4" (opt (a_family a =? AF_INET) (NBin (a_ip a))) /\ under l "ipv6" (opt (a_family a =? AF_INET6) (NBin (a_ip a)))
  /\ ((a_family a = AF_INET /\ bytes 4 (a_ip a) /\ 0 <= a_cidr a <= 32) \/ (a_family a = AF_INET6 /\ bytes 16 (a_ip a) /\ 0 <= a_cidr a <= 128)).
(** An array under a name; no array at all if it would be empty. *)
Definition array {A} (l : nvl) (n : string) (rel : nvl -> A -> Prop) (xs : list A) : Prop :=
  match xs with [] => under l n None | _ => exists ls, under l n (Some (NArr ls)) /\ Forall2 rel ls xs end.
Definition asks_peer (l : nvl) (q : rq_peer) : Prop :=
  well_named l /\ only l ["public-key"; "preshared-key"; "persistent-keepalive-interval"; "endpoint"; "replace-allowedips"; "remove"; "allowed-ips"]%string
  /\ under l "public-key" (Some (NBin (rp_pub q))) /\ under l "preshared-key" (option_map NBin (rp_psk q))
  /\ under l "persistent-keepalive-interval" (option_map NNum (rp_ka q))
  /\ (match rp_endpoint q with None => under l "endpoint" None | Some e => exists sa, under l "endpoint" (Some (NBin sa)) /\ sa_says sa = Some e end)
  /\ under l "replace-allowedips" (opt (rp_replace q) (NBool true)) /\ under l "remove" (opt (rp_remove q) (NBool true))
  /\ array l "allowed-ips" nv_aip (rp_aips q).
Definition asks (name : list Z) (l : nvl) (q : request) : Prop :=
  rq_name q = name /\ well_named l /\ only l ["private-key"; "listen-port"; "user-cookie"; "replace-peers"; "peers"]%string
  /\ under l "private-key" (option_map NBin (rq_priv q)) /\ under l "listen-port" (option_map NNum (rq_port q)) /\ under l "user-cookie" (option_map NNum (rq_fwmark q))
  /\ under l "replace-peers" (opt (rq_replace q) (NBool true)) /\ array l "peers" asks_peer (rq_peers q).

(** SIOCGWG: the interface a list describes (there may be other names, to be ignored). *)
Definition number_or_0 (l : nvl) (n : string) (present : bool) (v : Z) : Prop := under l n (opt present (NNum v)) /\ (present = false -> v = 0).
Definition key_or_0 (l : nvl) (n : string) (present : bool) (k : list Z) : Prop := under l n (opt present (NBin k)) /\ (if present then bytes 32 k else k = zero_key).
Definition count (l : nvl) (n : string) (v : Z) : Prop := exists present, number_or_0 l n present v.
Definition tells_peer (l : nvl) (p : peer) : Prop :=
  well_named l /\ p_remove p = false /\ p_replace_aips p = false
  /\ key_or_0 l "public-key" (p_has_pub p) (p_pub p)
  /\ (exists b, key_or_0 l "preshared-key" b (p_psk p)) /\ p_has_psk p = nonzero_key (p_psk p)
  /\ number_or_0 l "persistent-keepalive-interval" (p_has_ka p) (p_ka p) /\ word 16 (p_ka p)
  /\ (match p_endpoint p with EpNone => under l "endpoint" None | e => exists sa, under l "endpoint" (Some (NBin sa)) /\ sa_says sa = Some e end)
  /\ count l "rx-bytes" (p_rx p) /\ count l "tx-bytes" (p_tx p)
  /\ (under l "last-handshake-time" None /\ p_hs_sec p = 0 /\ p_hs_nsec p = 0
      \/ exists s n, word 64 s /\ word 64 n /\ under l "last-handshake-time" (Some (NBin (le 8 s ++ le 8 n))) /\ p_hs_sec p = signed64 s /\ p_hs_nsec p = signed64 n)
  /\ array l "allowed-ips" nv_aip (p_aips p).
Definition tells (l : nvl) (d : device) : Prop :=
  well_named l /\ d_ifindex d = 0 /\ d_replace_peers d = false
  /\ key_or_0 l "public-key" (d_has_pub d) (d_pub d) /\ key_or_0 l "private-key" (d_has_priv d) (d_priv d)
  /\ number_or_0 l "listen-port" (d_has_port d) (d_port d) /\ word 16 (d_port d)
  /\ number_or_0 l "user-cookie" (d_has_fwmark d) (d_fwmark d) /\ word 32 (d_fwmark d)
  /\ array l "peers" tells_peer (d_peers d).

(** SIOCGWG with no room states the size of the packed list; with too little it fails (ENOSPC, 28); otherwise it writes the list and states its size.  [now i]: the list, or the
    error, at the time of call [i]. *)
Definition SIOCGWG (pack : nvl -> list Z) (now : nat -> Z + nvl) (i : nat) (room : Z) : Z + Z * list Z :=
  match now i with
  | inl e => inl e
  | inr l => if room =? 0 then inr (len (pack l), []) else if room <? len (pack l) then inl 28 else inr (len (pack l), pack l)
  end.
(** libnv: unpacking what the kernel has packed gives the list. *)
Definition packs (pack : nvl -> list Z) (unpack : list Z -> Z + nvl) (now : nat -> Z + nvl) : Prop := forall i l, now i = inr l -> 0 < len (pack l) /\ unpack (pack l) = inr l.

(** A kernel that does what the lists given to SIOCSWG ask for, or answers an error and changes nothing. *)
Definition obeys {K} (apply : K -> request -> K) (ioctl : K -> list Z -> nvl -> Z + K) : Prop :=
  forall k name l q, asks name l q -> (exists e, 0 < e /\ ioctl k name l = inl e) \/ ioctl k name l = inr (apply k q).

(** [P] of every name and value, at every depth. *)
Inductive throughout (P : string -> nval -> Prop) : nvl -> Prop :=
| throughout_intro : forall l, (forall n v, In (n, v) l -> P n v) -> (forall n ls l', In (n, NArr ls) l -> In l' ls -> throughout P l') -> throughout P l.
(** Numbers have 64 bits, bytes are bytes, and addresses are not shorter than addresses. *)
Definition plain (n : string) (v : nval) : Prop :=
  match v with
  | NNum x => word 64 x
  | NBin b => Forall is_byte b /\ (n = "ipv4"%string -> 4 <= len b) /\ (n = "ipv6"%string -> 16 <= len b)
  | _ => True
  end.
