(** Specification of what the kernel answers to a "get device" request: netlink datagrams and their messages (netlink(7)), and the encoding of
    a device in them (src/uapi/linux/linux/wireguard.h:7-71). *)
From Coq Require Import ZArith List Bool Lia.
From Verif Require Import Base Types NlSpec.
Import ListNotations.
Open Scope Z_scope.

(** The messages in the first [n] bytes of [b]: each starts with its length (at least that of the 16 byte header) and is padded to a
    multiple of 4 bytes; a message that would not fit ends the datagram. *)
Fixpoint msgs (fuel : nat) (n : Z) (b : list Z) : list (list Z) :=
  match fuel with
  | O => []
  | S f =>
      if 16 <=? n then
        let l := le_val (firstn 4 b) in
        if (16 <=? l) && (l <=? n)
        then firstn (Z.to_nat (up4 l)) b :: msgs f (n - up4 l) (skipn (Z.to_nat (up4 l)) b)
        else []
      else []
  end.
(** No length field looked at is 2^31 or more. *)
Fixpoint sane (fuel : nat) (n : Z) (b : list Z) : Prop :=
  match fuel with
  | O => True
  | S f =>
      16 <= n ->
        let l := le_val (firstn 4 b) in
        l < 2 ^ 31 /\ (16 <= l <= n -> sane f (n - up4 l) (skipn (Z.to_nat (up4 l)) b))
  end.

(** A part of a peer, as one message carries it.  Attributes that are absent are [None]; an attribute may not be repeated; unknown
    attributes are allowed anywhere, and the order is free. *)
Record section := mk_section {
  sc_pub : list Z;
  sc_psk : option (list Z);
  sc_ep : option endpoint;
  sc_hs : option (Z * Z);
  sc_rx : option Z;
  sc_tx : option Z;
  sc_ka : option Z;
  sc_aips : list allowedip
}.
Definition signed64 (z : Z) : Z := if z <? 2 ^ 63 then z else z - 2 ^ 64.
Definition once (l : list (Z * list Z)) : Prop := NoDup (map fst l).

Definition read_aip_once (b : list Z) (a : allowedip) : Prop := once (attrs b) /\ read_aip b = Some a.

(** Two lists related item by item. *)
Definition items {A B} (R : A -> B -> Prop) : list A -> list B -> Prop := Forall2 R.

Definition is_section (b : list Z) (s : section) : Prop :=
  let l := attrs b in
  once l
  /\ find_attr 1 l = Some (sc_pub s) /\ len (sc_pub s) = 32
  /\ sized 32 (fun k => k) (find_attr 2 l) = Some (sc_psk s)
  /\ match find_attr 4 l, sc_ep s with
     | None, None => True
     | Some e, Some x => read_endpoint e = Some x
     | _, _ => False
     end
  /\ sized 16 (fun p => (signed64 (le_val (firstn 8 p)), signed64 (le_val (skipn 8 p)))) (find_attr 6 l) = Some (sc_hs s)
  /\ sized 8 le_val (find_attr 7 l) = Some (sc_rx s)
  /\ sized 8 le_val (find_attr 8 l) = Some (sc_tx s)
  /\ sized 2 le_val (find_attr 5 l) = Some (sc_ka s)
  /\ items (fun a x => read_aip_once (snd a) x) (match find_attr 9 l with None => [] | Some p => attrs p end) (sc_aips s).

(** A message of the dump: fields of the interface, and parts of peers. *)
Record dump := mk_dump {
  du_ifindex : option Z;
  du_name : option (list Z);
  du_priv : option (list Z);
  du_pub : option (list Z);
  du_port : option Z;
  du_fwmark : option Z;
  du_sections : list section
}.
Definition is_dump (b : list Z) (q : dump) : Prop :=
  let l := attrs b in
  once l
  /\ sized 4 le_val (find_attr 1 l) = Some (du_ifindex q)
  /\ match find_attr 2 l, du_name q with
     | None, None => True
     | Some p, Some n => In 0 p /\ until_nul p = n /\ len n <= 15
     | _, _ => False
     end
  /\ sized 32 (fun k => k) (find_attr 3 l) = Some (du_priv q)
  /\ sized 32 (fun k => k) (find_attr 4 l) = Some (du_pub q)
  /\ sized 2 le_val (find_attr 6 l) = Some (du_port q)
  /\ sized 4 le_val (find_attr 7 l) = Some (du_fwmark q)
  /\ items (fun a x => is_section (snd a) x) (match find_attr 8 l with None => [] | Some p => attrs p end) (du_sections q).

(** A well-formed message: its first field is its length, a multiple of 4. *)
Definition message (m : list Z) : Prop :=
  Forall is_byte m /\ 16 <= len m < 2 ^ 30 /\ (4 | len m) /\ le_val (firstn 4 m) = len m.
(** The numbers in the header. *)
Definition msg_type (m : list Z) : Z := le_val (firstn 2 (skipn 4 m)).
Definition msg_flags (m : list Z) : Z := le_val (firstn 2 (skipn 6 m)).
Definition msg_port (m : list Z) : Z := le_val (firstn 4 (skipn 12 m)).
(** An answer to the request with number [seq] from port [portid] in a dump that was not interrupted (NLM_F_DUMP_INTR, 0x10). *)
Definition answer (seq portid : Z) (m : list Z) : Prop :=
  message m /\ (msg_seq m = seq \/ msg_seq m = 0) /\ (msg_port m = portid \/ msg_port m = 0) /\ Z.testbit (msg_flags m) 4 = false.
Definition data_message (seq portid : Z) (m : list Z) (q : dump) : Prop :=
  answer seq portid m /\ 16 <= msg_type m /\ 20 <= len m /\ is_dump (skipn 20 m) q.
(** NLMSG_DONE with NLM_F_MULTI and error code 0. *)
Definition done_message (seq portid : Z) (m : list Z) : Prop :=
  answer seq portid m /\ msg_type m = 3 /\ Z.testbit (msg_flags m) 1 = true /\ len m = 20 /\ le_val (skipn 16 m) = 0.

(** What a number of optional statements say about a value with a default: nobody contradicts it, and somebody says it unless it is the default. *)
Definition stated {A} (os : list (option A)) (v dflt : A) : Prop :=
  Forall (fun o => o = None \/ o = Some v) os /\ (In (Some v) os \/ (v = dflt /\ Forall (fun o => o = None) os)).

(** The parts of a peer: the first has all of its attributes and the first of its allowed IPs (maybe none), the others have only more of
    its allowed IPs, at least one. *)
Definition parts_of (p : peer) (l : list section) : Prop :=
  exists s rest, l = s :: rest
    /\ sc_pub s = p_pub p
    /\ stated [sc_psk s] (p_psk p) zero_key
    /\ (match p_endpoint p with EpNone => sc_ep s = None | e => sc_ep s = Some e end)
    /\ stated [sc_hs s] (p_hs_sec p, p_hs_nsec p) (0, 0)
    /\ stated [sc_rx s] (p_rx p) 0 /\ stated [sc_tx s] (p_tx p) 0 /\ stated [sc_ka s] (p_ka p) 0
    /\ Forall (fun c => sc_pub c = p_pub p /\ sc_aips c <> []) rest
    /\ p_aips p = sc_aips s ++ flat_map sc_aips rest.

(** The messages of a dump of an interface, however its peers are cut. *)
Definition dump_of (d : device) (qs : list dump) : Prop :=
  stated (map du_ifindex qs) (d_ifindex d) 0
  /\ stated (map du_name qs) (d_name d) []
  /\ stated (map du_priv qs) (d_priv d) zero_key
  /\ stated (map du_pub qs) (d_pub d) zero_key
  /\ stated (map du_port qs) (d_port d) 0
  /\ stated (map du_fwmark qs) (d_fwmark d) 0
  /\ (d_has_priv d = true <-> In (Some (d_priv d)) (map du_priv qs))
  /\ (d_has_pub d = true <-> In (Some (d_pub d)) (map du_pub qs))
  /\ NoDup (map p_pub (d_peers d))
  /\ exists parts, flat_map du_sections qs = concat parts /\ Forall2 parts_of (d_peers d) parts.

(** Flags of a device that was read: a preshared key counts as present iff it is not zero; flags used only in updates are not set. *)
Definition as_read (d : device) : Prop :=
  d_replace_peers d = false /\ d_has_port d = false /\ d_has_fwmark d = false
  /\ Forall (fun p => p_remove p = false /\ p_replace_aips p = false /\ p_has_pub p = true /\ p_has_ka p = false
                      /\ (p_has_psk p = true <-> p_psk p <> zero_key)) (d_peers d).
