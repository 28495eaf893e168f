(** The effect of a "set device" request on an interface, after wireguard.h:72-129 and the kernel's documented
    behaviour.  This is the environment of the tools, not repository code: it is what the theorems about updates
    are stated against.

    An interface holds peers in order, and one global table of allowed IPs: a prefix belongs to one peer at a
    time, and adding a prefix (again) moves it to the end of its new owner's list.  Prefixes are stored with
    their host part cleared. *)
From Coq Require Import ZArith List Bool.
From Verif Require Import Base Types NlSpec.
Import ListNotations.
Open Scope Z_scope.

Record kpeer := mk_kpeer {
  k_pub : list Z;
  k_psk : list Z;
  k_ep : option endpoint;
  k_ka : Z
}.
Record iface := mk_iface {
  i_priv : list Z;
  i_port : Z;
  i_fwmark : Z;
  i_peers : list kpeer;
  i_aips : list (allowedip * list Z)      (* prefix, public key of the owner *)
}.

(** Clear the bits after the first [n] of a big-endian byte string. *)
Fixpoint clear_host (n : Z) (b : list Z) : list Z :=
  match b with
  | [] => []
  | x :: b' =>
      (if 8 <=? n then x else if n <=? 0 then 0 else x / 2 ^ (8 - n) * 2 ^ (8 - n)) :: clear_host (n - 8) b'
  end.
Definition network (a : allowedip) : allowedip := mk_aip (a_family a) (clear_host (a_cidr a) (a_ip a)) (a_cidr a).

Definition aip_eqb (a b : allowedip) : bool :=
  (a_family a =? a_family b) && beq (a_ip a) (a_ip b) && (a_cidr a =? a_cidr b).

(** Give prefix [a] to peer [owner]. *)
Definition route (owner : list Z) (tbl : list (allowedip * list Z)) (a : allowedip) : list (allowedip * list Z) :=
  filter (fun e => negb (aip_eqb (fst e) (network a))) tbl ++ [(network a, owner)].

Definition has_peer (k : list Z) (s : iface) : bool := existsb (fun p => beq (k_pub p) k) (i_peers s).
Definition drop_routes (k : list Z) (tbl : list (allowedip * list Z)) := filter (fun e => negb (beq (snd e) k)) tbl.
Definition drop_peer (k : list Z) (s : iface) : iface :=
  mk_iface (i_priv s) (i_port s) (i_fwmark s) (filter (fun p => negb (beq (k_pub p) k)) (i_peers s)) (drop_routes k (i_aips s)).

Definition or_else {A} (o : option A) (d : A) : A := match o with Some x => x | None => d end.
Definition update_kpeer (r : rq_peer) (p : kpeer) : kpeer :=
  mk_kpeer (k_pub p) (or_else (rp_psk r) (k_psk p))
    (match rp_endpoint r with Some e => Some e | None => k_ep p end) (or_else (rp_ka r) (k_ka p)).

Section Apply.
(** [pubkey]: the public key of a private key. *)
Variable pubkey : list Z -> list Z.

(** The interface's own public key, if it has a private key. *)
Definition own_key (s : iface) (k : list Z) : bool := negb (beq (i_priv s) zero_key) && beq (pubkey (i_priv s)) k.

Definition apply_peer (s : iface) (r : rq_peer) : iface :=
  let k := rp_pub r in
  if has_peer k s then
    if rp_remove r then drop_peer k s
    else
      let tbl := if rp_replace r then drop_routes k (i_aips s) else i_aips s in
      mk_iface (i_priv s) (i_port s) (i_fwmark s)
        (map (fun p => if beq (k_pub p) k then update_kpeer r p else p) (i_peers s))
        (fold_left (route k) (rp_aips r) tbl)
  else if rp_remove r then s
  else if own_key s k then s          (* a peer with the interface's own key is ignored *)
  else
    mk_iface (i_priv s) (i_port s) (i_fwmark s)
      (i_peers s ++ [update_kpeer r (mk_kpeer k zero_key None 0)])
      (fold_left (route k) (rp_aips r) (i_aips s)).

Definition apply_request (s : iface) (q : request) : iface :=
  let s1 := mk_iface (i_priv s) (or_else (rq_port q) (i_port s)) (or_else (rq_fwmark q) (i_fwmark s)) (i_peers s) (i_aips s) in
  let s2 := if rq_replace q then mk_iface (i_priv s1) (i_port s1) (i_fwmark s1) [] [] else s1 in
  let s3 := match rq_priv q with
            | Some k =>
                let s' := if beq k zero_key then s2 else drop_peer (pubkey k) s2 in
                mk_iface k (i_port s') (i_fwmark s') (i_peers s') (i_aips s')
            | None => s2
            end in
  fold_left apply_peer (rq_peers q) s3.
End Apply.

(** The allowed IPs of a peer, in the order the interface reports them. *)
Definition aips_of (k : list Z) (s : iface) : list allowedip := map fst (filter (fun e => beq (snd e) k) (i_aips s)).
