(** What the theorems about syncconf are stated with: the peers of an interface, consistent interfaces, the states an
    interface goes through, and qsort. *)
From Coq Require Import ZArith List Bool Permutation Sorted.
From Verif Require Import Base Types NlSpec KernelSpec.
Import ListNotations.
Open Scope Z_scope.

Definition keys (s : iface) : list (list Z) := map k_pub (i_peers s).
Definition peer_at (k : list Z) (s : iface) : option kpeer := find (fun p => beq (k_pub p) k) (i_peers s).

(** [k] is the public key of the private key [priv]; the all-zero private key stands for none. *)
Definition is_own (pubkey : list Z -> list Z) (priv k : list Z) : Prop := priv <> repeat 0 32 /\ pubkey priv = k.

(** A consistent interface: no two peers with the same key, allowed IPs belong to peers, no peer with the interface's own key. *)
Definition iface_ok (pubkey : list Z -> list Z) (s : iface) : Prop :=
  NoDup (keys s) /\ (forall a k, In (a, k) (i_aips s) -> In k (keys s)) /\ (forall k, is_own pubkey (i_priv s) k -> ~ In k (keys s)).

(** The states an interface goes through while a request is applied: after the interface settings, then after each peer. *)
Fixpoint peer_states (pubkey : list Z -> list Z) (rs : list rq_peer) (s : iface) : list iface :=
  s :: match rs with
       | [] => []
       | r :: rs' => peer_states pubkey rs' (apply_peer pubkey s r)
       end.
Definition settings_only (q : request) : request :=
  mk_request (rq_name q) (rq_priv q) (rq_port q) (rq_fwmark q) (rq_replace q) [].
Definition states (pubkey : list Z -> list Z) (s : iface) (q : request) : list iface :=
  peer_states pubkey (rq_peers q) (apply_request pubkey s (settings_only q)).

(** The device the interface reports: only the public keys of its peers matter here. *)
Definition reports (read : iface -> device) : Prop := forall s, map p_pub (d_peers (read s)) = keys s.

(** qsort: a permutation in the order of the comparison function. *)
Definition sorts {A} (cmp : A -> A -> Z) (qsort : list A -> list A) : Prop :=
  forall l, Permutation l (qsort l) /\ Sorted (fun a b => cmp a b <= 0) (qsort l).
