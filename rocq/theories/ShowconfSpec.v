(** What the theorem about showconf is stated with. *)
From Coq Require Import String ZArith List Bool.
From Verif Require Import Base Cstr Inet Types ConfigSpec NlSpec KernelSpec UapiSpec.
Import ListNotations.
Open Scope Z_scope.

(** The platform resolves what it prints: a decimal port, a numeric IPv4 or IPv6 address with its scope; the names of scopes have no
    white space, '#' or ']'. *)
Definition prints_as (scope_name : list Z -> Z -> list Z) (ep : endpoint) (host service : list Z) : Prop :=
  match ep with
  | EpNone => False
  | Ep4 a p => host = inet_ntop4 a /\ service = print_dec p
  | Ep6 a p _ s => host = inet_ntop6 a ++ (if s =? 0 then [] else 37 :: scope_name a s) /\ service = print_dec p
  end.
Record numeric_world (port_of : list Z -> option Z) (resolve : list Z -> list Z -> option endpoint) (scope_name : list Z -> Z -> list Z) : Prop := {
  nw_port : forall n, 0 < n < 65536 -> port_of (print_dec n) = Some n;
  nw_resolve : forall ep host service, wf_endpoint ep -> prints_as scope_name ep host service -> resolve host service = Some (no_flow ep);
  nw_scope : forall a s, Forall (fun c => is_ws c = false /\ c <> 35 /\ c <> 93 /\ is_char c) (scope_name a s)
}.

(** The update a restored device stands for: everything is set (what the file does not mention is reset), all peers are replaced, flow
    labels are not kept. *)
Definition restored_peer (p : peer) : peer :=
  mk_peer false true true (p_has_psk p) (negb (p_ka p =? 0)) (p_pub p) (if p_has_psk p then p_psk p else repeat 0 32) (no_flow (p_endpoint p))
    0 0 0 0 (p_ka p) (p_aips p).
Definition restored (d : device) : device :=
  mk_device [] 0 true true false true true (repeat 0 32) (if d_has_priv d then d_priv d else repeat 0 32) (d_fwmark d) (d_port d)
    (map restored_peer (d_peers d)).

(** [shows s d]: [d] is the device that is read from the interface [s]. *)
Definition shows_peer (s : iface) (q : kpeer) (p : peer) : Prop :=
  p_pub p = k_pub q /\ p_psk p = k_psk q /\ p_has_psk p = negb (beq (k_psk q) (repeat 0 32)) /\ p_ka p = k_ka q /\
  p_endpoint p = or_else (k_ep q) EpNone /\ p_aips p = aips_of (k_pub q) s.
Definition shows (s : iface) (d : device) : Prop :=
  d_priv d = i_priv s /\ d_has_priv d = negb (beq (i_priv s) (repeat 0 32)) /\ d_port d = i_port s /\ d_fwmark d = i_fwmark s /\
  Forall2 (shows_peer s) (i_peers s) (d_peers d).

(** A consistent table: each prefix once, with its host part cleared; endpoints are real ones. *)
Definition table_ok (s : iface) : Prop :=
  NoDup (map fst (i_aips s)) /\ Forall (fun e => network (fst e) = fst e) (i_aips s).
