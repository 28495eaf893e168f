(** Specification of interface listing: which names a dump of links (rtnetlink(7)) contains, and which sockets announce an interface. *)
From Coq Require Import String ZArith List Bool.
From Verif Require Import Base Types NlSpec NlGetSpec.
Import ListNotations.
Open Scope Z_scope.

(** A link message: 16 bytes of header, 16 bytes of struct ifinfomsg, attributes.  IFLA_IFNAME (3) is the name, IFLA_LINKINFO (18) nests
    IFLA_INFO_KIND (1). *)
Definition link_attrs (m : list Z) : list (Z * list Z) := attrs (skipn 32 m).
Definition of_kind (kind : list Z) (m : list Z) : Prop :=
  exists p k, In (18, p) (link_attrs m) /\ In (1, k) (attrs p) /\ until_nul k = kind.
Definition has_name (n : list Z) (m : list Z) : Prop :=
  exists p, find_attr 3 (link_attrs m) = Some p /\ until_nul p = n.

(** The strings in it are terminated. *)
Definition strings_end (m : list Z) : Prop :=
  Forall (fun a => (fst a = 3 -> In 0 (snd a)) /\ (fst a = 18 -> Forall (fun k => fst k = 1 -> In 0 (snd k)) (attrs (snd a)))) (link_attrs m).

Definition link_message (seq portid : Z) (m : list Z) : Prop :=
  answer seq portid m /\ 16 <= msg_type m /\ 32 <= len m /\ strings_end m.

(** What a message contributes to the list: its name if it is a WireGuard interface with a name. *)
Definition listed (m : list Z) (ns : list (list Z)) : Prop :=
  (exists n, of_kind (str "wireguard") m /\ has_name n m /\ n <> [] /\ ns = [n])
  \/ (~ (exists n, of_kind (str "wireguard") m /\ has_name n m /\ n <> []) /\ ns = []).

(** The end of a dump: NLMSG_DONE (3), or a message saying that the dump was interrupted (NLM_F_DUMP_INTR, bit 4). *)
Definition dump_done (seq portid : Z) (m : list Z) : Prop := answer seq portid m /\ msg_type m = 3.
Definition dump_interrupted (seq portid : Z) (m : list Z) : Prop :=
  message m /\ (msg_seq m = seq \/ msg_seq m = 0) /\ (msg_port m = portid \/ msg_port m = 0) /\ Z.testbit (msg_flags m) 4 = true.
(** Any message of a dump of links that the kernel may send. *)
Definition well_formed (m : list Z) : Prop := message m /\ (16 <= msg_type m -> 32 <= len m /\ strings_end m).
