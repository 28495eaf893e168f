(** Independent specification of configuration files and of 'wg set' arguments. *)
From Coq Require Import String ZArith List Bool.
From Verif Require Import Base Inet Types NumSpec EncodingSpec.
Import ListNotations.
Open Scope Z_scope.

(** * Values *)

Definition ci (a b : list Z) : Prop := lowers a = lowers b.

(** FwMark: off, decimal, or 0x and hexadecimal, at most 0xffffffff. *)
Inductive fwmark_value : list Z -> Z -> Prop :=
| fw_off : forall v, ci v (str "off") -> fwmark_value v 0
| fw_dec : forall v n, decimal v n -> n <= 0xffffffff -> fwmark_value v n
| fw_hex : forall h n, hexadecimal h n -> n <= 0xffffffff -> fwmark_value (str "0x" ++ h) n.

(** PersistentKeepalive: off or decimal at most 65535. *)
Inductive keepalive_value : list Z -> Z -> Prop :=
| ka_off : forall v, ci v (str "off") -> keepalive_value v 0
| ka_dec : forall v n, decimal v n -> n <= 65535 -> keepalive_value v n.

(** A key: canonical base64. *)
Definition key_value (v k : list Z) : Prop := is_key k /\ v = rfc4648 k.

(** An IP address, with its family and full prefix length. *)
Inductive ip_value : list Z -> Z -> list Z -> Z -> Prop :=
| ip_4 : forall s a, ~ In 58 s -> inet_pton4 s = Some a -> ip_value s AF_INET a 32
| ip_6 : forall s a, In 58 s -> inet_pton6 s = Some a -> ip_value s AF_INET6 a 128.

(** address, or address/length *)
Inductive aip_value : list Z -> allowedip -> Prop :=
| av_plain : forall s fam a full, ~ In 47 s -> ip_value s fam a full -> aip_value s (mk_aip fam a full)
| av_mask : forall s m fam a full c, ~ In 47 s -> ip_value s fam a full -> decimal m c -> c <= full ->
    aip_value (s ++ 47 :: m) (mk_aip fam a c).

(** A comma separated list: fields without commas. *)
Fixpoint commas (fields : list (list Z)) : list Z :=
  match fields with
  | [] => []
  | [f] => f
  | f :: fs => f ++ 44 :: commas fs
  end.

Inductive aips_value : list Z -> list allowedip -> Prop :=
| avs_none : aips_value [] []
| avs_some : forall f fs l, Forall (fun x => ~ In 44 x) (f :: fs) -> Forall2 aip_value (f :: fs) l ->
    commas (f :: fs) <> [] -> aips_value (commas (f :: fs)) l.

(** host:port or [host]:port *)
Inductive endpoint_split : list Z -> list Z -> list Z -> Prop :=
| es_plain : forall h p, hd 0 (h ++ [58]) <> 91 -> ~ In 58 p -> p <> [] -> endpoint_split (h ++ 58 :: p) h p
| es_bracket : forall h p, ~ In 93 h -> p <> [] -> endpoint_split (91 :: h ++ 93 :: 58 :: p) h p.

(** * Lines *)

Inductive dev_setting := SPort (p : Z) | SFwmark (m : Z) | SPriv (k : list Z).
Inductive peer_setting :=
| SEndpoint (e : endpoint) | SPub (k : list Z) | SAips (l : list allowedip) | SKa (n : Z) | SPsk (k : list Z).
Inductive item := ItInterface | ItPeer | ItDev (s : dev_setting) | ItPeerS (s : peer_setting).

Section Spec.
(** The world: which services and endpoints resolve to what. *)
Variable port_of : list Z -> option Z.
Variable resolve : list Z -> list Z -> option endpoint.

Inductive dev_line : list Z -> dev_setting -> Prop :=
| dl_port : forall k v p, ci k (str "ListenPort=") -> v <> [] -> port_of v = Some p -> dev_line (k ++ v) (SPort p)
| dl_fw : forall k v m, ci k (str "FwMark=") -> v <> [] -> fwmark_value v m -> dev_line (k ++ v) (SFwmark m)
| dl_priv : forall k v x, ci k (str "PrivateKey=") -> v <> [] -> key_value v x -> dev_line (k ++ v) (SPriv x).

Inductive peer_line : list Z -> peer_setting -> Prop :=
| pl_ep : forall k v h p e, ci k (str "Endpoint=") -> v <> [] -> endpoint_split v h p -> resolve h p = Some e ->
    peer_line (k ++ v) (SEndpoint e)
| pl_pub : forall k v x, ci k (str "PublicKey=") -> v <> [] -> key_value v x -> peer_line (k ++ v) (SPub x)
| pl_aips : forall k v l, ci k (str "AllowedIPs=") -> v <> [] -> aips_value v l -> peer_line (k ++ v) (SAips l)
| pl_ka : forall k v n, ci k (str "PersistentKeepalive=") -> v <> [] -> keepalive_value v n -> peer_line (k ++ v) (SKa n)
| pl_psk : forall k v x, ci k (str "PresharedKey=") -> v <> [] -> key_value v x -> peer_line (k ++ v) (SPsk x).

Inductive sect := NoSection | InInterface | InPeer.

(** [reads s lines items]: starting in section [s], every line is recognised; [items] is their content.
    A line is normalised by [norm] first (comment and white space removed). *)
Variable norm : list Z -> list Z.

Inductive reads : sect -> list (list Z) -> list item -> Prop :=
| r_end : forall s, reads s [] []
| r_blank : forall s l ls its, norm l = [] -> reads s ls its -> reads s (l :: ls) its
| r_interface : forall s l ls its, ci (norm l) (str "[Interface]") -> reads InInterface ls its ->
    reads s (l :: ls) (ItInterface :: its)
| r_peer : forall s l ls its, ci (norm l) (str "[Peer]") -> reads InPeer ls its -> reads s (l :: ls) (ItPeer :: its)
| r_dev : forall l ls its x, dev_line (norm l) x -> reads InInterface ls its ->
    reads InInterface (l :: ls) (ItDev x :: its)
| r_peers : forall l ls its x, peer_line (norm l) x -> reads InPeer ls its ->
    reads InPeer (l :: ls) (ItPeerS x :: its).
End Spec.

(** Comment and white space removal: the characters before the first '#' that are not white space.  (A NUL byte
    ends the line for the C string functions.) *)
Fixpoint before (stop : Z) (l : list Z) : list Z :=
  match l with
  | [] => []
  | c :: l' => if c =? stop then [] else c :: before stop l'
  end.
Definition is_ws (c : Z) : bool := existsb (Z.eqb c) [9; 10; 11; 12; 13; 32].
Definition normal (l : list Z) : list Z := filter (fun c => negb (is_ws c)) (before 35 (before 0 l)).

(** * The device a list of items denotes *)

Definition ports (its : list item) : list Z := flat_map (fun i => match i with ItDev (SPort p) => [p] | _ => [] end) its.
Definition fwmarks (its : list item) : list Z := flat_map (fun i => match i with ItDev (SFwmark p) => [p] | _ => [] end) its.
Definition privs (its : list item) : list (list Z) := flat_map (fun i => match i with ItDev (SPriv p) => [p] | _ => [] end) its.

(** Settings of each peer: those between its [Peer] header and the next one. First component: settings
    before any header. *)
Fixpoint groups (its : list item) : list peer_setting * list (list peer_setting) :=
  match its with
  | [] => ([], [])
  | ItPeer :: r => let '(h, g) := groups r in ([], h :: g)
  | ItPeerS s :: r => let '(h, g) := groups r in (s :: h, g)
  | _ :: r => groups r
  end.

Definition pubs (ss : list peer_setting) := flat_map (fun s => match s with SPub k => [k] | _ => [] end) ss.
Definition psks (ss : list peer_setting) := flat_map (fun s => match s with SPsk k => [k] | _ => [] end) ss.
Definition kas (ss : list peer_setting) := flat_map (fun s => match s with SKa k => [k] | _ => [] end) ss.
Definition eps (ss : list peer_setting) := flat_map (fun s => match s with SEndpoint k => [k] | _ => [] end) ss.
Definition aips (ss : list peer_setting) := flat_map (fun s => match s with SAips l => l | _ => [] end) ss.

Definition some {A} (l : list A) : bool := match l with [] => false | _ => true end.

(** Last setting wins; allowed IPs accumulate; a peer of a file always replaces its allowed IPs. *)
Definition peer_of (ss : list peer_setting) : peer :=
  mk_peer false true (some (pubs ss)) (some (psks ss)) (some (kas ss))
    (last (pubs ss) zero_key) (last (psks ss) zero_key) (last (eps ss) EpNone) 0 0 0 0 (last (kas ss) 0) (aips ss).

(** [append]: addconf (only what is mentioned) or not (everything reset, peers replaced). *)
Definition device_of (append : bool) (its : list item) : device :=
  mk_device [] 0 (negb append)
    (negb append || some (privs its)) false (negb append || some (ports its)) (negb append || some (fwmarks its))
    zero_key (last (privs its) zero_key) (last (fwmarks its) 0) (last (ports its) 0)
    (map peer_of (snd (groups its))).

(** The file is valid and denotes [d]. *)
Definition config_means (port_of : list Z -> option Z) (resolve : list Z -> list Z -> option endpoint)
  (append : bool) (lines : list (list Z)) (d : device) : Prop :=
  exists its, reads port_of resolve normal NoSection lines its /\
    d = device_of append its /\ Forall (fun ss => pubs ss <> []) (snd (groups its)).

(** * Host part of an allowed IP *)

(** The address as a number, most significant byte first. *)
Definition addr_num (bytes : list Z) : Z := fold_left (fun n b => n * 256 + b) bytes 0.

(** The bits of the address past the first [cidr] ones. *)
Definition host_part (a : allowedip) : Z :=
  addr_num (a_ip a) mod 2 ^ (8 * Z.of_nat (length (a_ip a)) - a_cidr a).

(** * Edits that must not matter *)

Definition headers : list string := ["[Interface]"; "[Peer]"]%string.
Definition keywords : list string :=
  ["ListenPort="; "FwMark="; "PrivateKey="; "Endpoint="; "PublicKey="; "AllowedIPs="; "PersistentKeepalive=";
   "PresharedKey="]%string.

(** One edit of a line: insert a white space character anywhere, append a comment, change the case of a header or
    of a key name at the start of the line. *)
Inductive edit_line : list Z -> list Z -> Prop :=
| ed_space : forall a w b, is_ws w = true -> edit_line (a ++ b) (a ++ w :: b)
| ed_comment : forall a c, edit_line a (a ++ 35 :: c)
| ed_case : forall K k k' v, In K (headers ++ keywords) -> ci k (str K) -> ci k' (str K) -> edit_line (k ++ v) (k' ++ v).

(** Edits of a file, in both directions and any number of times. *)
Inductive edit_file : list (list Z) -> list (list Z) -> Prop :=
| ef_line : forall f g l l', edit_line l l' -> edit_file (f ++ l :: g) (f ++ l' :: g)
| ef_insert : forall f g, edit_file (f ++ g) (f ++ [] :: g)
| ef_refl : forall f, edit_file f f
| ef_sym : forall f g, edit_file f g -> edit_file g f
| ef_trans : forall f g h, edit_file f g -> edit_file g h -> edit_file f h.

(** * Key files *)

Definition keyfile_value (contents : list Z) (seekable : bool) (k : list Z) : Prop :=
  (contents = [] /\ seekable = true /\ k = zero_key) \/
  (exists t ws, contents = t ++ ws /\ key_value t k /\ Forall (fun c => is_ws c = true) ws).

(** * Arguments of 'wg set' *)

Inductive peer_act := PRemove | PSet (s : peer_setting).

Section Cmd.
Variable port_of : list Z -> option Z.
Variable resolve : list Z -> list Z -> option endpoint.
(** [keyfile path k]: the file at [path] holds key [k]. *)
Variable keyfile : list Z -> list Z -> Prop.

Inductive dev_opt : list (list Z) -> dev_setting -> Prop :=
| do_port : forall v p, v <> [] -> port_of v = Some p -> dev_opt [str "listen-port"; v] (SPort p)
| do_fw : forall v m, fwmark_value v m -> dev_opt [str "fwmark"; v] (SFwmark m)
| do_priv : forall path k, keyfile path k -> dev_opt [str "private-key"; path] (SPriv k).

Inductive peer_opt : list (list Z) -> peer_act -> Prop :=
| po_remove : peer_opt [str "remove"] PRemove
| po_ep : forall v h p e, endpoint_split v h p -> resolve h p = Some e -> peer_opt [str "endpoint"; v] (PSet (SEndpoint e))
| po_aips : forall v l, aips_value (filter (fun c => negb (is_ws c)) v) l -> peer_opt [str "allowed-ips"; v] (PSet (SAips l))
| po_ka : forall v n, keepalive_value v n -> peer_opt [str "persistent-keepalive"; v] (PSet (SKa n))
| po_psk : forall path k, keyfile path k -> peer_opt [str "preshared-key"; path] (PSet (SPsk k)).

(** peer KEY option* *)
Inductive peer_group : list (list Z) -> list Z * list peer_act -> Prop :=
| pg : forall v k args acts, key_value v k -> Forall2 peer_opt args acts ->
    peer_group (str "peer" :: v :: concat args) (k, acts).

Definition sets (acts : list peer_act) : list peer_setting := flat_map (fun a => match a with PSet s => [s] | _ => [] end) acts.
Definition removes (acts : list peer_act) : bool := existsb (fun a => match a with PRemove => true | _ => false end) acts.
Definition lists_aips (ss : list peer_setting) : bool := existsb (fun s => match s with SAips _ => true | _ => false end) ss.

(** Last option wins, allowed IPs accumulate and then replace those of the peer. *)
Definition cmd_peer (g : list Z * list peer_act) : peer :=
  let ss := sets (snd g) in
  mk_peer (removes (snd g)) (lists_aips ss) true (some (psks ss)) (some (kas ss))
    (fst g) (last (psks ss) zero_key) (last (eps ss) EpNone) 0 0 0 0 (last (kas ss) 0) (aips ss).

Definition cmd_device (ds : list dev_setting) (gs : list (list Z * list peer_act)) : device :=
  let its := map ItDev ds in
  mk_device [] 0 false (some (privs its)) false (some (ports its)) (some (fwmarks its))
    zero_key (last (privs its) zero_key) (last (fwmarks its) 0) (last (ports its) 0) (map cmd_peer gs).

Definition cmd_means (argv : list (list Z)) (d : device) : Prop :=
  exists dargs ds pargs gs, argv = concat dargs ++ concat pargs /\
    Forall2 dev_opt dargs ds /\ Forall2 peer_group pargs gs /\ d = cmd_device ds gs.
End Cmd.
