(** The cross-platform userspace protocol (https://www.wireguard.com/xplatform/), written independently of the C
    code: how an implementation reads a "set" request, and what a reply to a "get" request says. *)
From Coq Require Import String ZArith List Bool.
From Verif Require Import Base EncodingSpec Cstr Inet Types NumSpec ConfigSpec NlSpec.
Import ListNotations.
Open Scope Z_scope.

(** * Reading a "set" request *)

(** A decimal number below [bound]. *)
Definition dec_step (acc : option Z) (c : Z) : option Z :=
  match acc with
  | Some n => if (48 <=? c) && (c <=? 57) then Some (n * 10 + (c - 48)) else None
  | None => None
  end.
Definition read_dec (bound : Z) (s : list Z) : option Z :=
  match s with
  | [] => None
  | _ => match fold_left dec_step s (Some 0) with Some n => if n <? bound then Some n else None | None => None end
  end.
Definition read_key (s : list Z) : option (list Z) := if Nat.eqb (length s) 64 then unhex s else None.

(** host:port, with the host of an IPv6 address in brackets and possibly followed by '%' and a zone. *)
Section Read.
Variable zone : list Z -> list Z -> option Z.      (* address, zone text: scope number *)

Definition read_host6 (h : list Z) (port : Z) : option endpoint :=
  match split_first 37 h with
  | None => option_map (fun a => Ep6 a port 0 0) (inet_pton6 h)
  | Some (s, z) =>
      match inet_pton6 s with
      | Some a => option_map (fun n => Ep6 a port 0 n) (zone a z)
      | None => None
      end
  end.
Definition read_ep (v : list Z) : option endpoint :=
  match v with
  | 91 :: t =>
      match split_first 93 t with
      | Some (h, 58 :: p) => match read_dec 65536 p with Some n => read_host6 h n | None => None end
      | _ => None
      end
  | _ =>
      match split_first 58 v with
      | Some (h, p) => match inet_pton4 h, read_dec 65536 p with Some a, Some n => Some (Ep4 a n) | _, _ => None end
      | None => None
      end
  end.
Definition read_prefix (v : list Z) : option allowedip :=
  match split_first 47 v with
  | Some (h, m) =>
      if has_char 58 h then
        match inet_pton6 h, read_dec 129 m with Some a, Some n => Some (mk_aip AF_INET6 a n) | _, _ => None end
      else
        match inet_pton4 h, read_dec 33 m with Some a, Some n => Some (mk_aip AF_INET a n) | _, _ => None end
  | None => None
  end.

Inductive set_item :=
| UPriv (k : list Z) | UPort (n : Z) | UMark (n : Z) | UReplacePeers
| UPeer (k : list Z) | URemove | UPsk (k : list Z) | UEp (e : endpoint) | UKa (n : Z) | UReplaceAips | UAip (a : allowedip).

(** "true" is the only value of the flag keys. *)
Definition read_true (i : set_item) (v : list Z) : option set_item := if beq v (str "true") then Some i else None.
Definition read_item (l : list Z) : option set_item :=
  match split_first 61 l with
  | None => None
  | Some (k, v) =>
      if beq k (str "private_key") then option_map UPriv (read_key v)
      else if beq k (str "listen_port") then option_map UPort (read_dec 65536 v)
      else if beq k (str "fwmark") then option_map UMark (read_dec (2 ^ 32) v)
      else if beq k (str "replace_peers") then read_true UReplacePeers v
      else if beq k (str "public_key") then option_map UPeer (read_key v)
      else if beq k (str "remove") then read_true URemove v
      else if beq k (str "preshared_key") then option_map UPsk (read_key v)
      else if beq k (str "endpoint") then option_map UEp (read_ep v)
      else if beq k (str "persistent_keepalive_interval") then option_map UKa (read_dec 65536 v)
      else if beq k (str "replace_allowed_ips") then read_true UReplaceAips v
      else if beq k (str "allowed_ip") then option_map UAip (read_prefix v)
      else None
  end.

(** Device items come before the first peer; peer items change the last peer. *)
Definition on_dev (f : request -> request) (q : request) : option request :=
  match rq_peers q with [] => Some (f q) | _ => None end.
Definition on_last (f : rq_peer -> rq_peer) (q : request) : option request :=
  match rev (rq_peers q) with
  | [] => None
  | p :: r => Some (mk_request (rq_name q) (rq_priv q) (rq_port q) (rq_fwmark q) (rq_replace q) (rev (f p :: r)))
  end.
Definition step_item (q : request) (i : set_item) : option request :=
  match i with
  | UPriv k => on_dev (fun q => mk_request (rq_name q) (Some k) (rq_port q) (rq_fwmark q) (rq_replace q) (rq_peers q)) q
  | UPort n => on_dev (fun q => mk_request (rq_name q) (rq_priv q) (Some n) (rq_fwmark q) (rq_replace q) (rq_peers q)) q
  | UMark n => on_dev (fun q => mk_request (rq_name q) (rq_priv q) (rq_port q) (Some n) (rq_replace q) (rq_peers q)) q
  | UReplacePeers => on_dev (fun q => mk_request (rq_name q) (rq_priv q) (rq_port q) (rq_fwmark q) true (rq_peers q)) q
  | UPeer k => Some (mk_request (rq_name q) (rq_priv q) (rq_port q) (rq_fwmark q) (rq_replace q)
                       (rq_peers q ++ [mk_rq_peer k false false None None None []]))
  | URemove => on_last (fun p => mk_rq_peer (rp_pub p) true (rp_replace p) (rp_psk p) (rp_endpoint p) (rp_ka p) (rp_aips p)) q
  | UPsk k => on_last (fun p => mk_rq_peer (rp_pub p) (rp_remove p) (rp_replace p) (Some k) (rp_endpoint p) (rp_ka p) (rp_aips p)) q
  | UEp e => on_last (fun p => mk_rq_peer (rp_pub p) (rp_remove p) (rp_replace p) (rp_psk p) (Some e) (rp_ka p) (rp_aips p)) q
  | UKa n => on_last (fun p => mk_rq_peer (rp_pub p) (rp_remove p) (rp_replace p) (rp_psk p) (rp_endpoint p) (Some n) (rp_aips p)) q
  | UReplaceAips => on_last (fun p => mk_rq_peer (rp_pub p) (rp_remove p) true (rp_psk p) (rp_endpoint p) (rp_ka p) (rp_aips p)) q
  | UAip a => on_last (fun p => mk_rq_peer (rp_pub p) (rp_remove p) (rp_replace p) (rp_psk p) (rp_endpoint p) (rp_ka p) (rp_aips p ++ [a])) q
  end.

(** Lines up to the empty line, and what follows it. *)
Fixpoint until_blank (ls : list (list Z)) : option (list (list Z) * list (list Z)) :=
  match ls with
  | [] => None
  | [] :: r => Some ([], r)
  | l :: ls' => match until_blank ls' with Some (a, r) => Some (l :: a, r) | None => None end
  end.
Fixpoint run_items (ls : list (list Z)) (q : request) : option request :=
  match ls with
  | [] => Some q
  | l :: ls' => match read_item l with
                | Some i => match step_item q i with Some q' => run_items ls' q' | None => None end
                | None => None
                end
  end.

(** A whole request: "set=1", items, an empty line and nothing more. *)
Definition read_set (t : list Z) : option request :=
  match until_blank (split_all 10 t) with
  | Some (l0 :: ls, [[]]) =>
      if beq l0 (str "set=1") then run_items ls (mk_request [] None None None false []) else None
  | _ => None
  end.
End Read.

(** What an update says in this protocol: a removed peer is only named, and flow labels are not transmitted. *)
Definition no_flow (e : endpoint) : endpoint := match e with Ep6 a p _ s => Ep6 a p 0 s | _ => e end.
Definition said_peer (p : peer) : rq_peer :=
  if p_remove p then mk_rq_peer (p_pub p) true false None None None []
  else mk_rq_peer (p_pub p) false (p_replace_aips p) (opt (p_has_psk p) (p_psk p))
         (match p_endpoint p with EpNone => None | e => Some (no_flow e) end) (opt (p_has_ka p) (p_ka p)) (p_aips p).
Definition said (d : device) : request :=
  mk_request [] (opt (d_has_priv d) (d_priv d)) (opt (d_has_port d) (d_port d)) (opt (d_has_fwmark d) (d_fwmark d))
    (d_replace_peers d) (map said_peer (d_peers d)).

(** The scope names the platform prints are understood by the reader and fit into a line. *)
Definition zones_ok (scope_name : list Z -> Z -> list Z) (zone : list Z -> list Z -> option Z) : Prop :=
  forall a s, length a = 16%nat -> Forall is_byte a -> 0 < s < 2 ^ 32 -> zone a (scope_name a s) = Some s /\ ~ In 93 (scope_name a s) /\ ~ In 10 (scope_name a s).

(** * Replies *)

(** Lines, each ended by a newline. *)
Definition unlines (ls : list (list Z)) : list Z := flat_map (fun l => l ++ [10]) ls.
(** A line that can be read: no newline, no NUL, a key before the first '='. *)
Definition pair_line (l k v : list Z) : Prop := l = k ++ 61 :: v /\ ~ In 61 k /\ ~ In 0 l /\ ~ In 10 l.

(** A decimal integer, with an optional minus sign. *)
Inductive integer : list Z -> Z -> Prop :=
| int_pos : forall v n, decimal v n -> integer v n
| int_neg : forall v n, decimal v n -> integer (45 :: v) (- n).

(** Reply to "set": [set_result n ls r]: every line can be read, and [r] is the last errno in them (an [int]), [n] if there is none. *)
Inductive set_result : Z -> list (list Z) -> Z -> Prop :=
| sr_none : forall n, set_result n [] n
| sr_errno : forall n l v m ls r, pair_line l (str "errno") v -> integer v m -> - 2 ^ 31 <= m < 2 ^ 31 -> set_result m ls r ->
    set_result n (l :: ls) r
| sr_other : forall n l k v ls r, pair_line l k v -> k <> str "errno" -> set_result n ls r -> set_result n (l :: ls) r.

Inductive get_item :=
| GPriv (k : list Z) | GPort (n : Z) | GMark (n : Z)
| GPeer (k : list Z) | GPsk (k : list Z) | GEp (e : endpoint) | GKa (n : Z) | GAip (a : allowedip)
| GSec (n : Z) | GNsec (n : Z) | GRx (n : Z) | GTx (n : Z) | GErrno (n : Z) | GOther.

Definition known (in_peer : bool) : list string :=
  (if in_peer then ["preshared_key"; "endpoint"; "persistent_keepalive_interval"; "allowed_ip"; "last_handshake_time_sec";
                    "last_handshake_time_nsec"; "rx_bytes"; "tx_bytes"]%string
   else ["private_key"; "listen_port"; "fwmark"]%string) ++ ["public_key"; "errno"]%string.

Definition hex_key (v k : list Z) : Prop := is_key k /\ unhex v = Some k.

Section Get.
(** Resolution of host and service. *)
Variable ep_of : list Z -> list Z -> endpoint -> Prop.
(** What becomes of a prefix length and of a byte counter: the identity, in a protocol that is read exactly. *)
Variable narrow : Z -> Z.
Variable clip : Z -> Z.

(** [get_pair in_peer key value item]; [in_peer]: after the first public_key. *)
Inductive get_pair : bool -> list Z -> list Z -> get_item -> Prop :=
| gp_priv : forall v k, hex_key v k -> get_pair false (str "private_key") v (GPriv k)
| gp_port : forall v n, decimal v n -> n < 65536 -> get_pair false (str "listen_port") v (GPort n)
| gp_mark : forall v n, decimal v n -> n < 2 ^ 32 -> get_pair false (str "fwmark") v (GMark n)
| gp_peer : forall b v k, hex_key v k -> get_pair b (str "public_key") v (GPeer k)
| gp_psk : forall v k, hex_key v k -> get_pair true (str "preshared_key") v (GPsk k)
| gp_ep : forall v h p e, endpoint_split v h p -> ep_of h p e -> get_pair true (str "endpoint") v (GEp e)
| gp_ka : forall v n, decimal v n -> n < 65536 -> get_pair true (str "persistent_keepalive_interval") v (GKa n)
| gp_aip : forall h m fam a full n, ~ In 47 h -> ip_value h fam a full -> decimal m n -> narrow n <= full ->
    get_pair true (str "allowed_ip") (h ++ 47 :: m) (GAip (mk_aip fam a (narrow n)))
| gp_sec : forall v n, decimal v n -> n < 2 ^ 63 -> get_pair true (str "last_handshake_time_sec") v (GSec n)
| gp_nsec : forall v n, decimal v n -> n < 2 ^ 63 -> get_pair true (str "last_handshake_time_nsec") v (GNsec n)
| gp_rx : forall v n, decimal v n -> clip n < 2 ^ 64 -> get_pair true (str "rx_bytes") v (GRx (clip n))
| gp_tx : forall v n, decimal v n -> clip n < 2 ^ 64 -> get_pair true (str "tx_bytes") v (GTx (clip n))
| gp_errno : forall b v n, decimal v n -> n < 2 ^ 31 -> get_pair b (str "errno") v (GErrno n)
| gp_other : forall b k v, ~ In k (map str (known b)) -> get_pair b k v GOther.

Definition is_peer (i : get_item) : bool := match i with GPeer _ => true | _ => false end.
Inductive get_lines : bool -> list (list Z) -> list get_item -> Prop :=
| gl_nil : forall b, get_lines b [] []
| gl_cons : forall b l k v i ls its, pair_line l k v -> get_pair b k v i -> get_lines (b || is_peer i) ls its ->
    get_lines b (l :: ls) (i :: its).

(** The device the items describe: of several values the last one counts, allowed IPs accumulate, a peer has the items
    between its public_key and the next one. *)
Definition gprivs its := flat_map (fun i => match i with GPriv k => [k] | _ => [] end) its.
Definition gports its := flat_map (fun i => match i with GPort k => [k] | _ => [] end) its.
Definition gmarks its := flat_map (fun i => match i with GMark k => [k] | _ => [] end) its.
Definition gpsks its := flat_map (fun i => match i with GPsk k => [k] | _ => [] end) its.
Definition geps its := flat_map (fun i => match i with GEp k => [k] | _ => [] end) its.
Definition gkas its := flat_map (fun i => match i with GKa k => [k] | _ => [] end) its.
Definition gaips its := flat_map (fun i => match i with GAip k => [k] | _ => [] end) its.
Definition gsecs its := flat_map (fun i => match i with GSec k => [k] | _ => [] end) its.
Definition gnsecs its := flat_map (fun i => match i with GNsec k => [k] | _ => [] end) its.
Definition grxs its := flat_map (fun i => match i with GRx k => [k] | _ => [] end) its.
Definition gtxs its := flat_map (fun i => match i with GTx k => [k] | _ => [] end) its.
Definition gerrnos its := flat_map (fun i => match i with GErrno k => [k] | _ => [] end) its.

Fixpoint gpeers (its : list get_item) : list get_item * list (list Z * list get_item) :=
  match its with
  | [] => ([], [])
  | GPeer k :: r => let '(h, g) := gpeers r in ([], (k, h) :: g)
  | i :: r => let '(h, g) := gpeers r in (i :: h, g)
  end.
Definition gpeer (g : list Z * list get_item) : peer :=
  let its := snd g in
  mk_peer false false true (existsb (fun k => negb (beq k zero_key)) (gpsks its)) (some (gkas its))
    (fst g) (last (gpsks its) zero_key) (last (geps its) EpNone) (last (gsecs its) 0) (last (gnsecs its) 0)
    (last (grxs its) 0) (last (gtxs its) 0) (last (gkas its) 0) (gaips its).
Definition gdevice (pubkey : list Z -> list Z) (name : list Z) (its : list get_item) : device :=
  mk_device (firstn 15 name) 0 false (some (gprivs its)) (some (gprivs its)) (some (gports its)) (some (gmarks its))
    (last (map pubkey (gprivs its)) zero_key) (last (gprivs its) zero_key)
    (last (gmarks its) 0) (last (gports its) 0) (map gpeer (snd (gpeers its))).

(** The reply [t] (followed by anything) describes device [d] and ends with errno [n]. *)
Definition reply (pubkey : list Z -> list Z) (name t : list Z) (n : Z) (d : device) : Prop :=
  exists ls its rest, t = unlines ls ++ 10 :: rest /\ get_lines false ls its /\
    gerrnos its <> [] /\ n = last (gerrnos its) 0 /\ d = gdevice pubkey name its.
End Get.

(** * What an implementation reports for a device state *)

Definition line (k : string) (v : list Z) : list Z := str k ++ 61 :: v.
Definition when {A} (b : bool) (x : A) : list A := if b then [x] else [].
Definition aip_text (a : allowedip) : list Z :=
  (if a_family a =? AF_INET then inet_ntop4 (a_ip a) else inet_ntop6 (a_ip a)) ++ 47 :: print_dec (a_cidr a).
(** [host_text]: how the platform writes an IPv6 address with a scope. *)
Definition ep_text (host6 : list Z -> Z -> list Z) (e : endpoint) : list (list Z) :=
  match e with
  | EpNone => []
  | Ep4 a p => [line "endpoint" (inet_ntop4 a ++ 58 :: print_dec p)]
  | Ep6 a p _ s => [line "endpoint" (91 :: host6 a s ++ 93 :: 58 :: print_dec p)]
  end.
Definition peer_report (host6 : list Z -> Z -> list Z) (p : peer) : list (list Z) :=
  line "public_key" (hex_spec (p_pub p)) :: line "preshared_key" (hex_spec (p_psk p)) :: ep_text host6 (p_endpoint p) ++
  when (p_has_ka p) (line "persistent_keepalive_interval" (print_dec (p_ka p))) ++
  [line "last_handshake_time_sec" (print_dec (p_hs_sec p)); line "last_handshake_time_nsec" (print_dec (p_hs_nsec p));
   line "tx_bytes" (print_dec (p_tx p)); line "rx_bytes" (print_dec (p_rx p))] ++
  map (fun a => line "allowed_ip" (aip_text a)) (p_aips p).
Definition report (host6 : list Z -> Z -> list Z) (d : device) : list Z :=
  unlines (when (d_has_priv d) (line "private_key" (hex_spec (d_priv d))) ++
           when (d_has_port d) (line "listen_port" (print_dec (d_port d))) ++
           when (d_has_fwmark d) (line "fwmark" (print_dec (d_fwmark d))) ++
           flat_map (peer_report host6) (d_peers d) ++ [line "errno" (str "0")]) ++ [10].

(** Device states as they can be reported: what is absent has its default value. *)
Definition reported_peer (p : peer) : Prop :=
  wf_peer p /\ p_remove p = false /\ p_replace_aips p = false /\ p_has_pub p = true /\ p_has_psk p = negb (beq (p_psk p) zero_key) /\ (p_has_ka p = false -> p_ka p = 0) /\ 0 <= p_hs_sec p /\ 0 <= p_hs_nsec p.
Definition reported (pubkey : list Z -> list Z) (d : device) : Prop :=
  wf_device d /\ (length (d_name d) <= 15)%nat /\ d_ifindex d = 0 /\ d_replace_peers d = false /\ d_has_pub d = d_has_priv d /\ d_pub d = (if d_has_priv d then pubkey (d_priv d) else zero_key) /\ (d_has_priv d = false -> d_priv d = zero_key) /\ (d_has_port d = false -> d_port d = 0) /\ (d_has_fwmark d = false -> d_fwmark d = 0) /\ Forall reported_peer (d_peers d).

(** Numeric endpoints resolve to themselves: [ep_of h p e] is the result for host [h] and service [p]. *)
Definition resolves (ep_of : list Z -> list Z -> endpoint -> Prop) (host6 : list Z -> Z -> list Z) (e : endpoint) : Prop :=
  match e with
  | EpNone => True
  | Ep4 a p => ep_of (inet_ntop4 a) (print_dec p) e
  | Ep6 a p _ s => ep_of (host6 a s) (print_dec p) e /\ ~ In 93 (host6 a s) /\ ~ In 10 (host6 a s) /\ ~ In 0 (host6 a s)
  end.
