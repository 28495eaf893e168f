(** Model of kernel_get_device and its parsers (src/ipc-linux.h:276-525).  [None]: undefined behaviour, non-termination or blocking (see Nl.v). *)
From Coq Require Import ZArith List Bool.
From Verif Require Import Base Types Encoding NlSpec Nl NlSet.
Import ListNotations.
Open Scope Z_scope.

(** The state of a parser: errno and the object being filled. *)
Definition st A := (Z * A)%type.
Definition ok {A} (errno : Z) (x : A) : option (Z * st A) := Some (CB_OK, (errno, x)).

(** struct wgallowedip while it is parsed: the union is 16 bytes. *)
Record raw_aip := mk_raw { ra_family : Z; ra_ip : list Z; ra_cidr : Z }.
Definition raw0 : raw_aip := mk_raw 0 (repeat 0 16) 0.
(** What the rest of the program sees of it: 4 bytes for AF_INET. *)
Definition aip_of (r : raw_aip) : allowedip :=
  mk_aip (ra_family r) (if ra_family r =? AF_INET then firstn 4 (ra_ip r) else ra_ip r) (ra_cidr r).

(** src/ipc-linux.h:276-300 parse_allowedip *)
Definition parse_allowedip (m : list Z) (pos : Z) (s : st raw_aip) : option (Z * st raw_aip) :=
  let '(errno, a) := s in
  match attr_type m pos, attr_plen m pos with
  | Some t, Some n =>
      if t =? 1 then
        let '(v, errno') := validate_len n 2 errno in
        if v then match rd_le m (payload pos) 2 with Some f => ok errno' (mk_raw f (ra_ip a) (ra_cidr a)) | None => None end
        else ok errno' a
      else if t =? 2 then
        if n =? 4 then match rd m (payload pos) 4 with Some b => ok errno (mk_raw (ra_family a) (b ++ skipn 4 (ra_ip a)) (ra_cidr a)) | None => None end
        else if n =? 16 then match rd m (payload pos) 16 with Some b => ok errno (mk_raw (ra_family a) b (ra_cidr a)) | None => None end
        else ok errno a
      else if t =? 3 then
        let '(v, errno') := validate_len n 1 errno in
        if v then match rd_le m (payload pos) 1 with Some c => ok errno' (mk_raw (ra_family a) (ra_ip a) c) | None => None end
        else ok errno' a
      else ok errno a
  | _, _ => None
  end.

(** src/ipc-linux.h:302-324 parse_allowedips: the new entry is in the list whatever happens to it.  (calloc does not fail.) *)
Definition parse_allowedips (m : list Z) (pos : Z) (s : st peer) : option (Z * st peer) :=
  let '(errno, p) := s in
  match attr_parse_nested m pos (parse_allowedip m) (errno, raw0) with
  | None => None
  | Some (ret, (errno', a)) =>
      let p' := set_aips (p_aips p ++ [aip_of a]) p in
      if ret =? 0 then Some (ret, (errno', p'))
      else if ((ra_family a =? AF_INET) && (ra_cidr a <=? 32)) || ((ra_family a =? AF_INET6) && (ra_cidr a <=? 128))
           then ok errno' p' else Some (CB_ERROR, (errno', p'))
  end.

(** Decoding of the endpoint union after memcpy. *)
Definition ep4_of (b : list Z) : endpoint := Ep4 (firstn 4 (skipn 4 b)) (256 * nth 2 b 0 + nth 3 b 0).
Definition ep6_of (b : list Z) : endpoint :=
  Ep6 (firstn 16 (skipn 8 b)) (256 * nth 2 b 0 + nth 3 b 0) (le_val (firstn 4 (skipn 4 b))) (le_val (firstn 4 (skipn 24 b))).
(** int64_t from 8 bytes. *)
Definition s64 (z : Z) : Z := let v := z mod 2 ^ 64 in if 2 ^ 63 <=? v then v - 2 ^ 64 else v.

(** Plain assignments to fields of struct wgpeer. *)
Definition put_psk_flag (b : bool) (k : list Z) (p : peer) : peer :=
  mk_peer (p_remove p) (p_replace_aips p) (p_has_pub p) (b || p_has_psk p) (p_has_ka p) (p_pub p) k (p_endpoint p)
    (p_hs_sec p) (p_hs_nsec p) (p_rx p) (p_tx p) (p_ka p) (p_aips p).
Definition put_ka_value (n : Z) (p : peer) : peer :=
  mk_peer (p_remove p) (p_replace_aips p) (p_has_pub p) (p_has_psk p) (p_has_ka p) (p_pub p) (p_psk p) (p_endpoint p)
    (p_hs_sec p) (p_hs_nsec p) (p_rx p) (p_tx p) n (p_aips p).
Definition put_handshake (a b : Z) (p : peer) : peer :=
  mk_peer (p_remove p) (p_replace_aips p) (p_has_pub p) (p_has_psk p) (p_has_ka p) (p_pub p) (p_psk p) (p_endpoint p)
    a b (p_rx p) (p_tx p) (p_ka p) (p_aips p).
Definition put_rx (n : Z) (p : peer) : peer :=
  mk_peer (p_remove p) (p_replace_aips p) (p_has_pub p) (p_has_psk p) (p_has_ka p) (p_pub p) (p_psk p) (p_endpoint p)
    (p_hs_sec p) (p_hs_nsec p) n (p_tx p) (p_ka p) (p_aips p).
Definition put_tx (n : Z) (p : peer) : peer :=
  mk_peer (p_remove p) (p_replace_aips p) (p_has_pub p) (p_has_psk p) (p_has_ka p) (p_pub p) (p_psk p) (p_endpoint p)
    (p_hs_sec p) (p_hs_nsec p) (p_rx p) n (p_ka p) (p_aips p).

(** src/ipc-linux.h:326-379 parse_peer.  Attribute numbers from uapi/linux/linux/wireguard.h:171-184. *)
Definition parse_peer (m : list Z) (pos : Z) (s : st peer) : option (Z * st peer) :=
  let '(errno, p) := s in
  match attr_type m pos, attr_plen m pos with
  | Some t, Some n =>
      if t =? 1 then
        if n =? 32 then match rd m (payload pos) 32 with Some k => ok errno (set_pub k p) | None => None end else ok errno p
      else if t =? 2 then
        if n =? 32 then match rd m (payload pos) 32 with
                        | Some k => ok errno (put_psk_flag (negb (key_is_zero k)) k p)
                        | None => None end else ok errno p
      else if t =? 4 then
        if n <? 16 then ok errno p
        else match rd_le m (payload pos) 2 with
             | None => None
             | Some fam =>
                 if (fam =? AF_INET) && (n =? 16) then
                   match rd m (payload pos) 16 with Some b => ok errno (set_endpoint (ep4_of b) p) | None => None end
                 else if (fam =? AF_INET6) && (n =? 28) then
                   match rd m (payload pos) 28 with Some b => ok errno (set_endpoint (ep6_of b) p) | None => None end
                 else ok errno p
             end
      else if t =? 5 then
        let '(v, errno') := validate_len n 2 errno in
        if v then match rd_le m (payload pos) 2 with Some k => ok errno' (put_ka_value k p) | None => None end else ok errno' p
      else if t =? 6 then
        if n =? 16 then match rd_le m (payload pos) 8, rd_le m (payload pos + 8) 8 with
                        | Some a, Some b => ok errno (put_handshake (s64 a) (s64 b) p)
                        | _, _ => None end else ok errno p
      else if t =? 7 then
        let '(v, errno') := validate_len n 8 errno in
        if v then match rd_le m (payload pos) 8 with Some k => ok errno' (put_rx k p) | None => None end else ok errno' p
      else if t =? 8 then
        let '(v, errno') := validate_len n 8 errno in
        if v then match rd_le m (payload pos) 8 with Some k => ok errno' (put_tx k p) | None => None end else ok errno' p
      else if t =? 9 then attr_parse_nested m pos (parse_allowedips m) (errno, p)
      else ok errno p
  | _, _ => None
  end.

(** src/ipc-linux.h:381-403 parse_peers: an error from parse_peer is not noticed, only a stop (0). *)
Definition parse_peers (m : list Z) (pos : Z) (s : st device) : option (Z * st device) :=
  let '(errno, d) := s in
  match attr_parse_nested m pos (parse_peer m) (errno, peer0) with
  | None => None
  | Some (ret, (errno', p)) =>
      let d' := set_peers (d_peers d ++ [p]) d in
      if ret =? 0 then Some (ret, (errno', d'))
      else if negb (p_has_pub p) then Some (CB_ERROR, (errno', d'))
      else ok errno' d'
  end.

(** strncpy(name, str, IFNAMSIZ - 1): reads up to the NUL or [n] bytes, without regard to the attribute's length. *)
Fixpoint strncpy (m : list Z) (pos : Z) (n : nat) : option (list Z) :=
  match n with
  | O => Some []
  | S n' =>
      match rd_le m pos 1 with
      | None => None
      | Some c => if c =? 0 then Some []
                  else match strncpy m (pos + 1) n' with Some s => Some (c :: s) | None => None end
      end
  end.

Definition put_ifindex (n : Z) (d : device) : device :=
  mk_device (d_name d) n (d_replace_peers d) (d_has_priv d) (d_has_pub d) (d_has_port d) (d_has_fwmark d)
    (d_pub d) (d_priv d) (d_fwmark d) (d_port d) (d_peers d).
Definition put_pub (k : list Z) (d : device) : device :=
  mk_device (d_name d) (d_ifindex d) (d_replace_peers d) (d_has_priv d) true (d_has_port d) (d_has_fwmark d)
    k (d_priv d) (d_fwmark d) (d_port d) (d_peers d).
Definition put_port_value (n : Z) (d : device) : device :=
  mk_device (d_name d) (d_ifindex d) (d_replace_peers d) (d_has_priv d) (d_has_pub d) (d_has_port d) (d_has_fwmark d)
    (d_pub d) (d_priv d) (d_fwmark d) n (d_peers d).
Definition put_fwmark_value (n : Z) (d : device) : device :=
  mk_device (d_name d) (d_ifindex d) (d_replace_peers d) (d_has_priv d) (d_has_pub d) (d_has_port d) (d_has_fwmark d)
    (d_pub d) (d_priv d) n (d_port d) (d_peers d).

(** src/ipc-linux.h:405-447 parse_device.  Attribute numbers from uapi/linux/linux/wireguard.h:150-161. *)
Definition parse_device (m : list Z) (pos : Z) (s : st device) : option (Z * st device) :=
  let '(errno, d) := s in
  match attr_type m pos, attr_plen m pos with
  | Some t, Some n =>
      if t =? 1 then
        let '(v, errno') := validate_len n 4 errno in
        if v then match rd_le m (payload pos) 4 with Some k => ok errno' (put_ifindex k d) | None => None end else ok errno' d
      else if t =? 2 then
        let '(v, errno') := validate_string n errno in
        if v then match strncpy m (payload pos) 15 with Some s => ok errno' (set_name s d) | None => None end else ok errno' d
      else if t =? 3 then
        if n =? 32 then match rd m (payload pos) 32 with Some k => ok errno (set_priv k d) | None => None end else ok errno d
      else if t =? 4 then
        if n =? 32 then match rd m (payload pos) 32 with Some k => ok errno (put_pub k d) | None => None end else ok errno d
      else if t =? 6 then
        let '(v, errno') := validate_len n 2 errno in
        if v then match rd_le m (payload pos) 2 with Some k => ok errno' (put_port_value k d) | None => None end else ok errno' d
      else if t =? 7 then
        let '(v, errno') := validate_len n 4 errno in
        if v then match rd_le m (payload pos) 4 with Some k => ok errno' (put_fwmark_value k d) | None => None end else ok errno' d
      else if t =? 8 then attr_parse_nested m pos (parse_peers m) (errno, d)
      else ok errno d
  | _, _ => None
  end.

(** src/ipc-linux.h:449-452 read_device_cb *)
Definition read_device_cb (m : list Z) (nlh : Z) (s : st device) : option (Z * st device) :=
  attr_parse m nlh 4 (parse_device m) s.

(** src/ipc-linux.h:454-474 coalesce_peers.  [last] tells whether the current peer's last_allowedip points to its last entry; it is NULL
    after a fragment without allowed IPs was merged, and is then dereferenced when another fragment follows. *)
Fixpoint coalesce (p : peer) (last : bool) (l : list peer) : option (list peer) :=
  match l with
  | [] => Some [p]
  | q :: l' =>
      if negb (beq (p_pub p) (p_pub q)) then
        match coalesce q (match p_aips q with [] => false | _ => true end) l' with Some r => Some (p :: r) | None => None end
      else
        match p_aips p with
        | [] => coalesce (set_aips (p_aips q) p) (match p_aips q with [] => false | _ => true end) l'
        | _ => if last then coalesce (set_aips (p_aips p ++ p_aips q) p) (match p_aips q with [] => false | _ => true end) l'
               else None
        end
  end.
Definition coalesce_peers (l : list peer) : option (list peer) :=
  match l with
  | [] => Some []
  | p :: l' => coalesce p (match p_aips p with [] => false | _ => true end) l'
  end.

(** One pass of the loop: opening the socket (src/netlink.h:732-782) fails with an errno, or sending does, or there are replies; [buf] is the
    socket's buffer with whatever malloc and the request left in it. *)
Inductive attempt :=
| OpenFails (errno : Z)
| SendFails (errno : Z)
| Replies (seq portid : Z) (buf : list Z) (rs : list recv).

(** src/ipc-linux.h:476-525 kernel_get_device, after the check of the name's length.  [attempts]: what happens in each pass.  [live] counts
    devices allocated and not freed, [socks] sockets open.  Result: return value, *device, live, socks. *)
Fixpoint get_loop (attempts : list attempt) (live socks : Z) : option (Z * option device * Z * Z) :=
  match attempts with
  | [] => None
  | a :: rest =>
      let live := live + 1 in
      match a with
      | OpenFails e => Some (- e, None, live - 1, socks)
      | _ =>
          let socks := socks + 1 in
          match
            (match a with
             | Replies seq portid buf rs =>
                 match recv_run seq portid (Some read_device_cb) buf rs (0, device0) with
                 | None => None
                 | Some (r, (errno, d), _, _) =>
                     if r <? 0 then Some (if errno =? 0 then - EINVAL else - errno, d)
                     else match coalesce_peers (d_peers d) with
                          | Some ps => Some (0, set_peers ps d)
                          | None => None
                          end
                 end
             | SendFails e => Some (- e, device0)
             | OpenFails e => Some (- e, device0)
             end)
          with
          | None => None
          | Some (ret, d) =>
              (* out: *)
              let socks := socks - 1 in
              if ret =? 0 then Some (0, Some d, live, socks)
              else if ret =? - EINTR then get_loop rest (live - 1) socks
              else Some (ret, None, live - 1, socks)
          end
      end
  end.
Definition kernel_get_device (name : list Z) (attempts : list attempt) : option (Z * option device * Z * Z) :=
  if 16 <=? len name then Some (- ENAMETOOLONG, None, 0, 0) else get_loop attempts 0 0.
