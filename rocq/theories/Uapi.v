(** Model of src/ipc-uapi.h (the cross-platform userspace protocol).  The socket is a byte stream: what is written is a
    text, what is read back is the text up to end of file or the first read error.  Allocation failures are not
    modelled. *)
From Coq Require Import String ZArith List Bool.
From Verif Require Import Base Ctype Encoding Cstr Inet Types Config.
Import ListNotations.
Open Scope Z_scope.

(** Errno values (Linux). *)
Definition EPROTO : Z := 71.
Definition ENETUNREACH : Z := 101.

(** libc strtoll(s, &end, 10) with LLONG_MAX = 2^63-1. *)
Definition strtoll (s : list Z) : Z * list Z :=
  let s1 := skip_spaces s in
  let '(neg, s2) := match s1 with
                    | 45 :: t => (true, t)
                    | 43 :: t => (false, t)
                    | _ => (false, s1)
                    end in
  let '(v, n, rest) := take_digits 10 0 0 s2 in
  match n with
  | O => (0, s)
  | _ => (if neg then Z.max (- v) (- 2 ^ 63) else Z.min v (2 ^ 63 - 1), rest)
  end.

(** libc getnameinfo(NI_NUMERICHOST | NI_NUMERICSERV): host and service text.  An IPv6 address with a scope gets
    "%" and the scope's name appended; [scope_name] is the platform's choice (number or interface name). *)
Section Uapi.
Variable scope_name : list Z -> Z -> list Z.

Definition nameinfo (e : endpoint) : option (list Z * list Z) :=
  match e with
  | EpNone => None
  | Ep4 a p => Some (inet_ntop4 a, print_dec p)
  | Ep6 a p _ s => Some (inet_ntop6 a ++ (if s =? 0 then [] else 37 :: scope_name a s), print_dec p)
  end.

(** "key=value\n" *)
Definition outl (k : string) (v : list Z) : list Z := str k ++ 61 :: v ++ [10].

(** src/ipc-uapi.h:66-78: the endpoint line. *)
Definition set_endpoint_text (e : endpoint) : list Z :=
  match nameinfo e with
  | None => []
  | Some (host, service) =>
      if match e with Ep6 _ _ _ _ => true | _ => false end && has_char 58 host
      then outl "endpoint" (91 :: host ++ 93 :: 58 :: service)
      else outl "endpoint" (host ++ 58 :: service)
  end.

(** src/ipc-uapi.h:83-93: one allowed IP (inet_ntop cannot fail here: the buffer is large enough). *)
Definition set_aip_text (a : allowedip) : list Z :=
  if a_family a =? AF_INET then outl "allowed_ip" (inet_ntop4 (a_ip a) ++ 47 :: print_dec (a_cidr a))
  else if a_family a =? AF_INET6 then outl "allowed_ip" (inet_ntop6 (a_ip a) ++ 47 :: print_dec (a_cidr a))
  else [].

(** src/ipc-uapi.h:55-94: one peer. *)
Definition set_peer_text (p : peer) : list Z :=
  outl "public_key" (key_to_hex (p_pub p)) ++
  if p_remove p then outl "remove" (str "true")
  else
    (if p_has_psk p then outl "preshared_key" (key_to_hex (p_psk p)) else []) ++
    set_endpoint_text (p_endpoint p) ++
    (if p_has_ka p then outl "persistent_keepalive_interval" (print_dec (p_ka p)) else []) ++
    (if p_replace_aips p then outl "replace_allowed_ips" (str "true") else []) ++
    flat_map set_aip_text (p_aips p).

(** src/ipc-uapi.h:42-96: the whole request. *)
Definition set_text (d : device) : list Z :=
  outl "set" (str "1") ++
  (if d_has_priv d then outl "private_key" (key_to_hex (d_priv d)) else []) ++
  (if d_has_port d then outl "listen_port" (print_dec (d_port d)) else []) ++
  (if d_has_fwmark d then outl "fwmark" (print_dec (d_fwmark d)) else []) ++
  (if d_replace_peers d then outl "replace_peers" (str "true") else []) ++
  flat_map set_peer_text (d_peers d) ++ [10].
End Uapi.

(** libc getline until it returns -1: the lines with their newline; the last one may lack it. *)
Fixpoint getlines (t : list Z) : list (list Z) :=
  match t with
  | [] => []
  | c :: t' =>
      if c =? 10 then [10] :: getlines t'
      else match getlines t' with
           | l :: ls => (c :: l) :: ls
           | [] => [[c]]
           end
  end.

(** src/ipc-uapi.h:99-106 and 167-173: a line as a C string; the empty line, a malformed line, or key and value. *)
Inductive line_kind := LEnd | LBad | LPair (key value : list Z).
Definition classify (line : list Z) : line_kind :=
  let l := cstring line in
  if beq l [10] then LEnd
  else match split_first 61 l with
       | None => LBad
       | Some (k, v) => if last l 0 =? 10 then LPair k (removelast v) else LBad
       end.

(** The reply loop of userspace_set_device, src/ipc-uapi.h:98-124.  [errno] is the value of errno when the loop is
    left without an empty line; [sg] signedness of char. *)
Section SetReply.
Variable sg : bool.
Variable errno : Z.
Definition first_of (s : list Z) : Z := match s with [] => 0 | c :: _ => char_val sg c end.

Fixpoint set_reply_loop (lines : list (list Z)) (set_errno : Z) : Z :=
  let fail := if errno =? 0 then - EPROTO else - errno in
  match lines with
  | [] => fail
  | line :: lines' =>
      match classify line with
      | LEnd => set_errno
      | LBad => fail
      | LPair k v =>
          if beq k (str "errno") then
            if negb (first_of v =? 45) && negb (char_is_digit (first_of v)) then fail
            else let '(num, rest) := strtoll v in
                 match rest with
                 | [] => if (2 ^ 31 - 1 <? num) || (num <? - 2 ^ 31) then fail
                         else set_reply_loop lines' num
                 | _ => fail
                 end
          else set_reply_loop lines' set_errno
      end
  end.
Definition set_reply (text : list Z) : Z := set_reply_loop (getlines text) (- EPROTO).
End SetReply.

(** What getaddrinfo (with the hints of src/ipc-uapi.h:210-214) answers for a host and service: an IPv4 or IPv6 socket
    address, something else, or an error. *)
Inductive resolved := RAddr (e : endpoint) | ROther | RFail.

Section Get.
Variable sg : bool.
Variable ulmax : Z.                                  (* ULONG_MAX *)
Variable pubkey : list Z -> list Z.                  (* curve25519_generate_public *)
Variable resolve : list Z -> list Z -> resolved.

(** src/ipc-uapi.h:127-136 [NUM]: [None] is the break. *)
Definition NUM (max : Z) (value : list Z) : option Z :=
  if negb (char_is_digit (first_of sg value)) then None
  else let '(num, rest) := strtoul (2 ^ 64 - 1) 10 value in
       match rest with
       | [] => if max <? num then None else Some num
       | _ => None
       end.

(** Progress of the reading loop: the device so far (its [d_peers] are the peers before the current one), the
    current peer and [ret]. *)
Record gstate := mk_g { g_dev : device; g_peer : option peer; g_ret : Z }.
Inductive gstep := GNext (s : gstate) | GBreak | GErr (ret : Z).

Definition set_keys (priv : list Z) (d : device) : device :=
  mk_device (d_name d) (d_ifindex d) (d_replace_peers d) true true (d_has_port d) (d_has_fwmark d)
    (pubkey priv) priv (d_fwmark d) (d_port d) (d_peers d).
Definition set_psk_only (k : list Z) (p : peer) : peer :=
  mk_peer (p_remove p) (p_replace_aips p) (p_has_pub p) (p_has_psk p) (p_has_ka p) (p_pub p) k (p_endpoint p)
    (p_hs_sec p) (p_hs_nsec p) (p_rx p) (p_tx p) (p_ka p) (p_aips p).
Definition set_stats (sec nsec rx tx : Z) (p : peer) : peer :=
  mk_peer (p_remove p) (p_replace_aips p) (p_has_pub p) (p_has_psk p) (p_has_ka p) (p_pub p) (p_psk p) (p_endpoint p)
    sec nsec rx tx (p_ka p) (p_aips p).

(** src/ipc-uapi.h:247-273 the allowed_ip line. *)
Definition get_aip (value : list Z) : option allowedip :=
  match split_first 47 value with
  | None => None
  | Some (ip, mask) =>
      if negb (char_is_digit (first_of sg mask)) then None
      else
        let '(n, rest) := strtoul ulmax 10 mask in
        let cidr := u8 n in
        if has_char 58 ip then
          match inet_pton6 ip, rest with
          | Some a, [] => if 128 <? cidr then None else Some (mk_aip AF_INET6 a cidr)
          | _, _ => None
          end
        else
          match inet_pton4 ip, rest with
          | Some a, [] => if 32 <? cidr then None else Some (mk_aip AF_INET a cidr)
          | _, _ => None
          end
  end.

(** Change the current peer and go on. *)
Definition with_peer (s : gstate) (o : option peer) : gstep :=
  match o with Some p => GNext (mk_g (g_dev s) (Some p) (g_ret s)) | None => GBreak end.
Definition with_dev (s : gstate) (o : option device) : gstep :=
  match o with Some d => GNext (mk_g d (g_peer s) (g_ret s)) | None => GBreak end.
Definition close (s : gstate) : device :=
  match g_peer s with Some p => set_peers (d_peers (g_dev s) ++ [p]) (g_dev s) | None => g_dev s end.

(** The part of the chain for the current peer, src/ipc-uapi.h:202-281; [None]: not a peer key. *)
Definition get_peer_line (s : gstate) (p : peer) (k v : list Z) : option gstep :=
  if beq k (str "preshared_key") then
    Some (with_peer s (option_map (fun x => if key_is_zero x then set_psk_only x p else set_psk x p) (key_from_hex v)))
  else if beq k (str "endpoint") then
    Some (match split_endpoint v with               (* src/ipc-uapi.h:215-231, as in config.c *)
          | None => GBreak
          | Some (host, port) =>
              match resolve host port with
              | RFail => GErr ENETUNREACH
              | ROther => GBreak
              | RAddr e => with_peer s (Some (set_endpoint e p))
              end
          end)
  else if beq k (str "persistent_keepalive_interval") then
    Some (with_peer s (option_map (fun n => set_ka n p) (NUM 0xffff v)))
  else if beq k (str "allowed_ip") then
    Some (with_peer s (option_map (fun a => set_aips (p_aips p ++ [a]) p) (get_aip v)))
  else if beq k (str "last_handshake_time_sec") then
    Some (with_peer s (option_map (fun n => set_stats n (p_hs_nsec p) (p_rx p) (p_tx p) p) (NUM 0x7fffffffffffffff v)))
  else if beq k (str "last_handshake_time_nsec") then
    Some (with_peer s (option_map (fun n => set_stats (p_hs_sec p) n (p_rx p) (p_tx p) p) (NUM 0x7fffffffffffffff v)))
  else if beq k (str "rx_bytes") then
    Some (with_peer s (option_map (fun n => set_stats (p_hs_sec p) (p_hs_nsec p) n (p_tx p) p) (NUM 0xffffffffffffffff v)))
  else if beq k (str "tx_bytes") then
    Some (with_peer s (option_map (fun n => set_stats (p_hs_sec p) (p_hs_nsec p) (p_rx p) n p) (NUM 0xffffffffffffffff v)))
  else None.

(** The part for the device, before any peer, src/ipc-uapi.h:175-185. *)
Definition get_dev_line (s : gstate) (k v : list Z) : option gstep :=
  let d := g_dev s in
  if beq k (str "private_key") then Some (with_dev s (option_map (fun x => set_keys x d) (key_from_hex v)))
  else if beq k (str "listen_port") then Some (with_dev s (option_map (fun n => set_port n d) (NUM 0xffff v)))
  else if beq k (str "fwmark") then Some (with_dev s (option_map (fun n => set_fwmark n d) (NUM 0xffffffff v)))
  else None.

(** src/ipc-uapi.h:175-283: one pair. *)
Definition get_line (s : gstate) (k v : list Z) : gstep :=
  match match g_peer s with None => get_dev_line s k v | Some _ => None end with
  | Some r => r
  | None =>
      if beq k (str "public_key") then
        match key_from_hex v with
        | Some x => GNext (mk_g (close s) (Some (set_pub x peer0)) (g_ret s))
        | None => GBreak
        end
      else
        match match g_peer s with Some p => get_peer_line s p k v | None => None end with
        | Some r => r
        | None =>
            if beq k (str "errno") then
              match NUM 0x7fffffff v with
              | Some n => GNext (mk_g (g_dev s) (g_peer s) (- n))
              | None => GBreak
              end
            else GNext s
        end
  end.

(** src/ipc-uapi.h:166-295: the loop and the exit. *)
Definition finish (ret : Z) (d : device) : Z * option device := (ret, if ret =? 0 then Some d else None).
Fixpoint get_loop (lines : list (list Z)) (s : gstate) : Z * option device :=
  match lines with
  | [] => (- EPROTO, None)
  | line :: lines' =>
      match classify line with
      | LEnd => finish (g_ret s) (close s)
      | LBad => (- EPROTO, None)
      | LPair k v =>
          match get_line s k v with
          | GNext s' => get_loop lines' s'
          | GBreak => (- EPROTO, None)
          | GErr ret => (ret, None)
          end
      end
  end.

(** src/ipc-uapi.h:138-163: the request sent and the name kept (IFNAMSIZ is 16). *)
Definition get_request : list Z := outl "get" (str "1") ++ [10].
Definition userspace_get_device (iface text : list Z) : Z * option device :=
  get_loop (getlines text) (mk_g (set_name (firstn 15 iface) device0) None (- EPROTO)).
End Get.
