(** Model of src/ipc-freebsd.h:53-397 (amd64: little endian, LP64); libnv's lists as in FbsdSpec.v. *)
From Coq Require Import String ZArith List Bool.
From Verif Require Import Base Types Encoding NlSpec NlSet Fields Ipc ObsdSpec FbsdSpec Obsd.
Import ListNotations.
Open Scope Z_scope.

(** AF_INET6 is 28 on FreeBSD. *)
Definition FBSD_INET6 : Z := 28.
(** The endpoint union as 28 bytes, as getaddrinfo() fills it; all zero if there is none. *)
Definition fbsd_sockaddr (e : endpoint) : list Z :=
  match e with
  | EpNone => repeat 0 28
  | Ep4 a port => [16; AF_INET] ++ be16 port ++ a ++ repeat 0 8 ++ repeat 0 12
  | Ep6 a port flow scope => [28; FBSD_INET6] ++ be16 port ++ le 4 flow ++ a ++ le 4 scope
  end.
Definition fbsd_endpoint (b : list Z) : endpoint :=
  match b with
  | _ :: f :: p0 :: p1 :: rest =>
      let port := 256 * p0 + p1 in
      if f =? AF_INET then Ep4 (firstn 4 rest) port
      else if f =? FBSD_INET6 then Ep6 (firstn 16 (skipn 4 rest)) port (le_val (firstn 4 rest)) (le_val (firstn 4 (skipn 20 rest)))
      else EpNone
  | _ => EpNone
  end.

(** ** Writing *)

(** A list being built: libnv remembers the first error (nvl_error), and later additions do nothing.  [ok n]: the n-th allocation of the run succeeds. *)
Record nvobj := mk_nv { nv_items : nvl; nv_err : Z }.
Definition EEXIST : Z := 17.
(** nvlist_add_number, _bool, _binary: an error if the name is taken, if there is no memory, or for no bytes at all *)
Definition nv_add (ok : nat -> bool) (n : nat) (o : nvobj) (name : string) (v : nval) : nvobj * nat :=
  if negb (nv_err o =? 0) then (o, n)
  else if existsb (String.eqb name) (names (nv_items o)) then (mk_nv (nv_items o) EEXIST, n)
  else if (match v with NBin [] => true | NArr [] => true | _ => false end) then (mk_nv (nv_items o) 22, n)
  else if negb (ok n) then (mk_nv (nv_items o) ENOMEM, S n)
  else (mk_nv (nv_items o ++ [(name, v)]) 0, S n).
Definition nv_add_if (b : bool) (ok : nat -> bool) (n : nat) (o : nvobj) (name : string) (v : nval) : nvobj * nat :=
  if b then nv_add ok n o name v else (o, n).
(** nvlist_add_nvlist_array: copies of the lists; an error of one of them becomes that of the whole *)
Definition nv_add_array (ok : nat -> bool) (n : nat) (o : nvobj) (name : string) (l : list nvobj) : nvobj * nat :=
  if negb (nv_err o =? 0) then (o, n)
  else match find (fun x => negb (nv_err x =? 0)) l with
       | Some x => (mk_nv (nv_items o) (nv_err x), n)
       | None => nv_add ok n o name (NArr (map nv_items l))
       end.
(** nvlist_create: None, if there is no memory *)
Definition nv_create (ok : nat -> bool) (n : nat) : option nvobj * nat := ((if ok n then Some (mk_nv [] 0) else None), S n).

(** src/ipc-freebsd.h:339-348 the allowed IPs *)
Fixpoint put_aips (ok : nat -> bool) (n : nat) (l : list allowedip) : option (list nvobj) * nat :=
  match l with
  | [] => (Some [], n)
  | a :: l' =>
      match nv_create ok n with
      | (None, n) => (None, n)
      | (Some o, n) =>
          let (o, n) := nv_add ok n o "cidr" (NNum (a_cidr a)) in
          let (o, n) := (if a_family a =? AF_INET then nv_add ok n o "ipv4" (NBin (a_ip a))
                         else if a_family a =? AF_INET6 then nv_add ok n o "ipv6" (NBin (a_ip a)) else (o, n)) in
          match put_aips ok n l' with
          | (None, n) => (None, n)
          | (Some os, n) => (Some (o :: os), n)
          end
      end
  end.

(** src/ipc-freebsd.h:311-356 one peer (None: goto err_peer) *)
Definition put_peer (ok : nat -> bool) (n : nat) (p : peer) : option nvobj * nat :=
  match nv_create ok n with
  | (None, n) => (None, n)
  | (Some o, n) =>
      let aip_count := length (p_aips p) in
      let '(room, n) := (if (aip_count =? 0)%nat then (true, n) else (ok n, S n)) in          (* calloc *)
      if negb room then (None, n)
      else
        let (o, n) := nv_add ok n o "public-key" (NBin (p_pub p)) in
        let (o, n) := nv_add_if (p_has_psk p) ok n o "preshared-key" (NBin (p_psk p)) in
        let (o, n) := nv_add_if (p_has_ka p) ok n o "persistent-keepalive-interval" (NNum (p_ka p)) in
        let sa := fbsd_sockaddr (p_endpoint p) in
        let (o, n) := nv_add_if ((nth 1 sa 0 =? AF_INET) || (nth 1 sa 0 =? FBSD_INET6)) ok n o "endpoint" (NBin (firstn (Z.to_nat (nth 0 sa 0)) sa)) in
        let (o, n) := nv_add_if (p_replace_aips p) ok n o "replace-allowedips" (NBool true) in
        let (o, n) := nv_add_if (p_remove p) ok n o "remove" (NBool true) in
        match put_aips ok n (p_aips p) with
        | (None, n) => (None, n)
        | (Some os, n) =>
            if (length os =? 0)%nat then (Some o, n)
            else let (o, n) := nv_add_array ok n o "allowed-ips" os in (Some o, n)
        end
  end.
Fixpoint put_peers (ok : nat -> bool) (n : nat) (l : list peer) : option (list nvobj) * nat :=
  match l with
  | [] => (Some [], n)
  | p :: l' =>
      match put_peer ok n p with
      | (None, n) => (None, n)
      | (Some o, n) => match put_peers ok n l' with (None, n) => (None, n) | (Some os, n) => (Some (o :: os), n) end
      end
  end.

(** src/ipc-freebsd.h:285-374 the list for the kernel: an errno, or the list.  nvlist_pack gives up with the error of the list, or when there is no memory; nvlist_destroy
    leaves errno alone. *)
Definition put_device (ok : nat -> bool) (d : device) : Z + nvl :=
  match nv_create ok 0 with
  | (None, _) => inl ENOMEM
  | (Some o, n) =>
      let '(room, n) := (if (length (d_peers d) =? 0)%nat then (true, n) else (ok n, S n)) in  (* calloc *)
      if negb room then inl ENOMEM
      else
        let (o, n) := nv_add_if (d_has_priv d) ok n o "private-key" (NBin (d_priv d)) in
        let (o, n) := nv_add_if (d_has_port d) ok n o "listen-port" (NNum (d_port d)) in
        let (o, n) := nv_add_if (d_has_fwmark d) ok n o "user-cookie" (NNum (d_fwmark d)) in
        let (o, n) := nv_add_if (d_replace_peers d) ok n o "replace-peers" (NBool true) in
        match put_peers ok n (d_peers d) with
        | (None, _) => inl ENOMEM
        | (Some os, n) =>
            let (o, n) := (if (length os =? 0)%nat then (o, n) else nv_add_array ok n o "peers" os) in
            if negb (nv_err o =? 0) then inl (nv_err o) else if negb (ok n) then inl ENOMEM else inr (nv_items o)
        end
  end.

(** src/ipc-freebsd.h:275-387 kernel_set_device.  [sock]: the socket or the errno of socket(); [ioctl]: what SIOCSWG does with name and list (packed and unpacked again: the
    same).  Result: return value, state of the kernel, what was handed to it. *)
Definition kernel_set_device {K} (sock : Z + Z) (ok : nat -> bool) (ioctl : K -> list Z -> nvl -> Z + K) (d : device) (k : K) : Z * K * list (list Z * nvl) :=
  match put_device ok d with
  | inl e => (- e, k, [])
  | inr l =>
      match sock with
      | inr e => (- e, k, [])
      | inl _ =>
          let name := firstn 15 (d_name d) in
          match ioctl k name l with
          | inl e => (-1, k, [(name, l)])                                      (* return ioctl(...) *)
          | inr k' => (0, k', [(name, l)])
          end
      end
  end.

(** ** Reading *)

(** nvlist_exists_number and nvlist_get_number, etc.: the first value of that name and that type *)
Definition pick {A} (f : nval -> option A) : string -> nvl -> option A :=
  fun name => fix go (l : nvl) := match l with
    | [] => None
    | (n, v) :: l' => if String.eqb n name then match f v with Some x => Some x | None => go l' end else go l' end.
Definition get_number := pick (fun v => match v with NNum n => Some n | _ => None end).
Definition get_binary := pick (fun v => match v with NBin b => Some b | _ => None end).
Definition get_array := pick (fun v => match v with NArr l => Some l | _ => None end).

(** A number, if it is there and at most [max]; a key, if it is there and has 32 bytes. *)
Definition small (max : Z) (o : option Z) : option Z := match o with Some v => if v <=? max then Some v else None | None => None end.
Definition key (o : option (list Z)) : option (list Z) := match o with Some b => if len b =? 32 then Some b else None | None => None end.
Definition or {A} (o : option A) (d : A) : A := match o with Some x => x | None => d end.
Definition some {A} (o : option A) : bool := match o with Some _ => true | None => false end.

(** Outcome of a step: the rest of the memory, or the number to return. *)
Inductive fgot (A : Type) := FGot (x : A) (mem : nat) | FErr (ret : Z).
Arguments FGot {A}. Arguments FErr {A}.

(** src/ipc-freebsd.h:182-232 the allowed IPs; [mem]: how many allocations still succeed; None: a read outside of the bytes *)
Fixpoint get_aips (l : list nvl) (mem : nat) : option (fgot (list allowedip)) :=
  match l with
  | [] => Some (FGot [] mem)
  | x :: l' =>
      match get_number "cidr" x with
      | None => get_aips l' mem
      | Some number =>
          if negb (some (get_binary "ipv4" x)) && negb (some (get_binary "ipv6" x)) then get_aips l' mem
          else match mem with
          | O => Some (FErr (- ENOMEM))
          | S mem =>
              let* r := (match get_binary "ipv4" x with
                         | Some b => if 32 <? number then Some (inl 22) else let* ip := peek b 0 4 in Some (inr (mk_aip AF_INET ip number))
                         | None =>
                             match get_binary "ipv6" x with
                             | Some b => if 128 <? number then Some (inl 22) else let* ip := peek b 0 16 in Some (inr (mk_aip AF_INET6 ip number))
                             | None => None                                    (* assert *)
                             end
                         end) in
              match r with
              | inl ret => Some (FErr ret)
              | inr a => let* r := get_aips l' mem in
                         match r with FErr ret => Some (FErr ret) | FGot as_ mem => Some (FGot (a :: as_) mem) end
              end
          end
      end
  end.

(** src/ipc-freebsd.h:142-176,182-188 one peer without its allowed IPs *)
Definition get_endpoint (o : option (list Z)) : endpoint :=
  match o with
  | Some b => if (len b <=? 28) && (16 <=? len b) && ((nth 1 b 0 =? AF_INET) || (nth 1 b 0 =? FBSD_INET6)) then fbsd_endpoint (sa_copy b) else EpNone
  | None => EpNone
  end.
Definition handshake (o : option (list Z)) : Z * Z :=
  match o with
  | Some b => if len b =? 16 then (s64 (le_val (firstn 8 b)), s64 (le_val (skipn 8 b))) else (0, 0)
  | None => (0, 0)
  end.
Definition get_peer (x : nvl) (aips : list allowedip) : peer :=
  let pub := key (get_binary "public-key" x) in
  let psk := or (key (get_binary "preshared-key" x)) zero_key in
  let ka := small 65535 (get_number "persistent-keepalive-interval" x) in
  let hs := handshake (get_binary "last-handshake-time" x) in
  mk_peer false false (some pub) (some (key (get_binary "preshared-key" x)) && negb (key_is_zero psk)) (some ka) (or pub zero_key) psk
    (get_endpoint (get_binary "endpoint" x)) (fst hs) (snd hs) (or (get_number "rx-bytes" x) 0) (or (get_number "tx-bytes" x) 0) (or ka 0) aips.

(** src/ipc-freebsd.h:132-250 *)
Fixpoint get_peers (l : list nvl) (mem : nat) : option (fgot (list peer)) :=
  match l with
  | [] => Some (FGot [] mem)
  | x :: l' =>
      match mem with
      | O => Some (FErr (- ENOMEM))
      | S mem =>
          let* r := get_aips (or (get_array "allowed-ips" x) []) mem in
          match r with
          | FErr ret => Some (FErr ret)
          | FGot aips mem =>
              let* r := get_peers l' mem in
              match r with FErr ret => Some (FErr ret) | FGot ps mem => Some (FGot (get_peer x aips :: ps) mem) end
          end
      end
  end.

(** src/ipc-freebsd.h:92-258 *)
Definition get_list (name : list Z) (l : nvl) (mem : nat) : option (Z * option device) :=
  let port := small 65535 (get_number "listen-port" l) in
  let mark := small (2 ^ 32 - 1) (get_number "user-cookie" l) in
  let pub := key (get_binary "public-key" l) in
  let priv := key (get_binary "private-key" l) in
  let* r := get_peers (or (get_array "peers" l) []) mem in
  match r with
  | FErr ret => Some (ret, None)
  | FGot ps _ => Some (0, Some (mk_device name 0 false (some priv) (some pub) (some port) (some mark) (or pub zero_key) (or priv zero_key) (or mark 0) (or port 0) ps))
  end.

(** src/ipc-freebsd.h:53-258 kernel_get_device.  [ioctl name i room]: what call [i] of SIOCGWG does, given room for [room] bytes: an errno, or the size it states and the bytes
    it wrote; [junk]: what malloc's bytes hold; [unpack]: an errno or the list. *)
Definition kernel_get_device (sock : Z + Z) (iface : list Z) (ioctl : list Z -> nat -> Z -> Z + Z * list Z) (junk : list Z) (unpack : list Z -> Z + nvl) (mem : nat)
  : option (Z * option device) :=
  match sock with
  | inr e => Some (- e, None)
  | inl _ =>
      let name := firstn 15 iface in
      match ioctl name 0%nat 0 with
      | inl e => Some (- e, None)
      | inr (size, data) =>
          if 0 <? len data then None
          else match mem with
          | O => Some (- ENOMEM, None)
          | S mem =>
              match ioctl name 1%nat size with
              | inl e => Some (- e, None)
              | inr (size', data) =>
                  if size <? len data then None
                  else match mem with
                  | O => Some (- ENOMEM, None)
                  | S mem =>
                      match mem with
                      | O => Some (- ENOMEM, None)                             (* nvlist_unpack *)
                      | S mem =>
                          let* b := peek (data ++ firstn (Z.to_nat (size - len data)) junk) 0 size' in
                          match unpack b with
                          | inl e => Some (- e, None)
                          | inr l => get_list name l mem
                          end
                      end
                  end
              end
          end
      end
  end.
