(** Model of opening a generic netlink socket: src/netlink.h:487-600 (the mnl_socket functions), 704-789 (the family lookup, mnlg_socket_open,
    mnlg_socket_close).  [None]: an access outside the memory allocated, or waiting for a datagram that never comes (see Nl.v). *)
From Coq Require Import ZArith List Bool.
From Verif Require Import Base Types NlSpec Nl.
Import ListNotations.
Open Scope Z_scope.

(** errno values (Linux). *)
Definition ENOENT : Z := 2.
Definition ENOMEM : Z := 12.
Definition ENOSYS : Z := 38.
Definition EPROTONOSUPPORT : Z := 93.
Definition EOPNOTSUPP : Z := 95.
Definition AF_NETLINK : Z := 16.

(** What a run acquires and gives back: the struct mnlg_socket, its buffer, the struct mnl_socket, a file descriptor. *)
Inductive res := RHandle | RBuf | RSock | RFd (fd : Z).
(** What it does: acquire or release something, a system call on a descriptor (bind, getsockname, recvmsg), sendto taking a message. *)
Inductive ev := EGot (r : res) | EDrop (r : res) | EUse (fd : Z) | ESent (fd : Z) (msg : list Z).

(** What the system answers during one call.  [os_buf]: the second malloc, with the bytes found in the new memory; as many as mnl_ideal_socket_buffer_size()
    says.  [os_name]: length, family and port of the address getsockname stores.  [os_peer]: sendto fails with an errno, or these datagrams
    (or failures) are received afterwards.  [os_close]: close fails with an errno. *)
Record os := mk_os {
  os_handle : bool;
  os_buf : option (list Z);
  os_sock : bool;
  os_socket : Z + Z;                       (* inl: descriptor; inr: errno *)
  os_bind : option Z;
  os_name : (Z * Z * Z) + Z;
  os_now : Z;
  os_peer : list Z -> Z + list recv;       (* inl: errno *)
  os_close : option Z
}.

(** src/netlink.h:498-512 __mnl_socket_open.  Result: descriptor or errno; what was done. *)
Definition mnl_socket_open (o : os) : (Z + Z) * list ev :=
  if os_sock o then
    match os_socket o with
    | inr e => (inr e, [EGot RSock; EDrop RSock])
    | inl fd => (inl fd, [EGot RSock; EGot (RFd fd)])
    end
  else (inr ENOMEM, []).

(** src/netlink.h:519-545 mnl_socket_bind: the errno of a failure, or the port the socket got.  sizeof(struct sockaddr_nl) is 12. *)
Definition mnl_socket_bind (o : os) (fd : Z) : (Z + Z) * list ev :=
  match os_bind o with
  | Some e => (inr e, [EUse fd])
  | None =>
      match os_name o with
      | inr e => (inr e, [EUse fd; EUse fd])
      | inl (addr_len, family, pid) =>
          if negb (addr_len =? 12) then (inr EINVAL, [EUse fd; EUse fd])
          else if negb (family =? AF_NETLINK) then (inr EINVAL, [EUse fd; EUse fd])
          else (inl pid, [EUse fd; EUse fd])
      end
  end.

(** src/netlink.h:587-592 mnl_socket_close: the new errno and what was done. *)
Definition mnl_socket_close (o : os) (fd errno : Z) : Z * list ev :=
  (match os_close o with Some e => e | None => errno end, [EDrop (RFd fd); EDrop RSock]).

(** src/netlink.h:596-603 struct mnlg_socket (and, of the socket: the datagrams waiting in it). *)
Record handle := mk_handle { h_fd : Z; h_id : Z; h_version : Z; h_seq : Z; h_portid : Z; h_buf : list Z; h_queue : list recv }.

(** tb[type] = attr *)
Fixpoint store {A} (i : nat) (x : A) (l : list A) : option (list A) :=
  match l, i with
  | [], _ => None
  | _ :: l', O => Some (x :: l')
  | y :: l', S i' => match store i' x l' with Some r => Some (y :: r) | None => None end
  end.

(** src/netlink.h:165-179,704-717 get_family_id_attr_cb with mnl_attr_type_valid.  [cmax] is CTRL_ATTR_MAX of the headers the program was built with. *)
Definition get_family_id_attr_cb (cmax : Z) (m : list Z) (pos : Z) (s : Z * list (option Z)) : option (Z * (Z * list (option Z))) :=
  let '(errno, tb) := s in
  match attr_type m pos, attr_plen m pos with
  | Some t, Some n =>
      if cmax <? t then Some (CB_ERROR, (EOPNOTSUPP, tb))
      else
        let '(v, errno') := if t =? 1 then validate_len n 2 errno else (true, errno) in
        if v then match store (Z.to_nat t) (Some pos) tb with Some tb' => Some (CB_OK, (errno', tb')) | None => None end
        else Some (CB_ERROR, (errno', tb))
  | _, _ => None
  end.

(** src/netlink.h:719-730 get_family_id_cb: the result of mnl_attr_parse is not looked at. *)
Definition get_family_id_cb (cmax : Z) (m : list Z) (nlh : Z) (s : Z * Z) : option (Z * (Z * Z)) :=
  let '(errno, id) := s in
  match attr_parse m nlh 4 (get_family_id_attr_cb cmax m) (errno, repeat None (Z.to_nat (cmax + 1))) with
  | None => None
  | Some (_, (errno', tb)) =>
      match nth 1 tb None with
      | None => Some (CB_ERROR, (errno', id))
      | Some pos => match rd_le m (payload pos) 2 with Some v => Some (CB_OK, (errno', v)) | None => None end
      end
  end.

(** src/netlink.h:773-781 the error exits of mnlg_socket_open, each falling into the next; [err] is negative.  The result is NULL. *)
Definition err_buf_alloc (err : Z) (log : list ev) : option handle * Z * list ev := (None, - err, log ++ [EDrop RHandle]).
Definition err_mnl_socket_open (err : Z) (log : list ev) : option handle * Z * list ev := err_buf_alloc err (log ++ [EDrop RBuf]).
Definition err_mnl_socket_bind (o : os) (fd err errno : Z) (log : list ev) : option handle * Z * list ev :=
  let '(_, l) := mnl_socket_close o fd errno in err_mnl_socket_open err (log ++ l).

(** src/netlink.h:732-782 mnlg_socket_open: the handle or NULL, errno, what was done.  CTRL_CMD_GETFAMILY is 3, NLM_F_REQUEST | NLM_F_ACK is 5, GENL_ID_CTRL is
    16, CTRL_ATTR_FAMILY_NAME is 2.  [e0] is errno before the call.  (One EUse stands for all the calls of recvmsg.) *)
Definition mnlg_socket_open (cmax : Z) (o : os) (family_name : list Z) (version : Z) : option (option handle * Z * list ev) :=
  if negb (os_handle o) then Some (None, ENOMEM, [])
  else
    let log := [EGot RHandle] in
    match os_buf o with
    | None => Some (err_buf_alloc (- ENOMEM) log)
    | Some buf =>
        let log := log ++ [EGot RBuf] in
        let '(s, l) := mnl_socket_open o in
        let log := log ++ l in
        match s with
        | inr errno => Some (err_mnl_socket_open (- errno) log)
        | inl fd =>
            let '(s, l) := mnl_socket_bind o fd in
            let log := log ++ l in
            match s with
            | inr errno => Some (err_mnl_socket_bind o fd (- errno) errno log)
            | inl portid =>
                let seq := u32 (os_now o) in
                match msg_prepare (len buf) 16 5 seq 3 1 with
                | None => None
                | Some b =>
                    match attr_put_strz (len buf) b 2 family_name with
                    | None => None
                    | Some b =>
                        let msg := finish b in
                        let buf := overwrite buf msg in
                        match os_peer o msg with
                        | inl errno => Some (err_mnl_socket_bind o fd (- errno) errno (log ++ [EUse fd]))
                        | inr rs =>
                            let log := log ++ [ESent fd msg; EUse fd] in
                            match recv_run seq portid (Some (get_family_id_cb cmax)) buf rs (0, 0) with
                            | None => None
                            | Some (r, (errno, id), buf, rs) =>
                                if r <? 0 then
                                  let errno := if errno =? ENOENT then EPROTONOSUPPORT else errno in
                                  let err := if errno =? 0 then - ENOSYS else - errno in
                                  Some (err_mnl_socket_bind o fd err errno log)
                                else Some (Some (mk_handle fd id version seq portid buf rs), 0, log)
                            end
                        end
                    end
                end
            end
        end
    end.

(** src/netlink.h:784-789 mnlg_socket_close *)
Definition mnlg_socket_close (h : handle) : list ev := [EDrop (RFd (h_fd h)); EDrop RSock; EDrop RBuf; EDrop RHandle].
