(** kernel_get_device and kernel_set_device from the first system call on: src/ipc-linux.h:142-156,259-274 and 476-525 with the socket opened by the
    model of NlOpen.v. *)
From Coq Require Import ZArith List Bool.
From Verif Require Import Base Types NlSpec Nl NlSet NlGet NlOpen.
Import ListNotations.
Open Scope Z_scope.

(** "wireguard" (WG_GENL_NAME, src/uapi/linux/linux/wireguard.h:134) *)
Definition WG_GENL_NAME : list Z := [119; 105; 114; 101; 103; 117; 97; 114; 100].

(** src/ipc-linux.h:500-501 the request to read an interface: WG_CMD_GET_DEVICE is 0, NLM_F_REQUEST | NLM_F_ACK | NLM_F_DUMP is 0x305, WGDEVICE_A_IFNAME
    is 2. *)
Definition get_msg (h : handle) (seq : Z) (iface : list Z) : option (list Z) :=
  match msg_prepare (len (h_buf h)) (h_id h) 773 seq 0 (h_version h) with
  | None => None
  | Some b => match attr_put_strz (len (h_buf h)) b 2 iface with Some b' => Some (finish b') | None => None end
  end.

(** What the system does during one pass of the loop: calloc of the device, the opening, the time, and the answer to the request. *)
Record pass := mk_pass { ps_calloc : bool; ps_os : os; ps_now : Z; ps_peer : list Z -> Z + list recv }.

(** src/ipc-linux.h:488-524 the loop.  [live]: devices allocated and not freed.  Result: return value, *device, live, what was done with the sockets. *)
Fixpoint cold_get_loop (cmax : Z) (iface : list Z) (ps : list pass) (live : Z) (log : list ev) : option (Z * option device * Z * list ev) :=
  match ps with
  | [] => None
  | p :: rest =>
      if negb (ps_calloc p) then Some (- ENOMEM, None, live, log)
      else
        let live := live + 1 in
        match mnlg_socket_open cmax (ps_os p) WG_GENL_NAME 1 with
        | None => None
        | Some (None, errno, l) => Some (- errno, None, live - 1, log ++ l)
        | Some (Some h, _, l) =>
            let log := log ++ l in
            let seq := u32 (ps_now p) in
            match get_msg h seq iface with
            | None => None
            | Some msg =>
                match (match ps_peer p msg with
                       | inl errno => Some (- errno, device0, log ++ [EUse (h_fd h)])
                       | inr rs =>
                           let log := log ++ [ESent (h_fd h) msg; EUse (h_fd h)] in
                           match recv_run seq (h_portid h) (Some read_device_cb) (overwrite (h_buf h) msg) (h_queue h ++ rs) (0, device0) with
                           | None => None
                           | Some (r, (errno, d), _, _) =>
                               if r <? 0 then Some (if errno =? 0 then - EINVAL else - errno, d, log)
                               else match coalesce_peers (d_peers d) with
                                    | Some q => Some (0, set_peers q d, log)
                                    | None => None
                                    end
                           end
                       end) with
                | None => None
                | Some (ret, d, log) =>
                    (* out: *)
                    let log := log ++ mnlg_socket_close h in
                    if ret =? 0 then Some (0, Some d, live, log)
                    else if ret =? - EINTR then cold_get_loop cmax iface rest (live - 1) log
                    else Some (ret, None, live - 1, log)
                end
            end
        end
  end.
(** src/ipc-linux.h:476-525 kernel_get_device *)
Definition cold_get (cmax : Z) (iface : list Z) (ps : list pass) : option (Z * option device * Z * list ev) :=
  if 16 <=? len iface then Some (- ENAMETOOLONG, None, 0, []) else cold_get_loop cmax iface ps 0 [].

(** src/ipc-linux.h:142-274 kernel_set_device: open, the loop of messages (NlSet.v), close.  Result: return value, state of the other end, messages it took,
    what was done with the socket.  (The loop's own system calls are one EUse.) *)
Definition cold_set {K} (cmax : Z) (o : os) (kern : K -> list Z -> sent K) (now : nat -> Z) (d : device) (k : K) : option (Z * K * list (list Z) * list ev) :=
  match mnlg_socket_open cmax o WG_GENL_NAME 1 with
  | None => None
  | Some (None, errno, l) => Some (- errno, k, [], l)
  | Some (Some h, _, l) =>
      match set_loop kern (len (h_buf h)) (h_id h) (h_portid h) now (work d) 0 d None (h_buf h) (h_queue h) k [] with
      | None => None
      | Some (ret, k', msgs) => Some (ret, k', msgs, l ++ [EUse (h_fd h)] ++ mnlg_socket_close h)
      end
  end.
