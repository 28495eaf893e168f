(** Model of kernel_set_device (src/ipc-linux.h:142-274). *)
From Coq Require Import ZArith List Bool.
From Verif Require Import Base Types NlSpec Nl.
Import ListNotations.
Open Scope Z_scope.

(** The endpoint union as bytes: struct sockaddr_in (16 bytes) or sockaddr_in6 (28 bytes); the port is big endian,
    sin_zero is zero, flow information and scope are in host order. *)
Definition be16 (v : Z) : list Z := [v / 256; v mod 256].
Definition sockaddr (e : endpoint) : list Z :=
  match e with
  | EpNone => []
  | Ep4 a port => le 2 AF_INET ++ be16 port ++ a ++ repeat 0 8
  | Ep6 a port flow scope => le 2 AF_INET6 ++ be16 port ++ le 4 flow ++ a ++ le 4 scope
  end.

(** Sequencing of check writes ("if (!put_check(...)) goto toobig"). *)
Definition bind_wr (r : option wr) (f : list Z -> option wr) : option wr :=
  match r with
  | Some (Fit b) => f b
  | x => x
  end.
Notation "'put' b <- r ;; f" := (bind_wr r (fun b => f)) (at level 60, b name, right associativity).
Definition when (c : bool) (r : option wr) (b : list Z) : option wr := if c then r else Some (Fit b).

(** src/ipc-linux.h:214-229 one allowed IP, after its nest was opened. *)
Definition put_aip_body (B : Z) (b : list Z) (a : allowedip) : option wr :=
  put b <- attr_put_u16_check B b 1 (a_family a) ;;
  put b <- (if a_family a =? AF_INET then attr_put_check B b 2 (a_ip a)
            else if a_family a =? AF_INET6 then attr_put_check B b 2 (a_ip a)
            else Some (Fit b)) ;;
  attr_put_u8_check B b 3 (a_cidr a).

(** src/ipc-linux.h:211-232 the loop over the allowed IPs still to be sent, and the cleanup of a partly written one
    (toobig_allowedips, 246-247).  Result: the message and the allowed IPs left ([] when all were written). *)
Fixpoint put_aips (B : Z) (b : list Z) (l : list allowedip) : option (list Z * list allowedip) :=
  match l with
  | [] => Some (b, [])
  | a :: l' =>
      match nest_start_check B b 0 with
      | None => None
      | Some (Full b') => Some (b', l)
      | Some (Fit b1) =>
          match put_aip_body B b1 a with
          | None => None
          | Some (Full b2) => Some (nest_cancel b2 (length b), l)
          | Some (Fit b2) => put_aips B (nest_end b2 (length b)) l'
          end
      end
  end.

(** src/ipc-linux.h:178-206 one peer, after its nest was opened: everything before the allowed IPs.  [cont] tells that [allowedip]
    is not NULL: the peer was begun in an earlier message. *)
Definition put_peer_head (B : Z) (b : list Z) (p : peer) (cont : bool) : option wr :=
  put b <- attr_put_check B b 1 (p_pub p) ;;
  put b <- (if cont then Some (Fit b)
            else put b <- when (p_has_psk p) (attr_put_check B b 2 (p_psk p)) b ;;
                 put b <- (match p_endpoint p with
                           | EpNone => Some (Fit b)
                           | e => attr_put_check B b 4 (sockaddr e)
                           end) ;;
                 when (p_has_ka p) (attr_put_u16_check B b 5 (p_ka p)) b) ;;
  let flags := Z.lor (if p_remove p then 1 else 0) (if negb cont && p_replace_aips p then 2 else 0) in
  when (negb (flags =? 0)) (attr_put_u32_check B b 3 flags) b.

(** src/ipc-linux.h:172-241 the loop over peers and the two "too big" exits.  [ps] are the peers from [peer] on, [al] the
    allowed IPs from [allowedip] on ([] for NULL).  Result: message, and where to go on ([] when done). *)
Fixpoint put_peers (B : Z) (b : list Z) (ps : list peer) (al : list allowedip) : option (list Z * list peer * list allowedip) :=
  match ps with
  | [] => Some (b, [], [])
  | p :: ps' =>
      match nest_start_check B b 0 with
      | None => None
      | Some (Full b') => Some (b', ps, al)
      | Some (Fit b1) =>
          match put_peer_head B b1 p (match al with [] => false | _ => true end) with
          | None => None
          | Some (Full b2) => Some (nest_cancel b2 (length b), ps, al)       (* toobig_peers *)
          | Some (Fit b2) =>
              match p_aips p with
              | [] => put_peers B (nest_end b2 (length b)) ps' al
              | _ =>
                  let al' := match al with [] => p_aips p | _ => al end in
                  match nest_start_check B b2 9 with
                  | None => None
                  | Some (Full b3) => Some (nest_end b3 (length b), ps, al')     (* toobig_allowedips, no nest *)
                  | Some (Fit b3) =>
                      match put_aips B b3 al' with
                      | None => None
                      | Some (b4, []) => put_peers B (nest_end (nest_end b4 (length b2)) (length b)) ps' []
                      | Some (b4, rest) => Some (nest_end (nest_end b4 (length b2)) (length b), ps, rest)
                      end
                  end
              end
          end
      end
  end.

Definition when_put (c : bool) (r : option (list Z)) (b : list Z) : option (list Z) := if c then r else Some b.
Definition bind_put (r : option (list Z)) (f : list Z -> option (list Z)) : option (list Z) :=
  match r with Some b => f b | None => None end.
Notation "'do' b <- r ;; f" := (bind_put r (fun b => f)) (at level 60, b name, right associativity).

(** src/ipc-linux.h:155-170 the start of a message: header, name, and in the first one ([peer] is NULL) the device's fields.
    WG_CMD_SET_DEVICE is 1, NLM_F_REQUEST | NLM_F_ACK is 5, WG_GENL_VERSION is 1. *)
Definition put_device (B id seq : Z) (d : device) (first : bool) : option (list Z) :=
  do b <- msg_prepare B id 5 seq 1 1 ;;
  do b <- attr_put_strz B b 2 (d_name d) ;;
  if first then
    do b <- when_put (d_has_priv d) (attr_put B b 3 (d_priv d)) b ;;
    do b <- when_put (d_has_port d) (attr_put_u16 B b 6 (d_port d)) b ;;
    do b <- when_put (d_has_fwmark d) (attr_put_u32 B b 7 (d_fwmark d)) b ;;
    when_put (d_replace_peers d) (attr_put_u32 B b 5 1) b
  else Some b.

(** src/ipc-linux.h:155-258 one message: from "again" to "send".  [ps] = None at the very first ([peer] is NULL). *)
Definition build (B id seq : Z) (d : device) (at_ : option (list peer * list allowedip)) : option (list Z * list peer * list allowedip) :=
  match put_device B id seq d (match at_ with None => true | Some _ => false end) with
  | None => None
  | Some b =>
      match d_peers d with
      | [] => Some (finish b, [], [])
      | _ =>
          let '(ps, al) := match at_ with None => (d_peers d, []) | Some x => x end in
          match nest_start B b 8 with
          | None => None
          | Some b1 =>
              match put_peers B b1 ps al with
              | None => None
              | Some (b2, ps', al') => Some (finish (nest_end b2 (length b)), ps', al')
              end
          end
      end
  end.

(** The other end of the socket: [K] is its state (with the interface); a request is either refused by sendto with
    an errno, or answered by datagrams. *)
Inductive sent (K : Type) := SendErr (errno : Z) | Sent (k : K) (rs : list recv).
Arguments SendErr {K} errno.
Arguments Sent {K} k rs.

(** src/ipc-linux.h:154-273 the whole call after the socket was opened; [now i] is time(NULL) at the i-th message, [buf] the
    socket buffer (the reply is received into the buffer the message was built in), [q] datagrams still queued in the
    socket.  Result: return value, final state of the other end, messages accepted by sendto (newest first). *)
Fixpoint set_loop {K} (kern : K -> list Z -> sent K) (B id portid : Z) (now : nat -> Z) (fuel : nat) (i : nat)
    (d : device) (at_ : option (list peer * list allowedip)) (buf : list Z) (q : list recv) (k : K) (log : list (list Z))
    : option (Z * K * list (list Z)) :=
  match fuel with
  | O => None
  | S f =>
      match build B id (now i) d at_ with
      | None => None
      | Some (msg, ps, al) =>
          let buf1 := overwrite buf msg in
          match kern k msg with
          | SendErr e => Some (- e, k, log)
          | Sent k' rs =>
              match recv_run (A := unit) (now i) portid None buf1 (q ++ rs) (0, tt) with
              | None => None
              | Some (r, (errno, _), buf2, q') =>
                  if r <? 0 then Some (if errno =? 0 then - EINVAL else - errno, k', msg :: log)
                  else match ps with
                       | [] => Some (0, k', msg :: log)
                       | _ => set_loop kern B id portid now f (S i) d (Some (ps, al)) buf2 q' k' (msg :: log)
                       end
              end
          end
      end
  end.

(** Enough steps for any device: one message for each peer and allowed IP, and one more. *)
Definition work (d : device) : nat :=
  fold_right (fun p n => S (length (p_aips p)) + n)%nat 1%nat (d_peers d).
Definition kernel_set_device {K} (kern : K -> list Z -> sent K) (B id portid : Z) (now : nat -> Z) (d : device) (buf : list Z) (k : K) :=
  set_loop kern B id portid now (work d) 0 d None buf [] k [].
