(** Model of src/netlink.h (the embedded subset of libmnl) on bytes.

    A message under construction is the list of its first [nlmsg_len] bytes; the [nlmsg_len] field itself (bytes
    0-3) is filled in by [finish].  Every write checks that it stays inside the buffer of [B] bytes, and every
    read that it stays inside the memory it may touch: a result of [None] stands for undefined behaviour (an
    access outside the buffer) or non-termination, and theorems show it does not occur.  Offsets into the
    buffer stand for pointers.  The host is little endian; int is 32 bits. *)
From Coq Require Import ZArith List Bool.
From Verif Require Import Base.
From Verif Require Import NlSpec.
Import ListNotations.
Open Scope Z_scope.

(** src/netlink.h:24 MNL_ALIGN on size_t values (no wrap-around). *)
Definition align (n : Z) : Z := Z.land (n + 3) (Z.lnot 3).
(** MNL_ALIGN on a uint32_t. *)
Definition align32 (n : Z) : Z := Z.land (u32 (n + 3)) (Z.lnot 3).
(** Conversion to int. *)
Definition s32 (z : Z) : Z := let v := z mod 2 ^ 32 in if 2 ^ 31 <=? v then v - 2 ^ 32 else v.

(** ** Writing *)

(** Outcome of a sequence of "check" writes: all fit, or one did not (the message so far). *)
Inductive wr := Fit (b : list Z) | Full (b : list Z).

(** Append to the message, inside the buffer. *)
Definition append (B : Z) (b x : list Z) : option (list Z) :=
  if len b + len x <=? B then Some (b ++ x) else None.

(** src/netlink.h:305-319 mnl_attr_put: header, data, padding.  (The write position ALIGN(nlmsg_len) is the end of
    the message because nlmsg_len is a multiple of 4: NlProofs.v proves it for every message built.) *)
Definition attr_put (B : Z) (b : list Z) (type : Z) (data : list Z) : option (list Z) :=
  let payload_len := u16 (4 + len data) in
  append B b (le 2 payload_len ++ le 2 type ++ data ++ repeat 0 (Z.to_nat (align (len data) - len data))).

(** src/netlink.h:321-334 *)
Definition attr_put_u16 B b type v := attr_put B b type (le 2 v).
Definition attr_put_u32 B b type v := attr_put B b type (le 4 v).
Definition attr_put_strz B b type (s : list Z) := attr_put B b type (s ++ [0]).

(** src/netlink.h:336-343 mnl_attr_nest_start: reserves the header; its length is set by nest_end (here zero until
    then; in C it is whatever the buffer held). NLA_F_NESTED is 1 << 15.  The caller keeps the position, which is
    the length of the message before the call. *)
Definition nest_start (B : Z) (b : list Z) (type : Z) : option (list Z) :=
  append B b (le 2 0 ++ le 2 (Z.lor (2 ^ 15) type)).

(** src/netlink.h:345-352 mnl_attr_put_check. *)
Definition attr_put_check (B : Z) (b : list Z) (type : Z) (data : list Z) : option wr :=
  if B <? len b + 4 + align (len data) then Some (Full b)
  else match attr_put B b type data with Some b' => Some (Fit b') | None => None end.

(** src/netlink.h:354-370 *)
Definition attr_put_u8_check B b type v := attr_put_check B b type (le 1 v).
Definition attr_put_u16_check B b type v := attr_put_check B b type (le 2 v).
Definition attr_put_u32_check B b type v := attr_put_check B b type (le 4 v).

(** src/netlink.h:372-378 mnl_attr_nest_start_check. *)
Definition nest_start_check (B : Z) (b : list Z) (type : Z) : option wr :=
  if B <? len b + 4 then Some (Full b)
  else match nest_start B b type with Some b' => Some (Fit b') | None => None end.

(** src/netlink.h:380-383 mnl_attr_nest_end: store the length of the nest, a uint16_t, in its header. *)
Definition nest_end (b : list Z) (start : nat) : list Z :=
  firstn start b ++ le 2 (u16 (len b - Z.of_nat start)) ++ skipn (start + 2) b.

(** src/netlink.h:385-388 mnl_attr_nest_cancel: forget everything from the nest on. *)
Definition nest_cancel (b : list Z) (start : nat) : list Z := firstn start b.

(** src/netlink.h:87-104,614-639 mnl_nlmsg_put_header, mnl_nlmsg_put_extra_header, __mnlg_msg_prepare: the 16 byte header
    (length, type, flags, sequence number, port) and the generic netlink header (command, version, reserved). *)
Definition msg_prepare (B : Z) (id flags seq cmd version : Z) : option (list Z) :=
  append B [] (le 4 20 ++ le 2 id ++ le 2 flags ++ le 4 seq ++ le 4 0 ++ [cmd; version; 0; 0]).

(** The bytes handed to sendto (mnlg_socket_send, src/netlink.h:641-644): nlmsg_len is the length. *)
Definition finish (b : list Z) : list Z := le 4 (len b) ++ skipn 4 b.

(** ** Reading *)

(** [n] bytes at offset [off]. *)
Definition rd (m : list Z) (off n : Z) : option (list Z) :=
  if (0 <=? off) && (0 <=? n) && (off + n <=? len m) then Some (firstn (Z.to_nat n) (skipn (Z.to_nat off) m)) else None.
Definition rd_le (m : list Z) (off n : Z) : option Z :=
  match rd m off n with Some b => Some (le_val b) | None => None end.

(** src/netlink.h:159-164 mnl_attr_ok: [n] is the int left in the region; nla_len is read only if 4 bytes are left. *)
Definition attr_ok (m : list Z) (pos n : Z) : option bool :=
  if 4 <=? n then
    match rd_le m pos 2 with
    | Some l => Some ((4 <=? l) && (l <=? n))
    | None => None
    end
  else Some false.

(** src/netlink.h:144-157 the parts of an attribute: type without flags, payload length, payload. *)
Definition attr_type (m : list Z) (pos : Z) : option Z :=
  match rd_le m (pos + 2) 2 with Some t => Some (Z.land t 16383) | None => None end.
Definition attr_plen (m : list Z) (pos : Z) : option Z :=
  match rd_le m pos 2 with Some l => Some (u16 (l - 4)) | None => None end.
Definition payload (pos : Z) : Z := pos + 4.

(** MNL_CB_OK, MNL_CB_STOP, MNL_CB_ERROR *)
Definition CB_OK : Z := 1.
Definition CB_STOP : Z := 0.
Definition CB_ERROR : Z := -1.

(** src/netlink.h:44-53 the for_each loops of mnl_attr_parse (254-264) and mnl_attr_parse_nested (266-276). *)
Fixpoint attr_loop {A} (m : list Z) (cb : Z -> A -> option (Z * A)) (fuel : nat) (pos stop ret : Z) (st : A) : option (Z * A) :=
  match fuel with
  | O => None
  | S f =>
      match attr_ok m pos (s32 (stop - pos)) with
      | None => None
      | Some false => Some (ret, st)
      | Some true =>
          match cb pos st with
          | None => None
          | Some (r, st') =>
              if r <=? CB_STOP then Some (r, st')
              else match rd_le m pos 2 with
                   | Some l => attr_loop m cb f (pos + align l) stop r st'
                   | None => None
                   end
          end
      end
  end.

(** mnl_attr_parse(nlh, offset, cb, data), with the message at [nlh]. *)
Definition attr_parse {A} (m : list Z) (nlh offset : Z) (cb : Z -> A -> option (Z * A)) (st : A) : option (Z * A) :=
  match rd_le m nlh 4 with
  | Some l => attr_loop m cb (S (length m)) (nlh + 16 + align offset) (nlh + align32 l) CB_OK st
  | None => None
  end.
(** mnl_attr_parse_nested(nested, cb, data). *)
Definition attr_parse_nested {A} (m : list Z) (nest : Z) (cb : Z -> A -> option (Z * A)) (st : A) : option (Z * A) :=
  match attr_plen m nest with
  | Some n => attr_loop m cb (S (length m)) (payload nest) (payload nest + n) CB_OK st
  | None => None
  end.

(** errno values (Linux). *)
Definition EINTR : Z := 4.
Definition EPROTO : Z := 71.
Definition ESRCH : Z := 3.
Definition EBADMSG : Z := 74.
Definition ERANGE : Z := 34.
Definition EINVAL : Z := 22.
Definition ENAMETOOLONG : Z := 36.

(** src/netlink.h:180-252 mnl_attr_validate, for the types used: MNL_TYPE_U8/U16/U32/U64 have an exact length [n];
    MNL_TYPE_STRING (n = 0) must not be empty.  Returns success and the new errno. *)
Definition validate_len (plen n errno : Z) : bool * Z :=
  if plen =? n then (true, errno) else (false, ERANGE).
Definition validate_string (plen errno : Z) : bool * Z :=
  if plen =? 0 then (false, ERANGE) else (true, errno).

(** src/netlink.h:116-121 mnl_nlmsg_ok, with int [n]. *)
Definition nlmsg_ok (m : list Z) (pos n : Z) : option bool :=
  if 16 <=? n then
    match rd_le m pos 4 with
    | Some l => Some ((16 <=? l) && (s32 l <=? n))
    | None => None
    end
  else Some false.

(** src/netlink.h:390-471,647-685 __mnl_cb_run with mnlg_cb_array (mnlg_cb_noop, mnlg_cb_error, mnlg_cb_stop): the state is errno and
    the callback's data.  [cb] is None for a NULL callback.  NLM_F_MULTI is 2 and NLM_F_DUMP_INTR is 16; message
    types: NOOP 1, ERROR 2, DONE 3, OVERRUN 4, data from 16 on; 0 has no entry in mnlg_cb_array; 5..15 fall to default_cb_array, which has
    no entry for them. *)
Definition ctl_errno (e : Z) : Z := if e <? 0 then - e else e.
Definition s32_at (m : list Z) (off : Z) : option Z :=
  match rd_le m off 4 with Some v => Some (s32 v) | None => None end.

Definition run_ctl {A} (m : list Z) (nlh type flags mlen : Z) (st : Z * A) : option (Z * (Z * A)) :=
  if type =? 2 then
    if mlen <? 36 then Some (CB_ERROR, (EBADMSG, snd st))
    else match s32_at m (nlh + 16) with
         | Some e => Some (if e =? 0 then CB_STOP else CB_ERROR, (ctl_errno e, snd st))
         | None => None
         end
  else if type =? 3 then
    if Z.testbit flags 1 && (mlen =? 20) then
      match s32_at m (nlh + 16) with
      | Some e => Some (if e =? 0 then CB_STOP else CB_ERROR, (ctl_errno e, snd st))
      | None => None
      end
    else Some (CB_STOP, st)
  else Some (CB_OK, st).      (* NOOP, OVERRUN *)

Fixpoint cb_run {A} (m : list Z) (seq portid : Z) (cb : option (Z -> Z * A -> option (Z * (Z * A))))
    (fuel : nat) (pos n ret : Z) (st : Z * A) : option (Z * (Z * A)) :=
  match fuel with
  | O => None
  | S f =>
      match nlmsg_ok m pos n with
      | None => None
      | Some false => Some (ret, st)
      | Some true =>
          match rd_le m pos 4, rd_le m (pos + 4) 2, rd_le m (pos + 6) 2, rd_le m (pos + 8) 4, rd_le m (pos + 12) 4 with
          | Some l, Some type, Some flags, Some mseq, Some mpid =>
              if negb (mpid =? 0) && negb (portid =? 0) && negb (mpid =? portid) then Some (CB_ERROR, (ESRCH, snd st))
              else if negb (mseq =? 0) && negb (seq =? 0) && negb (mseq =? seq) then Some (CB_ERROR, (EPROTO, snd st))
              else if Z.testbit flags 4 then Some (CB_ERROR, (EINTR, snd st))
              else
                match (if 16 <=? type then
                         match cb with Some g => g pos st | None => Some (ret, st) end
                       else if (1 <=? type) && (type <=? 4) then run_ctl m pos type flags l st
                       else Some (ret, st)) with
                | None => None
                | Some (r, st') =>
                    (* an entry that was not called leaves ret and goes on *)
                    let called := if 16 <=? type then match cb with Some _ => true | None => false end
                                  else (1 <=? type) && (type <=? 4) in
                    if called && (r <=? CB_STOP) then Some (r, st')
                    else cb_run m seq portid cb f (pos + align32 l) (s32 (n - align32 l)) r st'
                end
          | _, _, _, _, _ => None
          end
      end
  end.

(** A socket's replies: a datagram, or recvmsg failing (or reporting truncation) with an errno. *)
Inductive recv := Dgram (d : list Z) | RecvErr (errno : Z).

(** src/netlink.h:688-702 mnlg_socket_recv_run.  [buf] is the socket buffer, B bytes of earlier contents; a datagram of
    up to B bytes overwrites its beginning (recvmsg never writes more than the buffer; longer ones are RecvErr
    ENOSPC).  An empty datagram ends the loop with 0.  [None] also when the replies run out (the call would block).
    Returns the result, errno and data, the buffer and the remaining replies. *)
Definition overwrite (buf d : list Z) : list Z := d ++ skipn (length d) buf.

Fixpoint recv_run {A} (seq portid : Z) (cb : option (list Z -> Z -> Z * A -> option (Z * (Z * A)))) (buf : list Z)
    (rs : list recv) (st : Z * A) : option (Z * (Z * A) * list Z * list recv) :=
  match rs with
  | [] => None
  | RecvErr e :: rs' => Some (CB_ERROR, (e, snd st), buf, rs')
  | Dgram d :: rs' =>
      match d with
      | [] => Some (0, st, buf, rs')
      | _ =>
          let m := overwrite buf d in
          let g := match cb with Some f => Some (f m) | None => None end in
          match cb_run m seq portid g (S (length m)) 0 (len d) CB_OK st with
          | None => None
          | Some (r, st') => if r <=? 0 then Some (r, st', m, rs') else recv_run seq portid cb m rs' st'
          end
      end
  end.
