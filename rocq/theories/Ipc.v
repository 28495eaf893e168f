(** Model of src/ipc.c, of the interface listing of src/ipc-linux.h:30-140 and of the socket lookup of src/ipc-uapi-unix.h:20-119.
    [None] in a result of type [option]: undefined behaviour (an access outside an object), or the program would block for ever. *)
From Coq Require Import String ZArith List Bool.
From Verif Require Import Base Types Encoding Config NlSpec Nl.
Import ListNotations.
Open Scope Z_scope.

Definition ENOMEM : Z := 12.
Definition ENOENT : Z := 2.
Definition EBADF : Z := 9.
Definition ECONNREFUSED : Z := 111.

(** ** struct string_list (src/ipc.c:12-16): the block [buffer] points to ([] for NULL), len and cap. *)
Record slist := mk_slist { sl_block : list Z; sl_len : Z; sl_cap : Z }.
Definition slist0 : slist := mk_slist [] 0 0.

(** A store of [x] at offset [off] of a block: nothing outside the block may be written. *)
Definition store (b : list Z) (off : Z) (x : list Z) : option (list Z) :=
  if (0 <=? off) && (off + len x <=? len b)
  then Some (firstn (Z.to_nat off) b ++ x ++ skipn (Z.to_nat (off + len x)) b) else None.

(** realloc: what it answers may depend on anything; here on how full the list is and on the size.  [None]: failure; otherwise the bytes of
    the new block beyond the old one.  The old bytes are kept (as far as they fit). *)
Definition heap := Z -> Z -> option (Z -> Z).
Definition resize (b : list Z) (n : Z) (junk : Z -> Z) : list Z :=
  firstn (Z.to_nat n) b ++ map junk (zrange (len b) (Z.to_nat n - length b)).

(** src/ipc.c:18-41 string_list_add.  size_t arithmetic is modulo 2^64. *)
Definition string_list_add (hp : heap) (l : slist) (s : list Z) : option (Z * slist) :=
  let n := u64 (len s + 1) in
  if n =? 1 then Some (0, l)
  else
    let room :=
      if u64 (sl_cap l - sl_len l) <=? n then
        let c := u64 (sl_cap l * 2) in
        let c := if c <? u64 (sl_len l + n + 1) then u64 (sl_len l + n + 1) else c in
        match hp (sl_len l) c with
        | None => None
        | Some junk => Some (mk_slist (resize (sl_block l) c junk) (sl_len l) c)
        end
      else Some l in
    match room with
    | None => Some (- ENOMEM, l)
    | Some l1 =>
        match store (sl_block l1) (sl_len l1) (firstn (Z.to_nat n) (s ++ [0])) with
        | None => None
        | Some b =>
            let n1 := u64 (sl_len l1 + n) in
            match store b n1 [0] with None => None | Some b1 => Some (0, mk_slist b1 n1 (sl_cap l1)) end
        end
    end.

(** ** The kernel's interfaces *)

(** The C string at offset [pos] of memory [m]: what a reader up to the NUL sees. *)
Definition cstr_at (m : list Z) (pos : Z) : option (list Z) :=
  let r := skipn (Z.to_nat pos) m in
  if (0 <=? pos) && existsb (Z.eqb 0) r then Some (until_nul r) else None.
(** strcmp of a literal (without NUL bytes) with the memory at [pos]: reads up to the first difference. *)
Fixpoint strcmp_at (lit m : list Z) (pos : Z) : option bool :=
  match rd_le m pos 1 with
  | None => None
  | Some c =>
      match lit with
      | [] => Some (c =? 0)
      | x :: lit' => if c =? x then strcmp_at lit' m (pos + 1) else Some false
      end
  end.

(** src/ipc-linux.h:30-33 struct interface: name is NULL or points to a string ([Some r], [r] being what reading it yields). *)
Record interface := mk_interface { if_name : option (option (list Z)); if_wg : bool }.

(** src/ipc-linux.h:35-42 parse_linkinfo: IFLA_INFO_KIND is 1. *)
Definition parse_linkinfo (m : list Z) (pos : Z) (i : interface) : option (Z * interface) :=
  match attr_type m pos with
  | None => None
  | Some t =>
      if t =? 1 then
        match strcmp_at (str "wireguard") m (payload pos) with
        | None => None
        | Some true => Some (CB_OK, mk_interface (if_name i) true)
        | Some false => Some (CB_OK, i)
        end
      else Some (CB_OK, i)
  end.
(** src/ipc-linux.h:44-53 parse_infomsg: IFLA_LINKINFO is 18, IFLA_IFNAME is 3. *)
Definition parse_infomsg (m : list Z) (pos : Z) (i : interface) : option (Z * interface) :=
  match attr_type m pos with
  | None => None
  | Some t =>
      if t =? 18 then attr_parse_nested m pos (parse_linkinfo m) i
      else if t =? 3 then Some (CB_OK, mk_interface (Some (cstr_at m (payload pos))) (if_wg i))
      else Some (CB_OK, i)
  end.
(** src/ipc-linux.h:55-71 read_devices_cb: struct ifinfomsg has 16 bytes; NLMSG_DONE is 3.  The state is errno and the list. *)
Definition read_devices_cb (hp : heap) (m : list Z) (nlh : Z) (s : Z * slist) : option (Z * (Z * slist)) :=
  match attr_parse m nlh 16 (parse_infomsg m) (mk_interface None false) with
  | None => None
  | Some (ret, i) =>
      if negb (ret =? CB_OK) then Some (ret, s)
      else
        let added :=
          match if_name i with
          | Some name => if if_wg i then match name with None => None | Some n => string_list_add hp (snd s) n end
                         else Some (ret, snd s)
          | None => Some (ret, snd s)
          end in
        match added with
        | None => None
        | Some (ret, l) =>
            if ret <? 0 then Some (ret, (- ret, l))
            else match rd_le m (nlh + 4) 2 with
                 | None => None
                 | Some type => Some (if type =? 3 then CB_OK else CB_OK + 1, (fst s, l))
                 end
        end
  end.

(** src/netlink.h:390-484 mnl_cb_run: __mnl_cb_run with default_cb_array (see Nl.v's [cb_run]): a DONE message just stops. *)
Definition run_default {A} (m : list Z) (nlh type mlen : Z) (st : Z * A) : option (Z * (Z * A)) :=
  if type =? 2 then
    if mlen <? 36 then Some (CB_ERROR, (EBADMSG, snd st))
    else match s32_at m (nlh + 16) with
         | Some e => Some (if e =? 0 then CB_STOP else CB_ERROR, (ctl_errno e, snd st))
         | None => None
         end
  else if type =? 3 then Some (CB_STOP, st)
  else Some (CB_OK, st).      (* NOOP, OVERRUN *)

Fixpoint cb_run_default {A} (m : list Z) (seq portid : Z) (cb : Z -> Z * A -> option (Z * (Z * A)))
    (fuel : nat) (pos n ret : Z) (st : Z * A) : option (Z * (Z * A)) :=
  match fuel with
  | O => None
  | S f =>
      match nlmsg_ok m pos n with
      | None => None
      | Some false => Some (ret, st)
      | Some true =>
          match rd_le m pos 4, rd_le m (pos + 4) 2, rd_le m (pos + 6) 2, rd_le m (pos + 8) 4, rd_le m (pos + 12) 4 with
          | Some l, Some type, Some flags, Some mseq, Some mpid =>
              if negb (mpid =? 0) && negb (portid =? 0) && negb (mpid =? portid) then Some (CB_ERROR, (ESRCH, snd st))
              else if negb (mseq =? 0) && negb (seq =? 0) && negb (mseq =? seq) then Some (CB_ERROR, (EPROTO, snd st))
              else if Z.testbit flags 4 then Some (CB_ERROR, (EINTR, snd st))
              else
                let called := (16 <=? type) || ((1 <=? type) && (type <=? 4)) in
                match (if 16 <=? type then cb pos st
                       else if (1 <=? type) && (type <=? 4) then run_default m pos type l st
                       else Some (ret, st)) with
                | None => None
                | Some (r, st') =>
                    if called && (r <=? CB_STOP) then Some (r, st')
                    else cb_run_default m seq portid cb f (pos + align32 l) (s32 (n - align32 l)) r st'
                end
          | _, _, _, _, _ => None
          end
      end
  end.

(** src/ipc-linux.h:114-133: the loop from [another] on. [buf]: the buffer, whose beginning a datagram overwrites. *)
Fixpoint list_loop (hp : heap) (seq portid : Z) (buf : list Z) (rs : list recv) (st : Z * slist) : option (Z * slist) :=
  match rs with
  | [] => None
  | RecvErr e :: _ => Some (- e, snd st)
  | Dgram d :: rs' =>
      let m := overwrite buf d in
      match cb_run_default m seq portid (read_devices_cb hp m) (S (length m)) 0 (len d) CB_OK st with
      | None => None
      | Some (r, st') =>
          if (r <? 0) && negb (fst st' =? EINTR) then Some (- fst st', snd st')
          else if r =? CB_OK + 1 then list_loop hp seq portid m rs' st'
          else Some (0, snd st')
      end
  end.
(** src/ipc-linux.h:73-140 kernel_get_wireguard_interfaces: opening, binding or sending fails with an errno, or answers come. *)
Inductive kstart := KFail (errno : Z) | KDump (seq portid errno : Z) (buf : list Z) (rs : list recv).
Definition kernel_get_interfaces (hp : heap) (k : kstart) (l : slist) : option (Z * slist) :=
  match k with
  | KFail e => Some (- e, l)
  | KDump seq portid errno buf rs => list_loop hp seq portid buf rs (errno, l)
  end.

(** ** Userspace interfaces: sockets under SOCK_PATH *)

Definition SOCK_SUFFIX : list Z := str ".sock".
(** snprintf(addr.sun_path, 108, SOCK_PATH "%s" SOCK_SUFFIX, iface): cut after 107 bytes.  (src/ipc-uapi-unix.h:17,30,73) *)
Definition sock_path (dir iface : list Z) : list Z := firstn 107 (dir ++ iface ++ SOCK_SUFFIX).

(** The system calls made, with their results.  The system's answers may depend on everything that happened before. *)
Inductive stat_result := StatErr (errno : Z) | IsSocket | IsOther.
Inductive event :=
| EvStat (path : list Z) (r : stat_result)
| EvSocket (r : option Z)               (* None: a socket; Some e: failed *)
| EvConnect (path : list Z) (r : option Z)
| EvUnlink (path : list Z) (r : option Z)
| EvFdopen (r : option Z)
| EvClose.
Record os := mk_os {
  os_stat : list event -> list Z -> stat_result;
  os_socket : list event -> option Z;
  os_connect : list event -> list Z -> option Z;
  os_unlink : list event -> list Z -> option Z;
  os_fdopen : list event -> option Z
}.

Definition has_slash (s : list Z) : bool := existsb (Z.eqb 47) s.

(** src/ipc-uapi-unix.h:20-62 userspace_interface_file: the stream ([inl tt]) or an errno.  [h]: what happened so far.
    (snprintf does not fail.) *)
Definition interface_file (o : os) (dir iface : list Z) (h : list event) : (unit + Z) * list event :=
  if has_slash iface then (inr EINVAL, h)
  else
    let p := sock_path dir iface in
    let st := os_stat o h p in
    let h := h ++ [EvStat p st] in
    match st with
    | StatErr e => (inr e, h)
    | IsOther => (inr EBADF, h)
    | IsSocket =>
        let s := os_socket o h in
        let h := h ++ [EvSocket s] in
        match s with
        | Some e => (inr e, h)
        | None =>
            let c := os_connect o h p in
            let h := h ++ [EvConnect p c] in
            match c with
            | Some e =>
                if e =? ECONNREFUSED then
                  let u := os_unlink o h p in
                  let h := h ++ [EvUnlink p u] in
                  (inr (match u with Some e' => e' | None => e end), h ++ [EvClose])
                else (inr e, h ++ [EvClose])
            | None =>
                let f := os_fdopen o h in
                let h := h ++ [EvFdopen f] in
                match f with
                | Some e => (inr e, h ++ [EvClose])
                | None => (inl tt, h)
                end
            end
        end
    end.

(** src/ipc-uapi-unix.h:64-89 userspace_has_wireguard_interface *)
Definition has_interface (o : os) (dir iface : list Z) (h : list event) : bool * list event :=
  if has_slash iface then (false, h)
  else
    let p := sock_path dir iface in
    let st := os_stat o h p in
    let h := h ++ [EvStat p st] in
    match st with
    | StatErr _ => (false, h)
    | IsOther => (false, h)
    | IsSocket =>
        let s := os_socket o h in
        let h := h ++ [EvSocket s] in
        match s with
        | Some _ => (false, h)
        | None =>
            let c := os_connect o h p in
            let h := h ++ [EvConnect p c] in
            match c with
            | Some e =>
                if e =? ECONNREFUSED then
                  let h := h ++ [EvClose] in
                  let u := os_unlink o h p in
                  (false, h ++ [EvUnlink p u])
                else (true, h ++ [EvClose])
            | None => (true, h ++ [EvClose])
            end
        end
    end.

(** src/ipc-uapi-unix.h:100-109: the name in a directory entry, if it ends in ".sock" and has more than that. *)
Definition strip_suffix (ent : list Z) : option (list Z) :=
  if len ent <=? len SOCK_SUFFIX then None
  else let n := Z.to_nat (len ent - len SOCK_SUFFIX) in
       if beq (skipn n ent) SOCK_SUFFIX then Some (firstn n ent) else None.

(** src/ipc-uapi-unix.h:91-119 userspace_get_wireguard_interfaces. [inr e]: opendir failed. *)
Fixpoint entries_loop (hp : heap) (o : os) (dir : list Z) (ents : list (list Z)) (l : slist) (h : list event) : option (Z * slist * list event) :=
  match ents with
  | [] => Some (0, l, h)
  | ent :: rest =>
      match strip_suffix ent with
      | None => entries_loop hp o dir rest l h
      | Some name =>
          let '(yes, h1) := has_interface o dir name h in
          if negb yes then entries_loop hp o dir rest l h1
          else match string_list_add hp l name with
               | None => None
               | Some (ret, l1) => if ret <? 0 then Some (ret, l1, h1) else entries_loop hp o dir rest l1 h1
               end
      end
  end.
Definition userspace_get_interfaces (hp : heap) (o : os) (dir : list Z) (d : list (list Z) + Z) (l : slist) (h : list event) : option (Z * slist * list event) :=
  match d with
  | inr e => Some (if e =? ENOENT then 0 else - e, l, h)
  | inl ents => entries_loop hp o dir ents l h
  end.

(** ** src/ipc.c:55-76 ipc_list_devices: the block returned and the errno left, [None]: NULL.  strdup does not fail. *)
Definition ipc_list_devices (hp : heap) (o : os) (dir : list Z) (k : kstart) (d : list (list Z) + Z) (h : list event)
  : option (option (list Z) * Z * list event) :=
  let finish ret l h := Some (if ret =? 0 then (Some (match sl_block l with [] => [0] | b => b end), 0, h) else (None, - ret, h)) in
  match kernel_get_interfaces hp k slist0 with
  | None => None
  | Some (ret, l) =>
      if ret <? 0 then finish ret l h
      else match userspace_get_interfaces hp o dir d l h with
           | None => None
           | Some (ret, l, h) => finish ret l h
           end
  end.

(** src/ipc.c:78-98 ipc_get_device and ipc_set_device: which implementation serves an interface. *)
Definition dispatch {R} (o : os) (dir iface : list Z) (h : list event) (userspace kernel : list event -> R) : R :=
  let '(yes, h1) := has_interface o dir iface h in if yes then userspace h1 else kernel h1.
