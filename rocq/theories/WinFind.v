(** Model of src/wincompat/include/hashtable.h, kernel_get_wireguard_interfaces and kernel_interface_handle of src/ipc-windows.h, and src/ipc-uapi-windows.h.
    [None] in a result: an access outside of a buffer. *)
From Coq Require Import String ZArith List Bool.
From Verif Require Import Base Types NlSpec Ipc Fields Obsd Win WinFindSpec.
Import ListNotations.
Open Scope Z_scope.

(** ** src/wincompat/include/hashtable.h: 1024 chains of entries; [table V]: the chain of each bucket.  A pointer to an entry: its bucket and its place in the chain. *)
Definition table (V : Type) := Z -> list (list Z * V).
Definition table0 {V} : table V := fun _ => [].
Definition s8 (c : Z) : Z := if c <? 128 then c else c - 256.

(** hashtable.h:23-30; unsigned long has 32 bits, char is signed *)
Definition hashtable_bucket (s : list Z) : Z := Z.land (fold_left (fun h c => Z.lxor (u32 (u32 (h * 32) + h)) (u32 (s8 c))) s 5381) 1023.

Fixpoint chain_find {V} (l : list (list Z * V)) (key : list Z) (i : nat) : option nat :=
  match l with [] => None | e :: l' => if beq (fst e) key then Some i else chain_find l' key (S i) end.

(** hashtable.h:32-40 *)
Definition hashtable_find_entry {V} (t : table V) (key : list Z) : option (Z * nat) :=
  let b := hashtable_bucket key in match chain_find (t b) key 0 with Some i => Some (b, i) | None => None end.

(** hashtable.h:42-60; [mem]: both allocations succeed (the value of a new entry, [null], is zeroed memory) *)
Definition hashtable_find_or_insert_entry {V} (null : V) (t : table V) (key : list Z) (mem : bool) : option (Z * nat) * table V :=
  let b := hashtable_bucket key in
  match chain_find (t b) key 0 with
  | Some i => (Some (b, i), t)
  | None => if mem then (Some (b, length (t b)), fun c => if c =? b then t b ++ [(key, null)] else t c) else (None, t)
  end.

(** entry->value, and an assignment to it *)
Definition entry_value {V} (t : table V) (p : Z * nat) : option V := match nth_error (t (fst p)) (snd p) with Some e => Some (snd e) | None => None end.
Definition set_value {V} (t : table V) (p : Z * nat) (v : V) : table V :=
  fun c => if c =? fst p then match nth_error (t c) (snd p) with Some e => firstn (snd p) (t c) ++ (fst e, v) :: skipn (S (snd p)) (t c) | None => t c end else t c.

(** ** The name of a device: src/ipc-windows.h:50-69 and 154-173.  adapter_name is a buffer of MAX_ADAPTER_NAME = 128 units, uninitialised beyond the property ([junk]); its last unit is
    set to L'0', which is 48, not 0. *)
Definition adapter_name (u : list Z) (junk : Z -> Z) : list Z := firstn 127 (u ++ map junk (zrange 0 128)) ++ [48].
Inductive named := Skip | Name (n : list Z).
Definition device_name (utf8 : list Z -> option (list Z)) (junk : Z -> Z) (d : wdev) : option named :=
  if negb (v_enum d) then Some Skip
  else match v_prop d with
  | None => Some Skip
  | Some u =>
      let a := adapter_name u junk in
      if nth 0 a 0 =? 0 then Some Skip
      else if negb (existsb (Z.eqb 0) a) then None           (* WideCharToMultiByte(..., -1, ...) does not find the end *)
      else match utf8 (until_nul a) with
           | None => Some Skip
           | Some n => if v_conv d then Some (Name n) else Some Skip
           end
  end.

(** src/ipc-windows.h:24-94 kernel_get_wireguard_interfaces.  [devs]: None if SetupDiGetClassDevsExW() fails.  Result: return value, list, have_cached_kernel_interfaces,
    cached_kernel_interfaces (values: an instance ID or null). *)
Fixpoint klist (utf8 : list Z -> option (list Z)) (junk : Z -> Z) (hp : heap) (devs : list wdev) (l : slist) (t : table (option (list Z))) : option (slist * table (option (list Z))) :=
  match devs with
  | [] => Some (l, t)
  | d :: rest =>
      match device_name utf8 junk d with
      | None => None
      | Some Skip => klist utf8 junk hp rest l t
      | Some (Name n) =>
          let* (_, l) := (if v_running d then string_list_add hp l n else Some (0, l)) in
          let (p, t) := hashtable_find_or_insert_entry None t n (v_entry d) in
          let t := match p with
                   | None => t
                   | Some p => match v_id d with IdNone => t | IdNull => set_value t p None | IdIs id => set_value t p (Some id) end
                   end in
          klist utf8 junk hp rest l t
      end
  end.
Definition kernel_get_wireguard_interfaces utf8 junk hp (devs : option (list wdev)) (l : slist) (cached : bool) t : option (Z * slist * bool * table (option (list Z))) :=
  match devs with
  | None => Some (- EACCES, l, cached, t)
  | Some ds => let* (l, t) := klist utf8 junk hp ds l t in Some (0, l, true, t)
  end.

(** src/ipc-windows.h:96-213 kernel_interface_handle.  [ifs]: CM_Get_Device_Interface_List(_Size); [open]: CreateFileW; [errno] before the call.  Result: a handle, or errno. *)
Fixpoint ksearch (utf8 : list Z -> option (list Z)) (junk : Z -> Z) (ifs : option (list Z) -> option (list Z)) (iface : list Z) (devs : list wdev) : option (option (list Z)) :=
  match devs with
  | [] => Some None
  | d :: rest =>
      match device_name utf8 junk d with
      | None => None
      | Some Skip => ksearch utf8 junk ifs iface rest
      | Some (Name n) =>
          if negb (beq n iface) then ksearch utf8 junk ifs iface rest
          else match v_id d with
               | IdIs id => match ifs (Some id) with
                            | Some (c :: p) => Some (Some (c :: p))
                            | _ => ksearch utf8 junk ifs iface rest
                            end
               | _ => ksearch utf8 junk ifs iface rest
               end
      end
  end.
Definition kernel_interface_handle {H} utf8 junk (cached : bool) (t : table (option (list Z))) (devs : option (list wdev)) ifs (open : list Z -> option H) (errno : Z) (iface : list Z)
  : option (H + Z) :=
  let opened p := match open p with Some h => inl h | None => inr EACCES end in
  match (if cached then hashtable_find_entry t iface else None) with
  | Some p =>
      match entry_value t p with
      | None => None
      | Some id => match ifs id with Some (c :: q) => Some (opened (c :: q)) | _ => Some (inr EACCES) end
      end
  | None =>
      match devs with
      | None => Some (inr errno)
      | Some ds =>
          match ksearch utf8 junk ifs iface ds with
          | None => None
          | Some None => Some (inr ENOENT)
          | Some (Some p) => Some (opened p)
          end
      end
  end.

(** ** src/ipc-uapi-windows.h *)
Definition EIO : Z := 5.

(** src/ipc-uapi-windows.h:15-51 userspace_interface_file.  [sid]: CreateWellKnownSid() works; [pipe name]: None if it cannot be opened, else its owner (None: cannot be asked);
    [fd]: errno of a failing _open_osfhandle(); [file]: _fdopen() succeeds, or errno.  snprintf() writes at most 259 bytes.
    Result: success or errno, the name opened, handles left open. *)
Definition win_interface_file (sid : bool) (pipe : list Z -> option (option (list Z))) (fd : option Z) (file : option Z) (iface : list Z) : (unit + Z) * option (list Z) * nat :=
  if negb sid then (inr EACCES, None, 0%nat)
  else
    let fname := firstn 259 (pipe_dir ++ pipe_prefix ++ iface) in
    match pipe fname with
    | None => (inr EACCES, None, 0%nat)
    | Some None => (inr EACCES, Some fname, 0%nat)
    | Some (Some owner) =>
        if negb (beq local_system owner) then (inr EACCES, Some fname, 0%nat)
        else match fd with
             | Some e => (inr e, Some fname, 0%nat)
             | None => match file with Some e => (inr e, Some fname, 1%nat) | None => (inl tt, Some fname, 1%nat) end
             end
    end.

(** src/ipc-uapi-windows.h:56-79 userspace_has_wireguard_interface; [pipes]: the names FindFirstFile() and FindNextFile() give; None: an error, "return -EIO" from a bool function *)
Definition win_has_interface (cached : bool) (t : table unit) (pipes : option (list (list Z))) (iface : list Z) : bool :=
  if cached then match hashtable_find_entry t iface with Some _ => true | None => false end
  else match pipes with
       | None => negb (- EIO =? 0)
       | Some ns => existsb (beq (firstn 259 (pipe_prefix ++ iface))) ns
       end.

(** src/ipc-uapi-windows.h:81-108 userspace_get_wireguard_interfaces; [mem n]: memory for the entry of n *)
Fixpoint wlist (hp : heap) (mem : list Z -> bool) (names : list (list Z)) (l : slist) (t : table unit) (ret : Z) : option (Z * slist * table unit * bool) :=
  match names with
  | [] => Some (ret, l, t, true)
  | n :: rest =>
      if negb (beq (firstn (length pipe_prefix) n) pipe_prefix) then wlist hp mem rest l t ret
      else
        let iface := skipn (length pipe_prefix) n in
        let* (ret, l) := string_list_add hp l iface in
        if ret <? 0 then Some (ret, l, t, false)
        else match hashtable_find_or_insert_entry tt t iface (mem iface) with
             | (None, t) => Some (- ENOMEM, l, t, false)
             | (Some _, t) => wlist hp mem rest l t ret
             end
  end.
Definition win_get_interfaces (hp : heap) (mem : list Z -> bool) (pipes : option (list (list Z))) (l : slist) (cached : bool) (t : table unit) : option (Z * slist * table unit * bool) :=
  match pipes with
  | None => Some (- EIO, l, t, cached)
  | Some ns => let* (r, l, t, done) := wlist hp mem ns l t 0 in Some (r, l, t, done || cached)
  end.
