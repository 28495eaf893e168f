(** Specification: the devices of WireGuardNT as the Windows setup API presents them, and the pipes of the userspace implementation. *)
From Coq Require Import String ZArith List Bool.
From Verif Require Import Base NlSpec.
Import ListNotations.
Open Scope Z_scope.

(** What the system answers about one device, in the order of the questions: whether it can be enumerated; the property with its name (UTF-16 units with their terminator;
    None: there is none, it is of another type or does not fit into 256 bytes); whether the converted name can be had ([v_conv]: memory); whether it is running; whether there
    is memory for its entry in a table; its instance ID. *)
Inductive id_answer := IdNone | IdNull | IdIs (id : list Z).   (* the size is not answered; no memory or no answer; the ID *)
Record wdev := mk_wdev { v_enum : bool; v_prop : option (list Z); v_conv : bool; v_running : bool; v_entry : bool; v_id : id_answer }.

(** Properties of type DEVPROP_TYPE_STRING are terminated.  Names have at most 126 units here (longer ones: see C58_long_name_refuted). *)
Definition proper (d : wdev) : Prop := match v_prop d with None => True | Some u => exists w, u = w ++ [0] /\ ~ In 0 w /\ len w <= 126 end.

(** The name of a device: its property, without the terminator, in UTF-8 ([utf8]: the conversion, which may fail). *)
Definition dev_name (utf8 : list Z -> option (list Z)) (d : wdev) : option (list Z) :=
  if v_enum d && v_conv d then match v_prop d with Some u => match removelast u with [] => None | w => utf8 w end | None => None end else None.
Definition running_names (utf8 : list Z -> option (list Z)) (ds : list wdev) : list (list Z) :=
  flat_map (fun d => match dev_name utf8 d with Some n => if v_running d then [n] else [] | None => [] end) ds.
Definition utf8_ok (utf8 : list Z -> option (list Z)) : Prop := forall w n, ~ In 0 w -> w <> [] -> utf8 w = Some n -> n <> [] /\ ~ In 0 n /\ len n < 2 ^ 62.

(** [ifs (Some id)]: the first network interface (a path) of the device with this ID; [] if it has none; None: an error.  [ifs None]: of any device. *)
Definition leads (utf8 : list Z -> option (list Z)) (ifs : option (list Z) -> option (list Z)) (iface : list Z) (d : wdev) (p : list Z) : Prop :=
  dev_name utf8 d = Some iface /\ p <> [] /\ exists id, v_id d = IdIs id /\ ifs (Some id) = Some p.

(** A finite map, and the history of a table: it starts out empty; a key is looked up, or inserted if there is memory; a value is stored in the entry just found. *)
Definition upd {V} (m : list Z -> option V) (k : list Z) (v : V) : list Z -> option V := fun k' => if beq k' k then Some v else m k'.

Definition pipe_prefix : list Z := str "ProtectedPrefix\Administrators\WireGuard\".
Definition pipe_dir : list Z := str "\\.\pipe\".
(** S-1-5-18 *)
Definition local_system : list Z := [1; 1; 0; 0; 0; 0; 0; 5; 18; 0; 0; 0].
