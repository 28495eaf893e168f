(** Model of src/wg-quick/android.c, part 2: parse_options (lines 1169-1272).

    The file is its bytes, without a NUL, and its mode.  malloc, strdup and the like succeed.  Not modelled: the wording of the messages. *)
From Coq Require Import String ZArith List Bool.
From Verif Require Import Base Cstr Quick Uapi.
Import ListNotations.
Open Scope Z_scope.

(** src/wg-quick/android.c:102-112 concat_and_free *)
Definition concat_and_free (orig : option (list Z)) (delim new_line : list Z) : option (list Z) :=
  Some (match orig with None => new_line | Some t => t ++ delim ++ new_line end).

(** What the pointers point to; None: NULL. *)
Record settings := mk_settings { s_config : option (list Z); s_mtu : Z; s_addrs : option (list Z); s_dnses : option (list Z);
  s_excluded : option (list Z); s_included : option (list Z) }.
Definition no_settings : settings := mk_settings None 0 None None None None.

(** src/wg-quick/android.c:1226-1230: the line without white space *)
Definition cleaned (line : list Z) : list Z := filter (fun c => negb (isspace c)) line.
(** src/wg-quick/android.c:1238-1252: !strncasecmp(clean, KEY, length of KEY) && j > [more]; [key] is in lower case *)
Definition keyed (key : string) (more : nat) (clean : list Z) : option (list Z) :=
  if beq (lowers (firstn (length (str key)) clean)) (str key) && (more <? length clean)%nat then Some (skipn (length (str key)) clean) else None.
(** atoi, as (int) strtol with a long of 64 bits, converted to unsigned int (src/wg-quick/android.c:1252) *)
Definition atoi_unsigned (s : list Z) : Z := u32 (fst (strtoll s)).

(** src/wg-quick/android.c:1232-1257, for one line *)
Definition in_section (sec : bool) (clean : list Z) : bool :=
  ci_eq clean (str "[Interface]") || (match clean with 91 :: _ => false | _ => sec end).
Definition take_line (sec : bool) (s : settings) (line : list Z) : settings :=
  let clean := cleaned line in
  let keep := mk_settings (concat_and_free (s_config s) [] line) (s_mtu s) (s_addrs s) (s_dnses s) (s_excluded s) (s_included s) in
  if negb sec then keep else
  match keyed "address=" 8 clean with
  | Some v => mk_settings (s_config s) (s_mtu s) (concat_and_free (s_addrs s) [44] v) (s_dnses s) (s_excluded s) (s_included s)
  | None =>
  match keyed "dns=" 4 clean with
  | Some v => mk_settings (s_config s) (s_mtu s) (s_addrs s) (concat_and_free (s_dnses s) [44] v) (s_excluded s) (s_included s)
  | None =>
  match keyed "excludedapplications=" 4 clean with
  | Some v => mk_settings (s_config s) (s_mtu s) (s_addrs s) (s_dnses s) (concat_and_free (s_excluded s) [44] v) (s_included s)
  | None =>
  match keyed "includedapplications=" 4 clean with
  | Some v => mk_settings (s_config s) (s_mtu s) (s_addrs s) (s_dnses s) (s_excluded s) (concat_and_free (s_included s) [44] v)
  | None =>
  match keyed "mtu=" 4 clean with
  | Some v => mk_settings (s_config s) (atoi_unsigned v) (s_addrs s) (s_dnses s) (s_excluded s) (s_included s)
  | None => keep
  end end end end end.
(** src/wg-quick/android.c:1262-1271: NULL becomes "" *)
Definition filled (s : settings) : settings :=
  let fill o := match o with None => Some [] | Some t => Some t end in
  mk_settings (fill (s_config s)) (s_mtu s) (fill (s_addrs s)) (fill (s_dnses s)) (s_excluded s) (s_included s).
(** src/wg-quick/android.c:1220-1271: the loop over the lines; a line of more than 65536 bytes makes the function return at once. *)
Fixpoint take_lines (sec : bool) (s : settings) (lines : list (list Z)) : settings :=
  match lines with
  | [] => filled s
  | l :: ls =>
      if 65536 <? Z.of_nat (length l) then s
      else let sec' := in_section sec (cleaned l) in take_lines sec' (take_line sec' s l) ls
  end.
Definition read_settings (text : list Z) : settings := take_lines false no_settings (getlines text).

(** src/wg-quick/android.c:1184-1185, 1208, 1217-1218: /?([a-zA-Z0-9_=+.-]{1,15})\.conf$ matches where leftmost, so the group is what precedes ".conf", but not more
    than 15 bytes and only from the last other byte on. *)
Definition dot_conf : list Z := str ".conf".
Fixpoint take_while (f : Z -> bool) (s : list Z) : list Z := match s with c :: s' => if f c then c :: take_while f s' else [] | [] => [] end.
Definition interface_of (filename : list Z) : option (list Z) :=
  let r := rev filename in
  if beq (firstn 5 r) (rev dot_conf) then
    match take_while name_char (skipn 5 r) with [] => None | run => Some (rev (firstn 15 run)) end
  else None.
(** src/wg-quick/android.c:1184: ^[a-zA-Z0-9_=+.-]{1,15}$ *)
Definition is_interface (arg : list Z) : bool := forallb name_char arg && negb (beq arg []) && (length arg <=? 15)%nat.

(** src/wg-quick/android.c:34 WG_CONFIG_SEARCH_PATHS *)
Definition search_paths : list (list Z) := [str "/data/misc/wireguard"; str "/data/data/com.wireguard.android/files"].
(** What fopen finds. *)
Record file := mk_file { f_mode : Z; f_text : list Z }.
Inductive parsed := Refused | Parsed (iface : list Z) (warned : bool) (s : settings).
Fixpoint first_file (fopen : list Z -> option file) (names : list (list Z)) : option (list Z * file) :=
  match names with
  | [] => None
  | n :: ns => match fopen n with Some f => Some (n, f) | None => first_file fopen ns end
  end.
(** src/wg-quick/android.c:1169-1272 *)
Definition parse_options (fopen : list Z -> option file) (arg : list Z) : parsed :=
  match (if is_interface arg then first_file fopen (map (fun p => p ++ 47 :: arg ++ dot_conf) search_paths) else first_file fopen [arg]) with
  | None => Refused
  | Some (filename, f) =>
      match interface_of filename with
      | None => Refused
      | Some iface => Parsed iface (negb (Z.land (f_mode f) 7 =? 0)) (read_settings (f_text f))
      end
  end.
