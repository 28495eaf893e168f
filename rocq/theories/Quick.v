(** Model of src/wg-quick/linux.bash, part 1: options (lines 40-82). *)
From Coq Require Import String ZArith List Bool.
From Verif Require Import Base Cstr Bash.
Import ListNotations.
Open Scope Z_scope.

(** src/wg-quick/linux.bash:14-25: the global variables [parse_options] fills. *)
Record options := mk_options {
  o_config : list Z;                 (* WG_CONFIG *)
  o_addresses : list (list Z);       (* ADDRESSES *)
  o_mtu : list Z;                    (* MTU *)
  o_dns : list (list Z);             (* DNS *)
  o_search : list (list Z);          (* DNS_SEARCH *)
  o_table : list Z;                  (* TABLE *)
  o_preup : list (list Z); o_postup : list (list Z);
  o_predown : list (list Z); o_postdown : list (list Z);
  o_save : bool                      (* SAVE_CONFIG *)
}.
Definition options0 : options := mk_options [] [] [] [] [] [] [] [] [] [] false.

Definition add_config l o := mk_options (o_config o ++ l ++ [10]) (o_addresses o) (o_mtu o) (o_dns o) (o_search o) (o_table o)
  (o_preup o) (o_postup o) (o_predown o) (o_postdown o) (o_save o).
Definition add_addresses ws o := mk_options (o_config o) (o_addresses o ++ ws) (o_mtu o) (o_dns o) (o_search o) (o_table o)
  (o_preup o) (o_postup o) (o_predown o) (o_postdown o) (o_save o).
Definition set_mtu v o := mk_options (o_config o) (o_addresses o) v (o_dns o) (o_search o) (o_table o)
  (o_preup o) (o_postup o) (o_predown o) (o_postdown o) (o_save o).
Definition add_dns ws o := mk_options (o_config o) (o_addresses o) (o_mtu o) (o_dns o ++ ws) (o_search o) (o_table o)
  (o_preup o) (o_postup o) (o_predown o) (o_postdown o) (o_save o).
Definition add_search ws o := mk_options (o_config o) (o_addresses o) (o_mtu o) (o_dns o) (o_search o ++ ws) (o_table o)
  (o_preup o) (o_postup o) (o_predown o) (o_postdown o) (o_save o).
Definition set_table v o := mk_options (o_config o) (o_addresses o) (o_mtu o) (o_dns o) (o_search o) v
  (o_preup o) (o_postup o) (o_predown o) (o_postdown o) (o_save o).
Definition add_preup v o := mk_options (o_config o) (o_addresses o) (o_mtu o) (o_dns o) (o_search o) (o_table o)
  (o_preup o ++ [v]) (o_postup o) (o_predown o) (o_postdown o) (o_save o).
Definition add_postup v o := mk_options (o_config o) (o_addresses o) (o_mtu o) (o_dns o) (o_search o) (o_table o)
  (o_preup o) (o_postup o ++ [v]) (o_predown o) (o_postdown o) (o_save o).
Definition add_predown v o := mk_options (o_config o) (o_addresses o) (o_mtu o) (o_dns o) (o_search o) (o_table o)
  (o_preup o) (o_postup o) (o_predown o ++ [v]) (o_postdown o) (o_save o).
Definition add_postdown v o := mk_options (o_config o) (o_addresses o) (o_mtu o) (o_dns o) (o_search o) (o_table o)
  (o_preup o) (o_postup o) (o_predown o) (o_postdown o ++ [v]) (o_save o).
Definition set_save b o := mk_options (o_config o) (o_addresses o) (o_mtu o) (o_dns o) (o_search o) (o_table o)
  (o_preup o) (o_postup o) (o_predown o) (o_postdown o) b.

Section Parse.
(** Pathname expansion of a word (bash replaces an unquoted word with glob characters by the names it matches, if any). *)
Variable glob : list Z -> list (list Z).

(** An unquoted expansion: word splitting, then pathname expansion. *)
Definition expand (s : list Z) : list (list Z) := flat_map glob (words s).

(** src/wg-quick/linux.bash:51-53: key and value of a line. *)
Definition line_key (line : list Z) : list Z := trim isspace (before 61 (before 35 line)).
Definition line_value (line : list Z) : list Z := trim isspace (after 61 (before 35 line)).

(** src/wg-quick/linux.bash:61: the regular expression (^[0-9.]+$)|(^.*:.*$) on a non-empty word. *)
Definition dns_address (v : list Z) : bool :=
  (forallb (fun c => ((48 <=? c) && (c <=? 57)) || (c =? 46)) v && negb (beq v [])) || has_char 58 v.
(** src/wg-quick/linux.bash:60-62: the loop over the words ([$v] is expanded once more when it is appended). *)
Definition dns_words (vs : list (list Z)) (o : options) : options :=
  fold_left (fun o v => if dns_address v then add_dns (expand v) o else add_search (expand v) o) vs o.

(** src/wg-quick/linux.bash:76-82 read_bool ([None]: die); called while nocasematch is set. *)
Definition read_bool (v : list Z) : option bool :=
  if ci_eq v (str "true") then Some true else if ci_eq v (str "false") then Some false else None.

(** src/wg-quick/linux.bash:54-55: [interface_section] after the two tests (nocasematch is set). *)
Definition section_after (sect : bool) (line : list Z) : bool :=
  let key := line_key line in
  let s1 := if starts_with [91] key then false else sect in
  if ci_eq key (str "[Interface]") then true else s1.

(** src/wg-quick/linux.bash:56-71: the case statement; the last branch is reached when no pattern matches ([None]: die). *)
Definition take_line (sect : bool) (line : list Z) (o : options) : option options :=
  let key := line_key line in
  let value := line_value line in
  let is k := ci_eq key (str k) in
  if sect then
    if is "Address"%string then Some (add_addresses (expand (map_char 44 32 value)) o)
    else if is "MTU"%string then Some (set_mtu value o)
    else if is "DNS"%string then Some (dns_words (expand (map_char 44 32 value)) o)
    else if is "Table"%string then Some (set_table value o)
    else if is "PreUp"%string then Some (add_preup value o)
    else if is "PreDown"%string then Some (add_predown value o)
    else if is "PostUp"%string then Some (add_postup value o)
    else if is "PostDown"%string then Some (add_postdown value o)
    else if is "SaveConfig"%string then match read_bool value with Some b => Some (set_save b o) | None => None end
    else Some (add_config line o)
  else Some (add_config line o).

(** src/wg-quick/linux.bash:50-72: the loop. *)
Fixpoint parse_loop (sect : bool) (lines : list (list Z)) (o : options) : option options :=
  match lines with
  | [] => Some o
  | line :: rest =>
      let s := section_after sect line in
      match take_line s line o with
      | None => None
      | Some o1 => parse_loop s rest o1
      end
  end.

(** src/wg-quick/linux.bash:40-74 parse_options, for a file with contents [text] ([None]: die). *)
Definition parse_options (text : list Z) : option options := parse_loop false (read_loop text) options0.
End Parse.

(** src/wg-quick/linux.bash:43 and 45: the characters of an interface name. *)
Definition name_char (c : Z) : bool :=
  ((97 <=? c) && (c <=? 122)) || ((65 <=? c) && (c <=? 90)) || ((48 <=? c) && (c <=? 57)) ||
  (c =? 95) || (c =? 61) || (c =? 43) || (c =? 46) || (c =? 45).
Definition is_name (s : list Z) : bool := forallb name_char s && (1 <=? length s)%nat && (length s <=? 15)%nat.
(** src/wg-quick/linux.bash:42-43: the file an argument stands for. *)
Definition config_path (arg : list Z) : list Z :=
  if is_name arg then str "/etc/wireguard/" ++ arg ++ str ".conf" else arg.
(** src/wg-quick/linux.bash:45 and 48: the interface name in a path: (^|/)([a-zA-Z0-9_=+.-]{1,15})\.conf$. *)
Definition interface_of (path : list Z) : option (list Z) :=
  let base := match split_last 47 path with Some (_, b) => b | None => path end in
  let n := (length base - 5)%nat in
  if beq (skipn n base) (str ".conf") && is_name (firstn n base) then Some (firstn n base) else None.

(** src/wg-quick/linux.bash:251 and 361: what [echo "$WG_CONFIG"] writes (the text is never one of echo's options: it is empty or ends
    with a newline). *)
Definition handed (o : options) : list Z := o_config o ++ [10].
