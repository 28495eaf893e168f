(** Model of src/config.c. Allocation failures are not modelled. *)
From Coq Require Import String ZArith List Bool Lia.
From Verif Require Import Base Ctype Encoding Cstr Inet Types.
Import ListNotations.
Open Scope Z_scope.

(** What the parsers see of the platform and the world.
    - [e_sg]: plain char is signed;  [e_ulmax]: ULONG_MAX;
    - [e_port]: getaddrinfo(NULL, service) of src/config.c:55: the port of the first result if it is an
      IPv4 or IPv6 address, [None] on any failure (config.c:55-69);
    - [e_resolve]: final outcome of the look-up loop of src/config.c:240-279 for (host, port), see Endpoint.v;
      [None] on failure;
    - [e_file]: contents of a file given by path: [None] if it cannot be opened. *)
Inductive file_state :=
| FNoOpen                                        (* fopen fails *)
| FFile (contents : list Z) (seekable : bool) (read_error : bool).

Record env := mk_env {
  e_sg : bool;
  e_ulmax : Z;
  e_port : list Z -> option Z;
  e_resolve : list Z -> list Z -> option endpoint;
  e_file : list Z -> file_state
}.

(** src/config.c:25-37 [get_value]. *)
Definition get_value (line key : list Z) : option (list Z) :=
  if Nat.leb (length line) (length key) then None
  else if ci_eq (firstn (length key) line) key then Some (skipn (length key) line)
  else None.

Section Parse.
Variable e : env.

(** First character of a C string as an int ('\0' at the end). *)
Definition first_char (s : list Z) : Z := match s with [] => 0 | c :: _ => char_val (e_sg e) c end.

(** src/config.c:39-75 [parse_port]. *)
Definition parse_port (value : list Z) : option Z :=
  match value with [] => None | _ => e_port e value end.

(** src/config.c:77-105 [parse_fwmark]. *)
Definition parse_fwmark (value : list Z) : option Z :=
  if ci_eq value (str "off") then Some 0
  else if negb (char_is_digit (first_char value)) then None
  else
    let base := match value with
                | 48 :: 120 :: _ :: _ => 16        (* strlen > 2, "0x" *)
                | _ => 10
                end in
    let '(ret, rest) := strtoul (e_ulmax e) base value in
    match rest with
    | [] => if 0xffffffff <? ret then None else Some ret
    | _ => None
    end.

(** src/config.c:107-115 [parse_key]. *)
Definition parse_key (value : list Z) : option (list Z) := key_from_base64 (e_sg e) value.

(** src/config.c:117-158 [parse_keyfile]. The first 44 bytes go to a NUL-terminated buffer, so a NUL byte
    inside ends the string handed to [parse_key]. *)
Definition cstring (l : list Z) : list Z :=
  match split_first 0 l with Some (a, _) => a | None => l end.

Definition parse_keyfile (path : list Z) : option (list Z) :=
  match e_file e path with
  | FNoOpen => None
  | FFile contents seekable err =>
      if Nat.ltb (length contents) 44 then
        (* short read: end of file, or a read error *)
        if negb err && Nat.eqb (length contents) 0 && seekable then Some zero_key else None
      else
        let rest := skipn 44 contents in
        if negb (forallb char_is_space rest) then None
        else if err then None
        else parse_key (cstring (firstn 44 contents))
  end.

(** src/config.c:160-175 [parse_ip]: family and address bytes. *)
Definition parse_ip (value : list Z) : option (Z * list Z) :=
  if has_char 58 value then
    match inet_pton6 value with Some a => Some (AF_INET6, a) | None => None end
  else
    match inet_pton4 value with Some a => Some (AF_INET, a) | None => None end.

(** src/config.c:206-238: the syntactic part of [parse_endpoint]: host and port strings. *)
Definition split_endpoint (value : list Z) : option (list Z * list Z) :=
  match value with
  | [] => None
  | 91 :: t =>                                         (* '[' *)
      match split_first 93 value with                  (* strchr(mutable, ']') *)
      | None => None
      | Some (a, b) =>
          match b with
          | 58 :: c :: p => Some (tl a, c :: p)        (* "]:" then non-empty port *)
          | _ => None
          end
      end
  | _ =>
      match split_last 58 value with
      | None => None
      | Some (a, b) => match b with [] => None | _ => Some (a, b) end
      end
  end.

(** src/config.c:195-280 [parse_endpoint]. *)
Definition parse_endpoint (value : list Z) : option endpoint :=
  match split_endpoint value with
  | None => None
  | Some (host, port) => e_resolve e host port
  end.

(** src/config.c:282-306 [parse_persistent_keepalive]. *)
Definition parse_keepalive (value : list Z) : option Z :=
  if ci_eq value (str "off") then Some 0
  else if negb (char_is_digit (first_char value)) then None
  else
    let '(ret, rest) := strtoul (e_ulmax e) 10 value in
    match rest with
    | [] => if 65535 <? ret then None else Some ret
    | _ => None
    end.

(** src/config.c:308-338 [validate_netmask]. Words are in host order, as after ntohl. *)
Fixpoint ip_words (b : list Z) : list Z :=
  match b with
  | b0 :: b1 :: b2 :: b3 :: b' => (b0 * 16777216 + b1 * 65536 + b2 * 256 + b3) :: ip_words b'
  | _ => []
  end.

(** the loop, from index [i] (counting down) *)
Fixpoint netmask_loop (cidr : Z) (ws : list Z) (i : nat) : bool :=
  let iz := Z.of_nat i in
  if 32 * (iz + 1) <=? cidr then true
  else
    let mask := if 32 * iz <? cidr then Z.shiftr 0xffffffff (cidr - 32 * iz) else 0xffffffff in
    if negb (Z.land (nth i ws 0) mask =? 0) then false
    else match i with O => true | S j => netmask_loop cidr ws j end.

Definition validate_netmask (a : allowedip) : bool :=
  if a_family a =? AF_INET then netmask_loop (a_cidr a) (ip_words (a_ip a)) 0
  else if a_family a =? AF_INET6 then netmask_loop (a_cidr a) (ip_words (a_ip a)) 3
  else true.

(** Outcome of one AllowedIPs entry: the allowed IP, and the text after '/' if a warning is printed for it.
    [Some None] as the warning means that the C would print a NULL mask. *)
Definition split_mask (entry : list Z) : list Z * option (list Z) :=
  match split_first 47 entry with Some (ip, m) => (ip, Some m) | None => (entry, None) end.

(** src/config.c:359-392: one entry. *)
Definition parse_aip (entry : list Z) : option (allowedip * option (option (list Z))) :=
  let '(ip, mask) := split_mask entry in
  match parse_ip ip with
  | None => None
  | Some (fam, addr) =>
      let cidr :=
        match mask with
        | Some m =>
            if negb (char_is_digit (first_char m)) then None
            else
              let '(c, rest) := strtoul (e_ulmax e) 10 m in
              match rest with
              | [] => if ((32 <? c) && (fam =? AF_INET)) || ((128 <? c) && (fam =? AF_INET6)) then None else Some c
              | _ => None
              end
        | None => if fam =? AF_INET then Some 32 else if fam =? AF_INET6 then Some 128 else None
        end in
      match cidr with
      | None => None
      | Some c =>
          let a := mk_aip fam addr (u8 c) in
          Some (a, if validate_netmask a then None else Some mask)
      end
  end.

(** src/config.c:355-400: the loop over entries. *)
Fixpoint parse_aip_list (entries : list (list Z)) : option (list allowedip) :=
  match entries with
  | [] => Some []
  | x :: l =>
      match parse_aip x with
      | None => None
      | Some (a, _) =>
          match parse_aip_list l with
          | None => None
          | Some r => Some (a :: r)
          end
      end
  end.

(** src/config.c:340-411 [parse_allowedips]: the new entries are linked after the last one. *)
Definition parse_allowedips (p : peer) (value : list Z) : option peer :=
  let p1 := set_replace_aips true p in
  match value with
  | [] => Some p1
  | _ => match parse_aip_list (split_all 44 value) with
         | None => None
         | Some l => Some (set_aips (p_aips p1 ++ l) p1)
         end
  end.

(** src/config.h:15-20 [struct config_ctx].  [c_dev] has the peers before the last one; [c_cur] is the last
    peer ([ctx->last_peer]); [ctx->last_allowedip] is the last element of its list (or NULL). *)
Inductive section := SecNone | SecInterface | SecPeer.
Record ctx := mk_ctx { c_dev : device; c_cur : option peer; c_sec : section }.

Definition flush (c : ctx) : device :=
  match c_cur c with
  | None => c_dev c
  | Some p => set_peers (d_peers (c_dev c) ++ [p]) (c_dev c)
  end.

(** src/config.c:517-528 [config_read_init]. *)
Definition config_read_init (append : bool) : ctx :=
  mk_ctx (if append then device0
          else mk_device [] 0 true true false true true zero_key zero_key 0 0 [])
         None SecNone.

Definition key_match (line : list Z) (key : string) : option (list Z) := get_value line (str key).

(** src/config.c:444-454: a line in an [Interface] section. *)
Definition process_device_line (line : list Z) (d : device) : option device :=
  match key_match line "ListenPort=" with
  | Some v => option_map (fun x => set_port x d) (parse_port v)
  | None =>
  match key_match line "FwMark=" with
  | Some v => option_map (fun x => set_fwmark x d) (parse_fwmark v)
  | None =>
  match key_match line "PrivateKey=" with
  | Some v => option_map (fun x => set_priv x d) (parse_key v)
  | None => None
  end end end.

(** src/config.c:455-471: a line in a [Peer] section. *)
Definition process_peer_line (line : list Z) (p : peer) : option peer :=
  match key_match line "Endpoint=" with
  | Some v => option_map (fun x => set_endpoint x p) (parse_endpoint v)
  | None =>
  match key_match line "PublicKey=" with
  | Some v => option_map (fun x => set_pub x p) (parse_key v)
  | None =>
  match key_match line "AllowedIPs=" with
  | Some v => parse_allowedips p v
  | None =>
  match key_match line "PersistentKeepalive=" with
  | Some v => option_map (fun x => set_ka x p) (parse_keepalive v)
  | None =>
  match key_match line "PresharedKey=" with
  | Some v => option_map (fun x => set_psk x p) (parse_key v)
  | None => None
  end end end end end.

(** src/config.c:413-481 [process_line]. *)
Definition process_line (c : ctx) (line : list Z) : option ctx :=
  if ci_eq line (str "[Interface]") then Some (mk_ctx (c_dev c) (c_cur c) SecInterface)
  else if ci_eq line (str "[Peer]") then
    Some (mk_ctx (flush c) (Some (set_replace_aips true peer0)) SecPeer)
  else
    match c_sec c with
    | SecInterface =>
        match process_device_line line (c_dev c) with
        | Some d => Some (mk_ctx d (c_cur c) SecInterface)
        | None => None
        end
    | SecPeer =>
        match c_cur c with
        | Some p => match process_peer_line line p with
                    | Some p' => Some (mk_ctx (c_dev c) (Some p') SecPeer)
                    | None => None
                    end
        | None => None                      (* unreachable: a peer section always has a current peer *)
        end
    | SecNone => None
    end.

(** src/config.c:490-506: cut at '#', drop white space. *)
Definition clean_line (input : list Z) : list Z :=
  let cut := match split_first 35 input with Some (a, _) => a | None => input end in
  filter (fun c => negb (char_is_space (char_val (e_sg e) c))) cut.

(** src/config.c:483-515 [config_read_line]. [None]: failure, the device has been freed. *)
Definition config_read_line (c : ctx) (input : list Z) : option ctx :=
  match clean_line input with
  | [] => Some c
  | line => process_line c line
  end.

(** src/config.c:530-544 [config_read_finish]. *)
Definition config_read_finish (c : ctx) : option device :=
  if forallb p_has_pub (d_peers (flush c)) then Some (flush c) else None.

(** src/setconf.c:119-130: the whole file, as the list of lines getline(3) delivers (each is a C string:
    it ends at the first NUL, if any). *)
Fixpoint read_lines (c : ctx) (lines : list (list Z)) : option ctx :=
  match lines with
  | [] => Some c
  | l :: ls => match config_read_line c l with
               | None => None
               | Some c' => read_lines c' ls
               end
  end.

Definition read_config (append : bool) (lines : list (list Z)) : option device :=
  match read_lines (config_read_init append) (map cstring lines) with
  | None => None
  | Some c => config_read_finish c
  end.

(** src/config.c:546-562 [strip_spaces]. *)
Definition strip_spaces (s : list Z) : list Z :=
  filter (fun c => negb (char_is_space (char_val (e_sg e) c))) s.

(** src/config.c:564-650 [config_read_cmd]: the loop. [cur] is the C variable [peer]; the peers before it are in
    [d_peers d]. *)
Definition is_arg (a : list Z) (s : string) : bool := beq a (str s).

Definition push_peer (d : device) (cur : option peer) : device :=
  match cur with None => d | Some p => set_peers (d_peers d ++ [p]) d end.

Fixpoint read_cmd (argv : list (list Z)) (d : device) (cur : option peer) : option device :=
  match argv with
  | [] => Some (push_peer d cur)
  | a :: rest =>
      match rest, cur with
      (* two-argument options of the device: only before the first peer *)
      | v :: rest', None =>
          if is_arg a "listen-port" then
            match parse_port v with Some x => read_cmd rest' (set_port x d) None | None => None end
          else if is_arg a "fwmark" then
            match parse_fwmark v with Some x => read_cmd rest' (set_fwmark x d) None | None => None end
          else if is_arg a "private-key" then
            match parse_keyfile v with Some x => read_cmd rest' (set_priv x d) None | None => None end
          else if is_arg a "peer" then
            match parse_key v with Some k => read_cmd rest' d (Some (set_pub k peer0)) | None => None end
          else None
      | v :: rest', Some p =>
          if is_arg a "peer" then
            match parse_key v with Some k => read_cmd rest' (push_peer d cur) (Some (set_pub k peer0)) | None => None end
          else if is_arg a "remove" then read_cmd rest d (Some (set_remove p))
          else if is_arg a "endpoint" then
            match parse_endpoint v with Some x => read_cmd rest' d (Some (set_endpoint x p)) | None => None end
          else if is_arg a "allowed-ips" then
            match parse_allowedips p (strip_spaces v) with Some p' => read_cmd rest' d (Some p') | None => None end
          else if is_arg a "persistent-keepalive" then
            match parse_keepalive v with Some x => read_cmd rest' d (Some (set_ka x p)) | None => None end
          else if is_arg a "preshared-key" then
            match parse_keyfile v with Some x => read_cmd rest' d (Some (set_psk x p)) | None => None end
          else None
      | [], Some p => if is_arg a "remove" then read_cmd rest d (Some (set_remove p)) else None
      | [], None => None
      end
  end.

Definition config_read_cmd (argv : list (list Z)) : option device := read_cmd argv device0 None.

End Parse.
