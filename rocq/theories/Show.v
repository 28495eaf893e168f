(** Model of src/show.c.  What is printed on the standard error is not modelled. *)
From Coq Require Import String ZArith List Bool.
From Verif Require Import Base Encoding Cstr Inet Types Uapi Setconf Terminal.
Import ListNotations.
Open Scope Z_scope.

(** Conversion to a signed 64-bit type (time_t). *)
Definition s64 (z : Z) : Z := (z + 2 ^ 63) mod 2 ^ 64 - 2 ^ 63.

(** src/show.c:27-44 [peer_cmp].  (A difference that does not fit time_t is undefined behaviour; here it wraps.) *)
Definition peer_cmp (a b : peer) : Z :=
  let never p := (p_hs_sec p =? 0) && (p_hs_nsec p =? 0) in
  if never a && negb (never b) then 1
  else if never b && negb (never a) then -1
  else
    let diff := s64 (p_hs_sec a - p_hs_sec b) in
    let diff := if diff =? 0 then s64 (p_hs_nsec a - p_hs_nsec b) else diff in
    if diff <? 0 then 1 else if 0 <? diff then -1 else 0.

(** src/show.c:47-68 [sort_peers].  libc qsort sees the array only through the comparison function: [qsort] gets the results of all
    comparisons, and answers with the indices in their new order. *)
Definition sort_peers (qsort : list (list Z) -> list nat) (l : list peer) : list peer :=
  match l with
  | [] => []
  | _ => map (fun i => nth i l peer0) (qsort (map (fun a => map (peer_cmp a) l) l))
  end.

(** src/show.c:78-83 [maybe_key]. *)
Definition maybe_key (k : list Z) (have_it : bool) : list Z := if have_it then key_to_base64 k else str "(none)".
(** src/show.c:85-92 [masked_key]; [var] is getenv("WG_HIDE_KEYS"). *)
Definition masked_key (var : option (list Z)) (k : list Z) : list Z :=
  match var with
  | Some v => if beq v (str "never") then key_to_base64 k else str "(hidden)"
  | None => str "(hidden)"
  end.
(** src/show.c:94-104 [ip]. *)
Definition ip_str (a : allowedip) : list Z :=
  if a_family a =? AF_INET then inet_ntop4 (a_ip a) else if a_family a =? AF_INET6 then inet_ntop6 (a_ip a) else [].

(** ** Colours: src/terminal.h:11-47. *)
Definition cyan := 27 :: str "[36m".
Definition red := 27 :: str "[31m".
Definition green := 27 :: str "[32m".
Definition yellow := 27 :: str "[33m".
Definition bold := 27 :: str "[1m".
Definition reset := 27 :: str "[0m".

(** ** Times *)

(** snprintf(buf + offset, len - offset, "%s", text): the string at buf and the new offset; [buf] is the string before. *)
Definition snprintf_at (len : nat) (st : list Z * nat) (text : list Z) : list Z * nat :=
  let '(buf, offset) := st in (firstn offset buf ++ firstn (len - offset - 1) text, (offset + length text)%nat).

(** src/show.c:143-152: one unit. *)
Definition put_unit (len : nat) (name : string) (n : Z) (st : list Z * nat) : list Z * nat :=
  if n =? 0 then st
  else snprintf_at len st ((if Nat.eqb (snd st) 0 then [] else str ", ") ++ print_dec n ++ 32 :: cyan ++ str name ++ (if n =? 1 then [] else str "s") ++ reset).

(** src/show.c:129-155 [pretty_time]: the string and the offset returned.  (If all units are 0 the buffer is left alone; here the empty
    string.  [ago] then overwrites it and [every] is not called with 0.) *)
Definition pretty_time (len : nat) (left : Z) : list Z * nat :=
  let years := left / (365 * 24 * 60 * 60) in
  let left := left mod (365 * 24 * 60 * 60) in
  let days := left / (24 * 60 * 60) in
  let left := left mod (24 * 60 * 60) in
  let hours := left / (60 * 60) in
  let left := left mod (60 * 60) in
  let minutes := left / 60 in
  let seconds := left mod 60 in
  put_unit len "second" seconds (put_unit len "minute" minutes (put_unit len "hour" hours (put_unit len "day" days (put_unit len "year" years ([], O))))).

(** src/show.c:157-174 [ago]; [now] is time(NULL).  strncpy cuts at the end of the buffer. *)
Definition ago (now sec : Z) : list Z :=
  if now =? sec then str "Now"
  else if now <? sec then str "(" ++ red ++ str "System clock wound backward; connection problems may ensue." ++ reset ++ str ")"
  else let '(buf, offset) := pretty_time 1024 (u64 (now - sec)) in firstn 1023 (firstn offset buf ++ firstn (1024 - offset - 1) (str " ago")).

(** src/show.c:176-182 [every]. *)
Definition every (seconds : Z) : list Z := str "every " ++ fst (pretty_time (1024 - 6 - 1) seconds).

(** ** Sizes *)

(** a / b to the nearest integer, ties to even. *)
Definition round_even (a b : Z) : Z :=
  let q := a / b in let r := a mod b in
  if 2 * r <? b then q else if b <? 2 * r then q + 1 else if Z.even q then q else q + 1.
(** The conversion (double)b of a uint64_t: 53 significant bits. *)
Definition to_double (b : Z) : Z :=
  if b <? 2 ^ 53 then b else let e := 2 ^ (Z.log2 b - 52) in round_even b e * e.
(** printf("%.2f", m / 2^k): the quotient is exact in a double; printf rounds to the nearest hundredth (IEEE 754 default rounding). *)
Definition print_hundredths (n : Z) : list Z := print_dec (n / 100) ++ 46 :: [48 + n mod 100 / 10; 48 + n mod 10].
Definition print_2f (m k : Z) : list Z := print_hundredths (round_even (100 * m) (2 ^ k)).
(** src/show.c:184-200 [bytes]. *)
Definition bytes_str (b : Z) : list Z :=
  if b <? 1024 then print_dec b ++ 32 :: cyan ++ str "B" ++ reset
  else if b <? 1024 * 1024 then print_2f (to_double b) 10 ++ 32 :: cyan ++ str "KiB" ++ reset
  else if b <? 1024 * 1024 * 1024 then print_2f (to_double b) 20 ++ 32 :: cyan ++ str "MiB" ++ reset
  else if b <? 1024 * 1024 * 1024 * 1024 then print_2f (to_double b) 30 ++ 32 :: cyan ++ str "GiB" ++ reset
  else print_2f (to_double b) 40 ++ 32 :: cyan ++ str "TiB" ++ reset.

(** ** Printing *)
Record show_env := mk_show_env {
  se_sg : bool;                              (* char is signed *)
  se_color : bool;                           (* color_mode() *)
  se_hide : option (list Z);                 (* getenv("WG_HIDE_KEYS") *)
  se_now : Z;                                (* time(NULL) *)
  se_scope : list Z -> Z -> list Z;          (* names of IPv6 scopes *)
  se_qsort : list (list Z) -> list nat
}.

Section Print.
Variable E : show_env.

(** src/show.c:106-127 [endpoint]: getnameinfo succeeds for the two families; the buffer holds any host and service. *)
Definition endpoint_str (ep : endpoint) : list Z :=
  match nameinfo (se_scope E) ep with
  | None => []
  | Some (host, service) =>
      if match ep with Ep6 _ _ _ _ => true | _ => false end && has_char 58 host then 91 :: host ++ 93 :: 58 :: service else host ++ 58 :: service
  end.
Definition has_endpoint (ep : endpoint) : bool := match ep with EpNone => false | _ => true end.

(** src/show.c:235-236: the texts of the loop over the allowed IPs. *)
Fixpoint pretty_aips (l : list allowedip) : list (list Z) :=
  match l with
  | [] => []
  | a :: l' => (ip_str a ++ cyan ++ [47] ++ reset ++ print_dec (a_cidr a) ++ (match l' with [] => [10] | _ => str ", " end)) :: pretty_aips l'
  end.

Definition item (name : string) (value : list Z) : list Z := str "  " ++ bold ++ str name ++ reset ++ str ": " ++ value ++ [10].
Definition when1 (b : bool) (t : list Z) : list (list Z) := if b then [t] else [].

(** src/show.c:227-248: the texts of the calls of terminal_printf for one peer, except the last empty line. *)
Definition pretty_peer (p : peer) : list (list Z) :=
  [yellow ++ bold ++ str "peer" ++ reset ++ str ": " ++ yellow ++ key_to_base64 (p_pub p) ++ reset ++ [10]] ++
  when1 (p_has_psk p) (item "preshared key" (masked_key (se_hide E) (p_psk p))) ++
  when1 (has_endpoint (p_endpoint p)) (item "endpoint" (endpoint_str (p_endpoint p))) ++
  [str "  " ++ bold ++ str "allowed ips" ++ reset ++ str ": "] ++
  (match p_aips p with [] => [str "(none)" ++ [10]] | l => pretty_aips l end) ++
  when1 (negb (p_hs_sec p =? 0)) (item "latest handshake" (ago (se_now E) (p_hs_sec p))) ++
  (if negb (p_rx p =? 0) || negb (p_tx p =? 0)
   then [str "  " ++ bold ++ str "transfer" ++ reset ++ str ": "; bytes_str (p_rx p) ++ str " received, "; bytes_str (p_tx p) ++ str " sent" ++ [10]] else []) ++
  when1 (negb (p_ka p =? 0)) (item "persistent keepalive" (every (p_ka p))).
Fixpoint pretty_peers (l : list peer) : list (list Z) :=
  match l with
  | [] => []
  | p :: l' => pretty_peer p ++ (match l' with [] => [] | _ => [[10]] end) ++ pretty_peers l'
  end.

(** src/show.c:208-225. *)
Definition pretty_device (d : device) : list (list Z) :=
  [reset; green ++ bold ++ str "interface" ++ reset ++ str ": " ++ green ++ d_name d ++ reset ++ [10]] ++
  when1 (d_has_pub d) (item "public key" (key_to_base64 (d_pub d))) ++
  when1 (d_has_priv d) (item "private key" (masked_key (se_hide E) (d_priv d))) ++
  when1 (negb (d_port d =? 0)) (item "listening port" (print_dec (d_port d))) ++
  when1 (negb (d_fwmark d =? 0)) (item "fwmark" (str "0x" ++ print_hex (d_fwmark d))) ++
  (match d_peers d with [] => [] | _ => [[10]] end).

(** src/show.c:208-251 [pretty_print]: what appears on the standard output. *)
Definition pretty_print (d : device) : list Z :=
  flat_map (terminal_printf (se_sg E) (se_color E)) (pretty_device d ++ pretty_peers (sort_peers (se_qsort E) (d_peers d))).

(** src/show.c:275-276, 321-322: allowed IPs with a separator, the last one followed by [last]. *)
Fixpoint list_aips (sep last : Z) (l : list allowedip) : list Z :=
  match l with
  | [] => []
  | a :: l' => ip_str a ++ 47 :: print_dec (a_cidr a) ++ (match l' with [] => last | _ => sep end) :: list_aips sep last l'
  end.

Definition tab : list Z := [9].
Definition iface_prefix (d : device) (with_interface : bool) : list Z := if with_interface then d_name d ++ tab else [].
Definition mark_str (m : Z) : list Z := if m =? 0 then str "off" else str "0x" ++ print_hex m.

(** src/show.c:253-288 [dump_print]. *)
Definition dump_peer (d : device) (with_interface : bool) (p : peer) : list Z :=
  iface_prefix d with_interface ++ key_to_base64 (p_pub p) ++ tab ++ maybe_key (p_psk p) (p_has_psk p) ++ tab ++
  (if has_endpoint (p_endpoint p) then endpoint_str (p_endpoint p) else str "(none)") ++ tab ++
  (match p_aips p with [] => str "(none)" ++ tab | l => list_aips 44 9 l end) ++
  print_dec (u64 (p_hs_sec p)) ++ tab ++ print_dec (p_rx p) ++ tab ++ print_dec (p_tx p) ++ tab ++
  (if p_ka p =? 0 then str "off" else print_dec (p_ka p)) ++ [10].
Definition dump_print (d : device) (with_interface : bool) : list Z :=
  iface_prefix d with_interface ++ maybe_key (d_priv d) (d_has_priv d) ++ tab ++ maybe_key (d_pub d) (d_has_pub d) ++ tab ++
  print_dec (d_port d) ++ tab ++ mark_str (d_fwmark d) ++ [10] ++ flat_map (dump_peer d with_interface) (d_peers d).

(** src/show.c:290-377 [ugly_print]: None is "return false" (nothing was printed on the standard output). *)
Definition ugly_print (d : device) (param : list Z) (with_interface : bool) : option (list Z) :=
  let pre := iface_prefix d with_interface in
  let peers f := Some (flat_map (fun p => pre ++ key_to_base64 (p_pub p) ++ f p ++ [10]) (d_peers d)) in
  if beq param (str "public-key") then Some (pre ++ maybe_key (d_pub d) (d_has_pub d) ++ [10])
  else if beq param (str "private-key") then Some (pre ++ maybe_key (d_priv d) (d_has_priv d) ++ [10])
  else if beq param (str "listen-port") then Some (pre ++ print_dec (d_port d) ++ [10])
  else if beq param (str "fwmark") then Some (pre ++ mark_str (d_fwmark d) ++ [10])
  else if beq param (str "endpoints") then peers (fun p => tab ++ (if has_endpoint (p_endpoint p) then endpoint_str (p_endpoint p) else str "(none)"))
  else if beq param (str "allowed-ips") then
    Some (flat_map (fun p => pre ++ key_to_base64 (p_pub p) ++ tab ++ (match p_aips p with [] => str "(none)" ++ [10] | l => list_aips 32 10 l end)) (d_peers d))
  else if beq param (str "latest-handshakes") then peers (fun p => tab ++ print_dec (u64 (p_hs_sec p)))
  else if beq param (str "transfer") then peers (fun p => tab ++ print_dec (p_rx p) ++ tab ++ print_dec (p_tx p))
  else if beq param (str "persistent-keepalive") then peers (fun p => tab ++ (if p_ka p =? 0 then str "off" else print_dec (p_ka p)))
  else if beq param (str "preshared-keys") then peers (fun p => tab ++ maybe_key (p_psk p) (p_has_psk p))
  else if beq param (str "peers") then peers (fun _ => [])
  else if beq param (str "dump") then Some (dump_print d with_interface)
  else None.

(** ** The command *)

(** How a command ends: exit status and standard output, or the use of a null pointer. *)
Inductive ending := Exit (status : Z) (out : list Z) | NullPointer (out : list Z).

(** The names packed in the result of ipc_list_devices: strings up to an empty one. [fuel]: bytes left. *)
Fixpoint walk (fuel : nat) (buf : list Z) : list (list Z) :=
  match fuel with
  | O => []
  | S n => match cstring buf with [] => [] | name => name :: walk n (skipn (S (length name)) buf) end
  end.
Definition names_of (buf : list Z) : list (list Z) := walk (length buf) buf.

Section Main.
Variable W : Type.
(** src/ipc.h:15 ipc_list_devices: the buffer, or NULL. *)
Variable list_devices : W -> option (list Z) * W.
Variable B : backend W.

(** src/show.c:398-421: the loop; [ret]: status so far.  ugly_print with a NULL device dereferences it unless the parameter is invalid. *)
Fixpoint show_all (param : option (list Z)) (names : list (list Z)) (ret : Z) (out : list Z) (w : W) : ending * W :=
  match names with
  | [] => (Exit ret out, w)
  | name :: rest =>
      let '(r, dev, w1) := b_get B name w in
      if r <? 0 then show_all param rest ret out w1
      else match param with
           | Some p =>
               match dev with
               | None => match ugly_print device0 p true with None => (Exit 1 out, w1) | Some _ => (NullPointer out, w1) end
               | Some d => match ugly_print d p true with
                           | None => (Exit 1 out, w1)
                           | Some t => show_all param rest 0 (out ++ t) w1
                           end
               end
           | None =>
               match dev with
               | None => (NullPointer out, w1)
               | Some d => show_all param rest 0 (out ++ pretty_print d ++ (match rest with [] => [] | _ => [10] end)) w1
               end
           end
  end.

(** src/show.c:438-439. *)
Fixpoint print_names (l : list (list Z)) : list Z :=
  match l with [] => [] | n :: l' => n ++ (match l' with [] => [10] | _ => [32] end) ++ print_names l' end.

(** src/show.c:379-454 [show_main].  [argv] includes argv[0]. *)
Definition show_main (argv : list (list Z)) (w : W) : ending * W :=
  match argv with
  | _ :: args =>
      if Nat.ltb 2 (length args) then (Exit 1 [], w)
      else
        let all param :=
          match list_devices w with
          | (None, w1) => (Exit 1 [], w1)
          | (Some buf, w1) => show_all param (names_of buf) (match names_of buf with [] => 0 | _ => 1 end) [] w1
          end in
        match args with
        | [] => all None
        | what :: params =>
            if beq what (str "all") then all (hd_error params)
            else if beq what (str "interfaces") then
              match params with
              | _ :: _ => (Exit 1 [], w)
              | [] => match list_devices w with
                      | (None, w1) => (Exit 1 [], w1)
                      | (Some buf, w1) => (Exit 0 (print_names (names_of buf)), w1)
                      end
              end
            else if (match params with [] => true | _ => false end) && (beq what (str "-h") || beq what (str "--help") || beq what (str "help")) then (Exit 0 [], w)
            else
              let '(r, dev, w1) := b_get B what w in
              if r <? 0 then (Exit 1 [], w1)
              else match params, dev with
                   | p :: _, Some d => match ugly_print d p false with None => (Exit 1 [], w1) | Some t => (Exit 0 t, w1) end
                   | p :: _, None => match ugly_print device0 p false with None => (Exit 1 [], w1) | Some _ => (NullPointer [], w1) end
                   | [], Some d => (Exit 0 (pretty_print d), w1)
                   | [], None => (NullPointer [], w1)
                   end
        end
  | [] => (Exit 1 [], w)
  end.
End Main.
End Print.
