(** Model of src/wg-quick/android.c, part 4: what is found out from the output of other programs (del_if, should_block_ipv6, determine_listen_port, get_route_mtu,
    set_mtu).

    An output is the list of its lines as getline returns them, with the newline; no NUL bytes.  regexec finds the leftmost longest match. *)
From Coq Require Import String ZArith List Bool.
From Verif Require Import Base Cstr Uapi.
Import ListNotations.
Open Scope Z_scope.

(** src/wg-quick/android.c:645-646: the interface's name is a part of the patterns; of its characters "." and "+" mean more than themselves there. [ends_of p s]: what
    may be left of [s] behind a match of [p].  [last]: the single-character pattern before, which a "+" repeats. *)
Definition one_char (c : Z) (s : list Z) : list (list Z) :=
  match s with x :: s' => if (c =? 46) || (c =? x) then [s'] else [] | [] => [] end.
Fixpoint more_chars (c : Z) (s : list Z) : list (list Z) :=
  s :: match s with x :: s' => if (c =? 46) || (c =? x) then more_chars c s' else [] | [] => [] end.
Fixpoint ends_of (last : Z) (p : list Z) (ss : list (list Z)) : list (list Z) :=
  match p with
  | [] => ss
  | c :: p' => if c =? 43 then ends_of last p' (flat_map (more_chars last) ss) else ends_of c p' (flat_map (one_char c) ss)
  end.
Fixpoint after_prefix (p s : list Z) : option (list Z) :=
  match p, s with
  | [], _ => Some s
  | a :: p', b :: s' => if a =? b then after_prefix p' s' else None
  | _ :: _, [] => None
  end.
(** src/wg-quick/android.c:646, 654, 660: ^-A (.* --comment "wireguard rule IFACE"[^\n]* )\n*$: what is in the parentheses. [text]: the line behind "-A ", without its newline. *)
Fixpoint has_comment (iface text : list Z) : bool :=
  (match after_prefix (str " --comment ""wireguard rule") text with
   | Some (32 :: s) => existsb (fun r => match r with 34 :: _ => true | _ => false end) (ends_of 32 iface [s])
   | _ => false
   end) ||
  match text with [] => false | _ :: t => has_comment iface t end.
Definition chomp (line : list Z) : list Z := match rev line with 10 :: r => rev r | _ => line end.
Definition rule_of (iface line : list Z) : option (list Z) :=
  match after_prefix (str "-A ") (chomp line) with
  | Some text => if has_comment iface text then Some text else None
  | None => None
  end.
(** src/wg-quick/android.c:653-664: the commands for the output of iptables-save or ip6tables-save *)
Definition delete_rules (program iface : list Z) (lines : list (list Z)) : list (list Z) :=
  flat_map (fun l => match rule_of iface l with Some r => [program ++ str " -D " ++ r] | None => [] end) lines.

(** src/wg-quick/android.c:645, 667-673: 0xc([0-9a-f]+)/0xcffff lookup IFACE, anywhere in the line *)
Definition hex_char (c : Z) : bool := ((48 <=? c) && (c <=? 57)) || ((97 <=? c) && (c <=? 102)).
Fixpoint hex_run (s : list Z) : list Z * list Z :=
  match s with c :: s' => if hex_char c then let '(a, b) := hex_run s' in (c :: a, b) else ([], s) | [] => ([], []) end.
Fixpoint netid_in (iface s : list Z) : option (list Z) :=
  match (match after_prefix (str "0xc") s with
         | Some r =>
             match hex_run r with
             | ([], _) => None
             | (h, r1) =>
                 match after_prefix (str "/0xcffff lookup") r1 with
                 | Some (32 :: r2) => match ends_of 32 iface [r2] with [] => None | _ => Some h end
                 | _ => None
                 end
             end
         | None => None
         end) with
  | Some h => Some h
  | None => match s with [] => None | _ :: s' => netid_in iface s' end
  end.
Fixpoint first_netid (iface : list Z) (lines : list (list Z)) : option (list Z) :=
  match lines with [] => None | l :: ls => match netid_in iface l with Some h => Some h | None => first_netid iface ls end end.
(** src/wg-quick/android.c:674-675 *)
Definition destroy_network (ulmax : Z) (iface : list Z) (lines : list (list Z)) : list (list Z) :=
  match first_netid iface lines with Some h => [str "ndc network destroy " ++ print_dec (fst (strtoul ulmax 16 h))] | None => [] end.

(** src/wg-quick/android.c:678-695 should_block_ipv6 *)
Fixpoint endpoint_kinds (lines : list (list Z)) (has_ipv6 all_none : bool) : bool :=
  match lines with
  | [] => negb has_ipv6 && negb all_none
  | l :: ls =>
      match split_first 9 l with
      | None => endpoint_kinds ls has_ipv6 all_none
      | Some (_, s) => endpoint_kinds ls (has_ipv6 || (hd 0 s =? 91)) (all_none && (hd 0 s =? 40))
      end
  end.
Definition should_block_ipv6 (lines : list (list Z)) : bool := endpoint_kinds lines false true.

(** src/wg-quick/android.c:703-714: the port in the first line of "wg show IFACE listen-port"; 0: none *)
Definition listen_port (ulmax : Z) (lines : list (list Z)) : Z :=
  match lines with
  | [] => 0
  | l :: _ => let p := fst (strtoul ulmax 10 l) in if (65535 <? p) || (p =? 0) then 0 else p
  end.

(** src/wg-quick/android.c:964, 974: mtu ([0-9]+), the leftmost *)
Fixpoint digit_run (s : list Z) : list Z := match s with c :: s' => if (48 <=? c) && (c <=? 57) then c :: digit_run s' else [] | [] => [] end.
Fixpoint mtu_in (s : list Z) : option (list Z) :=
  match (match after_prefix (str "mtu ") s with Some r => match digit_run r with [] => None | d => Some d end | None => None end) with
  | Some d => Some d
  | None => match s with [] => None | _ :: s' => mtu_in s' end
  end.
(** src/wg-quick/android.c:965, 977: dev ([^ ]+), the leftmost *)
Fixpoint word_run (s : list Z) : list Z := match s with c :: s' => if c =? 32 then [] else c :: word_run s' | [] => [] end.
Fixpoint dev_in (s : list Z) : option (list Z) :=
  match (match after_prefix (str "dev ") s with Some r => match word_run r with [] => None | d => Some d end | None => None end) with
  | Some d => Some d
  | None => match s with [] => None | _ :: s' => dev_in s' end
  end.
(** atoi as (int) strtol *)
Definition s32 (z : Z) : Z := let v := u32 z in if v <? 2 ^ 31 then v else v - 2 ^ 32.
Definition atoi (s : list Z) : Z := s32 (fst (strtoll s)).
(** src/wg-quick/android.c:956-990 get_route_mtu; [reply]: the lines a command prints *)
Definition get_route_mtu (reply : list Z -> list (list Z)) (endpoint : list Z) : Z :=
  match reply (if beq endpoint (str "default") then str "ip -o route show " ++ endpoint else str "ip -o route get " ++ endpoint) with
  | [] => -1
  | route :: _ =>
      match mtu_in route with
      | Some m => atoi m
      | None =>
          match dev_in route with
          | None => -1
          | Some dev =>
              match reply (str "ip -o link show dev " ++ dev) with
              | [] => -1
              | link :: _ => match mtu_in link with Some m => atoi m | None => -1 end
              end
          end
      end
  end.
(** src/wg-quick/android.c:1005, 1012-1015: ^\[?([a-z0-9:.]+)\]?:[0-9]+$ *)
Definition host_char (c : Z) : bool := ((97 <=? c) && (c <=? 122)) || ((48 <=? c) && (c <=? 57)) || (c =? 58) || (c =? 46).
Definition endpoint_of (line : list Z) : option (list Z) :=
  match split_last 58 line with
  | None => None
  | Some (a, port) =>
      let a1 := match a with 91 :: r => r | _ => a end in
      let a2 := match rev a1 with 93 :: r => rev r | _ => a1 end in
      if forallb (fun c => (48 <=? c) && (c <=? 57)) port && negb (beq port []) && forallb host_char a2 && negb (beq a2 []) then Some a2 else None
  end.
(** src/wg-quick/android.c:992-1022 set_mtu: the command *)
Fixpoint least_mtu (reply : list Z -> list (list Z)) (lines : list (list Z)) (m : Z) : Z :=
  match lines with
  | [] => m
  | l :: ls =>
      match endpoint_of l with
      | None => least_mtu reply ls m
      | Some e => let n := get_route_mtu reply e in least_mtu reply ls (if (0 <? n) && (n <? m) then n else m)
      end
  end.
Definition print_int (n : Z) : list Z := if n <? 0 then 45 :: print_dec (- n) else print_dec n.
Definition set_mtu (reply : list Z -> list (list Z)) (iface : list Z) (mtu : Z) : list Z :=
  if negb (mtu =? 0) then str "ndc interface setmtu " ++ iface ++ 32 :: print_dec mtu
  else
    let d := get_route_mtu reply (str "default") in
    let m := least_mtu reply (reply (str "wg show " ++ iface ++ str " endpoints")) (if d =? -1 then 1500 else d) in
    str "ndc interface setmtu " ++ iface ++ 32 :: print_int (s32 (m - 80)).

(** src/wg-quick/android.c:1029-1045 set_routes, 1024-1027 add_route: the commands for the lines of "wg show IFACE allowed-ips" *)
Fixpoint strtok_routes (cur s : list Z) : list (list Z) :=
  let flush := match cur with [] => [] | _ => [cur] end in
  match s with
  | [] => flush
  | c :: s' => if (c =? 32) || (c =? 10) then flush ++ strtok_routes [] s' else strtok_routes (cur ++ [c]) s'
  end.
Definition set_routes (iface : list Z) (netid : Z) (lines : list (list Z)) : list (list Z) :=
  flat_map (fun l =>
    match split_first 9 l with
    | None => []
    | Some (_, s) => flat_map (fun r => if beq r (str "(none)") then [] else [str "ndc network route add " ++ print_dec netid ++ 32 :: iface ++ 32 :: r]) (strtok_routes [] s)
    end) lines.
