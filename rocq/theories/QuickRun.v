(** Model of src/wg-quick/linux.bash, part 2: running commands (lines 30-38 and 84-363).

    The script runs other programs; what each of them answers is given by a [system], a function of everything that was run before, so every
    theorem about all systems covers every behaviour of those programs, every failure point and every instant a signal can arrive.
    Not modelled: the echo of commands on standard error (lines 31 and 36), auto_su (84-86; the script is running as root), job control. *)
From Coq Require Import String ZArith List Bool.
From Verif Require Import Base Cstr Bash Quick.
Import ListNotations.
Open Scope Z_scope.

(** A command: its words and what it can read on standard input (or, for "wg setconf" and "nft -f", in the file /dev/fd/63 bash makes of a
    process substitution).  Bash builtins that ask or change something outside the shell (test, type, command, umask, eval, redirections) are
    commands too. *)
Record command := mk_cmd { c_argv : list (list Z); c_input : list Z }.
(** Exit status and output; [Some st]: SIGINT or SIGTERM arrived meanwhile and a bare [exit] in the trap would report [st]. *)
Record answer := mk_answer { a_status : Z; a_output : list Z; a_signal : option Z }.
Definition event : Type := command * answer.
(** Oldest first. *)
Definition history := list event.
Definition system := history -> command -> answer.

Record shell := mk_shell { sh_hist : history; sh_dns : bool (* HAVE_SET_DNS *); sh_fw : bool (* HAVE_SET_FIREWALL *) }.

(** How a piece of script ends: normally with a value, by exit (also because of "set -e"), interrupted, or not at all (more than [fuel]
    rounds of a loop). *)
Inductive result (A : Type) :=
| Done (a : A) (s : shell) | Exited (st : Z) (s : shell) | Signalled (st : Z) (s : shell) | Loops (s : shell).
Arguments Done {A}. Arguments Exited {A}. Arguments Signalled {A}. Arguments Loops {A}.
Definition prog (A : Type) : Type := shell -> result A.

Definition ret {A} (a : A) : prog A := fun s => Done a s.
Definition bind {A B} (m : prog A) (f : A -> prog B) : prog B := fun s =>
  match m s with
  | Done a s1 => f a s1
  | Exited st s1 => Exited st s1
  | Signalled st s1 => Signalled st s1
  | Loops s1 => Loops s1
  end.
Notation "x <- m ;; n" := (bind m (fun x => n)) (at level 100, m at next level, right associativity).
Notation "m ;;; n" := (bind m (fun _ => n)) (at level 100, right associativity).
Definition exit_with {A} (st : Z) : prog A := fun s => Exited st s.
Definition set_dns_flag : prog unit := fun s => Done tt (mk_shell (sh_hist s) true (sh_fw s)).
Definition set_fw_flag : prog unit := fun s => Done tt (mk_shell (sh_hist s) (sh_dns s) true).
Definition flags {A} (f : bool -> bool -> prog A) : prog A := fun s => f (sh_dns s) (sh_fw s) s.

Notation "! x" := (str x%string) (at level 0, x at level 0, format "! x").
Definition argv (ws : list (list Z)) : command := mk_cmd ws [].

Section Script.
Variable sys : system.
Variable glob : list Z -> list (list Z).
Variable fuel : nat.
Variable ifc : list Z.                               (* INTERFACE *)
Variable o : options.
Variable config_file : list Z.                       (* CONFIG_FILE, after readlink -f *)
Variable userspace : list Z.                         (* ${WG_QUICK_USERSPACE_IMPLEMENTATION:-wireguard-go} *)

Definition run (c : command) : prog answer := fun s =>
  let a := sys (sh_hist s) c in
  let s1 := mk_shell (sh_hist s ++ [(c, a)]) (sh_dns s) (sh_fw s) in
  match a_signal a with None => Done a s1 | Some st => Signalled st s1 end.
(** [$(...)]: the status is ignored. *)
Definition query (ws : list (list Z)) : prog (list Z) := a <- run (argv ws) ;; ret (captured (a_output a)).
(** [done < <(...)]: the raw output. *)
Definition output (ws : list (list Z)) : prog (list Z) := a <- run (argv ws) ;; ret (a_output a).
(** A command as a condition. *)
Definition cond (ws : list (list Z)) : prog bool := a <- run (argv ws) ;; ret (a_status a =? 0).
(** A simple command: with [e] ("set -e" is in force: we are not inside a condition) a failure ends the script. *)
Definition step_in (e : bool) (ws : list (list Z)) (input : list Z) : prog Z :=
  a <- run (mk_cmd ws input) ;;
  if e && negb (a_status a =? 0) then exit_with (a_status a) else ret (a_status a).
Definition step (e : bool) (ws : list (list Z)) : prog Z := step_in e ws [].

Fixpoint for_each {A} (f : A -> prog Z) (l : list A) : prog Z :=
  match l with
  | [] => ret 0
  | x :: l' => f x ;;; for_each f l'
  end.

(** src/wg-quick/linux.bash:120-121, 168-169, 221-222. *)
Definition proto (a : list Z) : list Z := if has_char 58 a then !"-6" else !"-4".

(** src/wg-quick/linux.bash:88-96 add_if.  [ret=$?] (line 91) sees the status of the negated condition, which is 0. *)
Definition add_if (e : bool) : prog Z :=
  ok <- cond [!"ip"; !"link"; !"add"; ifc; !"type"; !"wireguard"] ;;
  if ok then ret 0
  else
    module <- cond [!"test"; !"-e"; !"/sys/module/wireguard"] ;;
    (if module then exit_with 0
     else
       have <- cond [!"command"; !"-v"; userspace] ;;
       if negb have then exit_with 0
       else step e [userspace; ifc]).

(** src/wg-quick/linux.bash:144-151 resolvconf_iface_prefix: the first line of the form ^([A-Za-z0-9-]+)\*$. *)
Definition order_char (c : Z) : bool :=
  ((97 <=? c) && (c <=? 122)) || ((65 <=? c) && (c <=? 90)) || ((48 <=? c) && (c <=? 57)) || (c =? 45).
Definition order_prefix (line : list Z) : option (list Z) :=
  match rev line with
  | 42 :: r => if forallb order_char r && negb (beq r []) then Some (rev r) else None
  | _ => None
  end.
Fixpoint first_prefix (lines : list (list Z)) : list Z :=
  match lines with
  | [] => []
  | l :: ls => match order_prefix l with Some p => p ++ [46] | None => first_prefix ls end
  end.
Definition resolvconf_iface_prefix : prog (list Z) :=
  have <- cond [!"test"; !"-f"; !"/etc/resolvconf/interface-order"] ;;
  if have then
    text <- output [!"<"; !"/etc/resolvconf/interface-order"] ;;
    ret (first_prefix (read_complete text))
  else ret [].

(** src/wg-quick/linux.bash:153-160 set_dns; the status of the pipe is that of resolvconf unless printf fails. *)
Fixpoint join_sp (l : list (list Z)) : list Z :=
  match l with [] => [] | [w] => w | w :: l' => w ++ 32 :: join_sp l' end.
Definition dns_text : list Z :=
  concat (map (fun d => !"nameserver " ++ d ++ [10]) (o_dns o)) ++
  (match o_search o with [] => [] | _ => !"search " ++ join_sp (o_search o) ++ [10] end).
Definition set_dns (e : bool) : prog Z :=
  match o_dns o with
  | [] => ret 0
  | _ =>
      p <- resolvconf_iface_prefix ;;
      step_in e [!"resolvconf"; !"-a"; p ++ ifc; !"-m"; !"0"; !"-x"] dns_text ;;;
      set_dns_flag ;;; ret 0
  end.
(** src/wg-quick/linux.bash:162-165 unset_dns. *)
Definition unset_dns (e : bool) : prog Z :=
  match o_dns o with
  | [] => ret 0
  | _ => p <- resolvconf_iface_prefix ;; step e [!"resolvconf"; !"-d"; p ++ ifc; !"-f"]
  end.

(** src/wg-quick/linux.bash:189-209 remove_firewall. *)
Definition nft_deletes (tables : list (list Z)) : list Z :=
  concat (map (fun t => if ends_with (!" wg-quick-" ++ ifc) t then !"delete " ++ t ++ [10] else []) tables).
Definition marker : list Z := !"-m comment --comment ""wg-quick(8) rule for " ++ ifc ++ !"""".
Definition kept_rule (line : list Z) : bool :=
  starts_with [42] line || beq line (!"COMMIT") ||
  match strip_prefix (!"-A ") line with Some rest => contains marker rest | None => false end.
Definition undo_rule (line : list Z) : list Z := match strip_prefix (!"-A") line with Some rest => !"-D" ++ rest | None => line end.
Definition restore_text (lines : list (list Z)) : list Z :=
  concat (map (fun l => undo_rule l ++ [10]) (filter kept_rule lines)).
Definition restore_found (lines : list (list Z)) : bool := existsb (starts_with (!"-A")) (filter kept_rule lines).
Definition remove_iptables (e : bool) (iptables : list Z) : prog Z :=
  dump <- output [iptables ++ !"-save"] ;;
  let lines := read_complete dump in
  if restore_found lines then step_in e [iptables ++ !"-restore"; !"-n"] (restore_text lines) else ret 0.
Definition remove_firewall (e : bool) : prog Z :=
  nft <- cond [!"type"; !"-p"; !"nft"] ;;
  (if nft then
     t <- output [!"nft"; !"list"; !"tables"] ;;
     (match nft_deletes (read_complete t) with
      | [] => ret 0
      | script => step_in e [!"nft"; !"-f"; !"/dev/fd/63"] script
      end)
   else ret 0) ;;;
  ipt <- cond [!"type"; !"-p"; !"iptables"] ;;
  if ipt then for_each (remove_iptables e) [!"iptables"; !"ip6tables"] else ret 0.

(** src/wg-quick/linux.bash:181-187 get_fwmark ([None]: status 1).  [printf %d] reads decimal and 0x hexadecimal (and, not modelled, octal)
    numbers and stops at the first other character. *)
Definition printf_d (s : list Z) : Z :=
  match s with
  | 48 :: 120 :: t => fst (fst (take_digits 16 0 0 t))
  | _ => fst (fst (take_digits 10 0 0 s))
  end.
Definition get_fwmark : prog (option Z) :=
  a <- run (argv [!"wg"; !"show"; ifc; !"fwmark"]) ;;
  if negb (a_status a =? 0) then ret None
  else
    let m := captured (a_output a) in
    if beq m [] || beq m (!"off") then ret None else ret (Some (printf_d m)).

(** src/wg-quick/linux.bash:102: "/0" followed by a space, a newline or the end. *)
Fixpoint has_default (s : list Z) : bool :=
  match s with
  | 47 :: ((48 :: r) as t) => (match r with [] => true | c :: _ => (c =? 32) || (c =? 10) end) || has_default t
  | _ :: s' => has_default s'
  | [] => false
  end.

(** src/wg-quick/linux.bash:103-114: one of the four loops. *)
Fixpoint delete_rules (n : nat) (e : bool) (pr pat : list Z) (del : list (list Z)) : prog Z :=
  match n with
  | O => fun s => Loops s
  | S n' =>
      out <- query [!"ip"; pr; !"rule"; !"show"] ;;
      if contains pat out then step e ([!"ip"; pr; !"rule"; !"delete"] ++ del) ;;; delete_rules n' e pr pat del
      else ret 0
  end.
Definition main_suppress : list Z := !"from all lookup main suppress_prefixlength 0".
Definition auto_table : bool := beq (o_table o) [] || beq (o_table o) (!"auto").

(** src/wg-quick/linux.bash:98-117 del_if. *)
Definition del_if (e : bool) : prog Z :=
  flags (fun dns _ => if dns then unset_dns e else ret 0) ;;;
  flags (fun _ fw => if fw then remove_firewall e else ret 0) ;;;
  (if auto_table then
     m <- get_fwmark ;;
     (match m with
      | None => ret 0
      | Some table =>
          out <- query [!"wg"; !"show"; ifc; !"allowed-ips"] ;;
          if has_default out then
            let t := print_dec table in
            delete_rules fuel e (!"-4") (!"lookup " ++ t) [!"table"; t] ;;;
            delete_rules fuel e (!"-4") main_suppress [!"table"; !"main"; !"suppress_prefixlength"; !"0"] ;;;
            delete_rules fuel e (!"-6") (!"lookup " ++ t) [!"table"; t] ;;;
            delete_rules fuel e (!"-6") main_suppress [!"table"; !"main"; !"suppress_prefixlength"; !"0"]
          else ret 0
      end)
   else ret 0) ;;;
  step e [!"ip"; !"link"; !"delete"; !"dev"; ifc].

(** src/wg-quick/linux.bash:119-123 add_addr. *)
Definition add_addr (e : bool) (a : list Z) : prog Z := step e [!"ip"; proto a; !"address"; !"add"; a; !"dev"; ifc].

(** Regular expressions of lines 134 and 138: the first "mtu " followed by digits, the first "dev " followed by other than a space. *)
Definition digit (c : Z) : bool := (48 <=? c) && (c <=? 57).
Fixpoint take_while (f : Z -> bool) (s : list Z) : list Z :=
  match s with c :: s' => if f c then c :: take_while f s' else [] | [] => [] end.
Fixpoint find_field (p : list Z) (f : Z -> bool) (s : list Z) : option (list Z) :=
  match strip_prefix p s with
  | Some r => match take_while f r with
              | [] => match s with [] => None | _ :: s' => find_field p f s' end
              | v => Some v
              end
  | None => match s with [] => None | _ :: s' => find_field p f s' end
  end.
(** Value of a run of digits.  (bash would read a leading 0 as octal and wrap at 2^64; ip(8) prints neither.) *)
Definition number (s : list Z) : Z := fst (fst (take_digits 10 0 0 s)).
Definition mtu_field (s : list Z) : option Z := match find_field (!"mtu ") digit s with Some d => Some (number d) | None => None end.
Definition dev_field (s : list Z) : option (list Z) := find_field (!"dev ") (fun c => negb (c =? 32)) s.

(** src/wg-quick/linux.bash:134 and 138: the MTU a route description leads to; the link is asked only when the route does not say. *)
Definition route_mtu (out : list Z) : prog (option Z) :=
  match mtu_field out with
  | Some m => ret (Some m)
  | None =>
      match dev_field out with
      | None => ret None
      | Some d => link <- query [!"ip"; !"link"; !"show"; !"dev"; d] ;; ret (mtu_field link)
      end
  end.
Definition larger (mtu : Z) (m : option Z) : Z := match m with Some v => if mtu <? v then v else mtu | None => mtu end.

(** src/wg-quick/linux.bash:131-132: [read -r _ endpoint], and the host in ^\[?([a-z0-9:.]+)\]?:[0-9]+$. *)
Definition second_field (line : list Z) : list Z := ltrim blankb (drop_while (fun c => negb (blankb c)) line).
Definition host_char (c : Z) : bool :=
  ((97 <=? c) && (c <=? 122)) || digit c || (c =? 58) || (c =? 46).
Definition endpoint_host (s : list Z) : option (list Z) :=
  match split_last 58 s with
  | None => None
  | Some (h, port) =>
      let h1 := match h with 91 :: t => t | _ => h end in
      let h2 := match rev h1 with 93 :: t => rev t | _ => h1 end in
      if forallb digit port && negb (beq port []) && forallb host_char h2 && negb (beq h2 []) then Some h2 else None
  end.
(** The loop of lines 131-135. *)
Fixpoint endpoints_mtu (lines : list (list Z)) (mtu : Z) : prog Z :=
  match lines with
  | [] => ret mtu
  | l :: ls =>
      match endpoint_host (second_field l) with
      | None => endpoints_mtu ls mtu
      | Some h =>
          out <- query [!"ip"; !"route"; !"get"; h] ;;
          m <- route_mtu out ;;
          endpoints_mtu ls (larger mtu m)
      end
  end.
(** src/wg-quick/linux.bash:125-142 set_mtu_up.  (Line 137 reads the first line.) *)
Definition set_mtu_up (e : bool) : prog Z :=
  match o_mtu o with
  | _ :: _ => step e [!"ip"; !"link"; !"set"; !"mtu"; o_mtu o; !"up"; !"dev"; ifc]
  | [] =>
      eps <- output [!"wg"; !"show"; ifc; !"endpoints"] ;;
      mtu1 <- endpoints_mtu (read_complete eps) 0 ;;
      mtu2 <- (if mtu1 =? 0 then
                 out <- output [!"ip"; !"route"; !"show"; !"default"] ;;
                 m <- route_mtu (trim blankb (before 10 (no_nul out))) ;;
                 ret (larger mtu1 m)
               else ret mtu1) ;;
      let mtu3 := if 0 <? mtu2 then mtu2 else 1500 in
      step e [!"ip"; !"link"; !"set"; !"mtu"; (if mtu3 <? 80 then 45 :: print_dec (80 - mtu3) else print_dec (mtu3 - 80)); !"up"; !"dev"; ifc]
  end.

(** src/wg-quick/linux.bash:214-220: the table; [n] bounds the search. *)
Fixpoint free_table (n : nat) (t : Z) : prog Z :=
  match n with
  | O => fun s => Loops s
  | S n' =>
      r4 <- query [!"ip"; !"-4"; !"route"; !"show"; !"table"; print_dec t] ;;
      (if negb (beq r4 []) then free_table n' (t + 1)
       else
         r6 <- query [!"ip"; !"-6"; !"route"; !"show"; !"table"; print_dec t] ;;
         if negb (beq r6 []) then free_table n' (t + 1) else ret t)
  end.
Definition choose_table (e : bool) : prog Z :=
  m <- get_fwmark ;;
  match m with
  | Some t => ret t
  | None =>
      t <- free_table fuel 51820 ;;
      step e [!"wg"; !"set"; ifc; !"fwmark"; print_dec t] ;;;
      ret t
  end.

(** src/wg-quick/linux.bash:233: the address in .*inet6?\ ([0-9a-f:.]+)/[0-9]+.* (the last place that fits). *)
Definition addr_char (c : Z) : bool := digit c || ((97 <=? c) && (c <=? 102)) || (c =? 58) || (c =? 46).
Definition addr_here (s : list Z) : option (list Z) :=
  let t := match strip_prefix (!"inet6 ") s with Some t => Some t | None => strip_prefix (!"inet ") s end in
  match t with
  | None => None
  | Some t =>
      let a := take_while addr_char t in
      match a, drop_while addr_char t with
      | _ :: _, 47 :: d :: _ => if digit d then Some a else None
      | _, _ => None
      end
  end.
Fixpoint inet_address (s : list Z) : option (list Z) :=
  match s with
  | [] => None
  | _ :: s' => match inet_address s' with Some a => Some a | None => addr_here s end
  end.
Definition link_addresses (lines : list (list Z)) : list (list Z) :=
  flat_map (fun l => match inet_address l with Some a => [a] | None => [] end) lines.

(** src/wg-quick/linux.bash:227-239: the two scripts. *)
Definition nft_script (pf : list Z) (addrs : list (list Z)) (table : list Z) : list Z :=
  let t := pf ++ [32] ++ !"wg-quick-" ++ ifc in
  !"add table " ++ t ++ [10] ++
  !"add chain " ++ t ++ !" preraw { type filter hook prerouting priority -300; }" ++ [10] ++
  !"add chain " ++ t ++ !" premangle { type filter hook prerouting priority -150; }" ++ [10] ++
  !"add chain " ++ t ++ !" postmangle { type filter hook postrouting priority -150; }" ++ [10] ++
  concat (map (fun a => !"add rule " ++ t ++ !" preraw iifname != """ ++ ifc ++ !""" " ++ pf ++ !" daddr " ++ a ++
                        !" fib saddr type != local drop" ++ [10]) addrs) ++
  !"add rule " ++ t ++ !" postmangle meta l4proto udp mark " ++ table ++ !" ct mark set mark " ++ [10] ++
  !"add rule " ++ t ++ !" premangle meta l4proto udp meta mark set ct mark " ++ [10].
Definition iptables_script (addrs : list (list Z)) (table : list Z) : list Z :=
  !"*raw" ++ [10] ++
  concat (map (fun a => !"-I PREROUTING ! -i " ++ ifc ++ !" -d " ++ a ++ !" -m addrtype ! --src-type LOCAL -j DROP " ++ marker ++ [10]) addrs) ++
  !"COMMIT" ++ [10] ++ !"*mangle" ++ [10] ++
  !"-I POSTROUTING -m mark --mark " ++ table ++ !" -p udp -j CONNMARK --save-mark " ++ marker ++ [10] ++
  !"-I PREROUTING -p udp -j CONNMARK --restore-mark " ++ marker ++ [10] ++ !"COMMIT" ++ [10].

(** src/wg-quick/linux.bash:212-248 add_default. *)
Definition add_default (e : bool) (r : list Z) : prog Z :=
  table <- choose_table e ;;
  let t := print_dec table in
  let v6 := has_char 58 r in
  let pr := proto r in
  step e [!"ip"; pr; !"rule"; !"add"; !"not"; !"fwmark"; t; !"table"; t] ;;;
  step e [!"ip"; pr; !"rule"; !"add"; !"table"; !"main"; !"suppress_prefixlength"; !"0"] ;;;
  step e [!"ip"; pr; !"route"; !"add"; r; !"dev"; ifc; !"table"; t] ;;;
  out <- output [!"ip"; !"-o"; pr; !"addr"; !"show"; !"dev"; ifc] ;;
  let addrs := link_addresses (read_complete out) in
  (if v6 then ret 0 else step e [!"sysctl"; !"-q"; !"net.ipv4.conf.all.src_valid_mark=1"]) ;;;
  nft <- cond [!"type"; !"-p"; !"nft"] ;;
  (if nft then step_in e [!"nft"; !"-f"; !"/dev/fd/63"] (nft_script (if v6 then !"ip6" else !"ip") addrs t)
   else step_in e [(if v6 then !"ip6tables" else !"iptables") ++ !"-restore"; !"-n"] (iptables_script addrs t)) ;;;
  set_fw_flag ;;; ret 0.

(** src/wg-quick/linux.bash:167-179 add_route. *)
Definition add_route (e : bool) (r : list Z) : prog Z :=
  if beq (o_table o) (!"off") then ret 0
  else if negb auto_table then step e [!"ip"; proto r; !"route"; !"add"; r; !"dev"; ifc; !"table"; o_table o]
  else if ends_with (!"/0") r then add_default e r
  else
    out <- query [!"ip"; proto r; !"route"; !"show"; !"dev"; ifc; !"match"; r] ;;
    if beq out [] then step e [!"ip"; proto r; !"route"; !"add"; r; !"dev"; ifc] else ret 0.

(** src/wg-quick/linux.bash:250-252 set_config. *)
Definition set_config (e : bool) : prog Z := step_in e [!"wg"; !"setconf"; ifc; !"/dev/fd/63"] (handed o).

(** src/wg-quick/linux.bash:290-297 execute_hooks. *)
Definition hook_text (hook : list Z) : list Z := replace_all (!"%i") ifc hook.
Definition execute_hooks (e : bool) (hooks : list (list Z)) : prog Z :=
  for_each (fun h => step e [!"eval"; hook_text h]) hooks.

(** src/wg-quick/linux.bash:338: the words of the second field ([read -r _ i; for i in $i]) that look like ^[0-9a-z:.]+/[0-9]+$, through
    sort. *)
Definition route_word (s : list Z) : bool :=
  match split_first 47 s with
  | None => false
  | Some (a, n) =>
      forallb (fun c => digit c || ((97 <=? c) && (c <=? 122)) || (c =? 58) || (c =? 46)) a && negb (beq a []) &&
      forallb digit n && negb (beq n [])
  end.
Definition route_lines (lines : list (list Z)) : list (list Z) :=
  filter route_word (flat_map (fun l => expand glob (second_field l)) lines).
Definition all_routes : prog (list (list Z)) :=
  out <- output [!"wg"; !"show"; ifc; !"allowed-ips"] ;;
  sorted <- run (mk_cmd [!"sort"; !"-nr"; !"-k"; !"2"; !"-t"; !"/"] (concat (map (fun r => r ++ [10]) (route_lines (read_complete out))))) ;;
  ret (expand glob (captured (a_output sorted))).

(** src/wg-quick/linux.bash:338-340: the loop over the routes. *)
Definition add_routes (e : bool) : prog Z :=
  routes <- all_routes ;;
  for_each (add_route e) routes.

(** src/wg-quick/linux.bash:330-341: the part of cmd_up the trap guards. *)
Definition up_body : prog Z :=
  add_if true ;;;
  execute_hooks true (o_preup o) ;;;
  set_config true ;;;
  for_each (add_addr true) (o_addresses o) ;;;
  set_mtu_up true ;;;
  set_dns true ;;;
  add_routes true ;;;
  execute_hooks true (o_postup o).

(** The history and the exit status; [None]: the script does not end. *)
Definition outcome : Type := option Z * history.

(** trap 'CLEANUP; exit' EXIT: the status is the one before, unless the cleanup fails. *)
Definition exit_trap {A} (cleanup : prog A) (st : Z) (s : shell) : outcome :=
  match cleanup s with
  | Done _ s1 => (Some st, sh_hist s1)
  | Exited st1 s1 => (Some st1, sh_hist s1)
  | Signalled st1 s1 => (Some st1, sh_hist s1)       (* a second signal: not modelled further *)
  | Loops s1 => (None, sh_hist s1)
  end.
(** trap 'CLEANUP; exit' INT TERM EXIT around [body], and [trap -] after it. *)
Definition guarded {A B} (cleanup : prog A) (body : prog B) (after : B -> prog Z) : shell -> outcome := fun s =>
  match body s with
  | Done b s1 =>
      match after b s1 with
      | Done _ s2 => (Some 0, sh_hist s2)
      | Exited st s2 | Signalled st s2 => (Some st, sh_hist s2)
      | Loops s2 => (None, sh_hist s2)
      end
  | Exited st s1 => exit_trap cleanup st s1
  | Signalled st s1 =>                                (* the trap runs for the signal, then again because of its exit *)
      match cleanup s1 with
      | Done _ s2 => exit_trap cleanup st s2
      | Exited st1 s2 | Signalled st1 s2 => exit_trap cleanup st1 s2
      | Loops s2 => (None, sh_hist s2)
      end
  | Loops s1 => (None, sh_hist s1)
  end.

(** src/wg-quick/linux.bash:326-343 cmd_up (and the [exit 0] of line 389). *)
Definition cmd_up : outcome :=
  match query [!"ip"; !"link"; !"show"; !"dev"; ifc] (mk_shell [] false false) with
  | Done link s =>
      if negb (beq link []) then (Some 1, sh_hist s)
      else guarded (del_if true) up_body (fun _ => ret 0) s
  | Exited st s | Signalled st s => (Some st, sh_hist s)
  | Loops s => (None, sh_hist s)
  end.
End Script.
