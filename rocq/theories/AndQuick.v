(** Model of src/wg-quick/android.c, part 5: bringing an interface up and taking it down (cmd_up, cmd_down and what they call).

    The rest of the system is its replies: what a command prints and how it ends, given everything that was changed before.  Commands that only ask (cmd_ret) change
    nothing; the lines of one are read at once.  Not modelled: DNS through Binder (here: there is no Binder), auto_su, failing malloc, popen and getline, the wording of the
    messages; that the program is killed. *)
From Coq Require Import String ZArith List Bool.
From Verif Require Import Base Cstr AndUsers AndOptions AndDns AndIf.
Import ListNotations.
Open Scope Z_scope.

(** What was done: a command, and the input it was given. *)
Record deed := mk_deed { d_command : list Z; d_input : option (list Z) }.
Definition plain (t : list Z) : deed := mk_deed t None.
(** What the system replies: to a command that is run (its exit status, 0 for success; another number if it could not be run or was killed), to a question or ndc (its
    lines); packages.list. *)
Record world := mk_world { w_status : list deed -> deed -> Z; w_lines : list deed -> list Z -> list (list Z); w_packages : option (list (list Z)) }.
(** [Undefined]: the behaviour is not defined (an object is read or written outside of its bounds) or the program does not end. *)
Inductive run (A : Type) := Goes (a : A) (h : list deed) | Exits (h : list deed) | Undefined.
Arguments Goes {A}. Arguments Exits {A}. Arguments Undefined {A}.
Definition act (A : Type) := list deed -> run A.
Definition ret {A} (a : A) : act A := fun h => Goes a h.
Definition bind {A B} (m : act A) (f : A -> act B) : act B := fun h => match m h with Goes a h' => f a h' | Exits h' => Exits h' | Undefined => Undefined end.
Notation "m ;; k" := (bind m (fun _ => k)) (at level 61, right associativity).
Definition stop {A} : act A := fun h => Exits h.

(** src/wg-quick/android.c:176-199 cmd; [exiting]: is_exiting *)
Definition cmd (w : world) (exiting : bool) (t : list Z) : act unit := fun h =>
  if negb (w_status w h (plain t) =? 0) && negb exiting then Exits (h ++ [plain t]) else Goes tt (h ++ [plain t]).
(** src/wg-quick/android.c:216-242 cndc; the text begins with the "ndc " of line 221 *)
Definition cndc (w : world) (t : list Z) : act unit := fun h =>
  match w_lines w h t with
  | [] => Exits (h ++ [plain t])
  | l :: _ => if (400 <=? atoi l) && (atoi l <? 600) then Exits (h ++ [plain t]) else Goes tt (h ++ [plain t])
  end.
(** cmd or cndc for the texts of the other parts *)
Definition issue (w : world) (exiting : bool) (t : list Z) : act unit :=
  match after_prefix (str "ndc ") t with Some _ => cndc w t | None => cmd w exiting t end.
Fixpoint issue_all (w : world) (exiting : bool) (ts : list (list Z)) : act unit :=
  match ts with [] => ret tt | t :: ts' => issue w exiting t ;; issue_all w exiting ts' end.
(** cmd_ret until NULL *)
Definition ask (w : world) (t : list Z) : act (list (list Z)) := fun h => Goes (w_lines w h t) h.

(** src/wg-quick/android.c:638-676 del_if *)
Definition del_if (w : world) (ulmax : Z) (exiting : bool) (iface : list Z) : act unit :=
  cmd w exiting (str "ip link del " ++ iface) ;;
  bind (ask w (str "iptables-save")) (fun ls => issue_all w exiting (delete_rules (str "iptables") iface ls)) ;;
  bind (ask w (str "ip6tables-save")) (fun ls => issue_all w exiting (delete_rules (str "ip6tables") iface ls)) ;;
  bind (ask w (str "ip rule show")) (fun ls => issue_all w exiting (destroy_network ulmax iface ls)).

(** src/wg-quick/android.c:633-636, 1047-1067 add_if, set_config *)
Definition add_if (w : world) (iface : list Z) : act unit := cmd w false (str "ip link add " ++ iface ++ str " type wireguard").
Definition set_config (w : world) (iface config : list Z) : act unit := fun h =>
  let d := mk_deed (str "wg setconf " ++ iface ++ str " /proc/self/fd/0") (Some config) in
  if w_status w h d =? 0 then Goes tt (h ++ [d]) else Exits (h ++ [d]).
(** src/wg-quick/android.c:697-715 determine_listen_port *)
Definition determine_listen_port (w : world) (ulmax : Z) (iface : list Z) : act Z :=
  cmd w false (str "ip link set up dev " ++ iface) ;;
  bind (ask w (str "wg show " ++ iface ++ str " listen-port")) (fun ls =>
  cmd w false (str "ip link set down dev " ++ iface) ;;
  ret (listen_port ulmax ls)).
(** src/wg-quick/android.c:721-722: the loop "while netid < 4096, netid = random() & 0xfffe", for the random numbers drawn *)
Fixpoint draw_netid (random : list Z) : option Z :=
  match random with
  | [] => None
  | r :: rs => let n := Z.land r 65534 in if n <? 4096 then draw_netid rs else Some n
  end.
(** src/wg-quick/android.c:717-734 up_if *)
Definition comment (iface : list Z) : list Z := str " -m comment --comment ""wireguard rule " ++ iface ++ str """".
Definition up_if (w : world) (sdk : Z) (random : list Z) (iface : list Z) (port : Z) : act Z :=
  match draw_netid random with
  | None => fun _ => Undefined
  | Some netid =>
      cmd w false (str "wg set " ++ iface ++ str " fwmark 0x20000") ;;
      cmd w false (str "iptables -I OUTPUT 1 -m mark --mark 0x20000 -j ACCEPT" ++ comment iface) ;;
      cmd w false (str "ip6tables -I OUTPUT 1 -m mark --mark 0x20000 -j ACCEPT" ++ comment iface) ;;
      (if negb (port =? 0) then
         cmd w false (str "iptables -I INPUT 1 -p udp --dport " ++ print_dec port ++ str " -j ACCEPT" ++ comment iface) ;;
         bind (ask w (str "wg show " ++ iface ++ str " endpoints")) (fun ls =>
         cmd w false (str "ip6tables -I INPUT 1 -p udp --dport " ++ print_dec port ++ str " -j " ++ (if should_block_ipv6 ls then str "DROP" else str "ACCEPT") ++ comment iface))
       else ret tt) ;;
      cmd w false (str "ip link set up dev " ++ iface) ;;
      cndc w (if sdk <? 31 then str "ndc network create " ++ print_dec netid ++ str " vpn 1 1" else str "ndc network create " ++ print_dec netid ++ str " vpn 1") ;;
      cndc w (str "ndc network interface add " ++ print_dec netid ++ str " " ++ iface) ;;
      ret netid
  end.
(** src/wg-quick/android.c:837-932 set_dnses, without Binder *)
Definition set_dnses (w : world) (netid : Z) (dnses : list Z) : act unit :=
  match dns_parts dnses with
  | Is None => ret tt
  | Is (Some x) => issue w false (dns_command netid x)
  | _ => fun _ => Undefined
  end.
(** src/wg-quick/android.c:787-835 set_users *)
Definition set_users_of (w : world) (ulmax netid : Z) (excluded included : option (list Z)) : act unit :=
  match set_users ulmax (w_packages w) netid excluded included with
  | Is cs => issue_all w false cs
  | Fails => stop
  | _ => fun _ => Undefined
  end.
(** src/wg-quick/android.c:1069-1075 broadcast_change; [from_app]: CALLING_PACKAGE is com.wireguard.android *)
Definition broadcast (w : world) (from_app : bool) : act unit :=
  if from_app then ret tt else cmd w false (str "am broadcast -a com.wireguard.android.action.REFRESH_TUNNEL_STATES com.wireguard.android").

(** What is given: the interface, its settings as parse_options leaves them (no NULL where it fills them in; the lists of applications with the memory behind them). *)
Record wanted := mk_wanted { q_iface : list Z; q_config : list Z; q_mtu : Z; q_addrs : list Z; q_dnses : list Z; q_excluded : option (list Z); q_included : option (list Z) }.
(** src/wg-quick/android.c:1117-1138: the steps that have the cleanup behind them *)
Definition up_steps (w : world) (ulmax sdk : Z) (random : list Z) (from_app : bool) (q : wanted) : act unit :=
  add_if w (q_iface q) ;;
  set_config w (q_iface q) (q_config q) ;;
  bind (determine_listen_port w ulmax (q_iface q)) (fun port =>
  bind (up_if w sdk random (q_iface q) port) (fun netid =>
  issue_all w false (set_addr (q_iface q) (q_addrs q)) ;;
  set_dnses w netid (q_dnses q) ;;
  bind (ask w (str "wg show " ++ q_iface q ++ str " allowed-ips")) (fun ls => issue_all w false (set_routes (q_iface q) netid ls)) ;;
  (fun h => issue w false (set_mtu (w_lines w h) (q_iface q) (q_mtu q)) h) ;;
  set_users_of w ulmax netid (q_excluded q) (q_included q) ;;
  broadcast w from_app)).
(** How the program ends: successfully or not, and what was done. *)
Inductive ended := Succeeded (h : list deed) | Failed (h : list deed) | No_telling.
(** src/wg-quick/android.c:1107-1143 cmd_up_cleanup, cmd_up *)
Definition cmd_up (w : world) (ulmax sdk : Z) (random : list Z) (from_app : bool) (q : wanted) : ended :=
  match w_lines w [] (str "ip link show dev " ++ q_iface q ++ str " 2>/dev/null") with
  | _ :: _ => Failed []
  | [] =>
      match up_steps w ulmax sdk random from_app q [] with
      | Goes _ h => Succeeded h
      | Exits h => match del_if w ulmax true (q_iface q) h with Goes _ h' | Exits h' => Failed h' | Undefined => No_telling end
      | Undefined => No_telling
      end
  end.
(** src/wg-quick/android.c:1145-1167 cmd_down *)
Definition cmd_down (w : world) (ulmax : Z) (from_app : bool) (iface : list Z) : ended :=
  let listed := match w_lines w [] (str "wg show interfaces") with [] => [] | l :: _ => strtok_routes [] l end in
  if existsb (beq iface) listed then
    match (del_if w ulmax false iface ;; broadcast w from_app) [] with Goes _ h => Succeeded h | Exits h => Failed h | Undefined => No_telling end
  else Failed [].
