(** Model of src/wg-quick/openbsd.bash, apart from parse_options (QuickMain.v; the text is that of linux.bash, but for lines that ask stat) and the host
    routes to endpoints (BsdRoutes.v).  The functions that are the same as on FreeBSD, with REAL_INTERFACE for INTERFACE, are those of FreeQuick.v.

    Commands, answers and systems are those of QuickRun.v.  Not modelled: the echo of commands, the wording of messages, redirections to /dev/null, failures of
    the builtin echo, signals that arrive while no command runs.  The script does not initialise REAL_INTERFACE, FIRSTADDR4, FIRSTADDR6, AUTO_ROUTE4 and
    AUTO_ROUTE6; here they are not set in the environment it is started in. *)
From Coq Require Import String ZArith List Bool.
From Verif Require Import Base Cstr Bash Quick QuickRun QuickSave QuickMain Sh BsdRoutes FreeQuick.
Import ListNotations.
Open Scope Z_scope.

(** ** Text *)
Definition lowerb (c : Z) : bool := (97 <=? c) && (c <=? 122).
Definition digitb (c : Z) : bool := (48 <=? c) && (c <=? 57).
(** src/wg-quick/openbsd.bash:93: ^([a-z]+[0-9]+):\ .+ *)
Definition header (line : list Z) : option (list Z) :=
  let l := take_while lowerb line in let r := drop_while lowerb line in
  let n := take_while digitb r in let t := drop_while digitb r in
  match l, n, t with
  | _ :: _, _ :: _, 58 :: 32 :: _ :: _ => Some (l ++ n)
  | _, _, _ => None
  end.
(** src/wg-quick/openbsd.bash:97: ^\<TAB>description:\ wg-quick:\ (.+), whose group is to be the name *)
Definition describes (ifc line : list Z) : bool :=
  match strip_prefix (9 :: !"description: wg-quick: ") line with
  | Some ((_ :: _) as r) => beq r ifc
  | _ => false
  end.
(** src/wg-quick/openbsd.bash:92-101: the loop; [cur] is the variable interface.  [IFS= read -r] leaves blanks alone. *)
Fixpoint scan (ifc : list Z) (lines : list (list Z)) (cur : list Z) : option (list Z) :=
  match lines with
  | [] => None
  | l :: ls =>
      match header l with
      | Some i => scan ifc ls i
      | None => if starts_with !"wg" cur && describes ifc l then Some cur else scan ifc ls cur
      end
  end.

(** src/wg-quick/openbsd.bash:107-109: the first wgN that is not among the names.  There are no more names than [length taken], so the first free number is at
    most that. *)
Definition wgn (n : nat) : list Z := !"wg" ++ print_dec (Z.of_nat n).
Definition free_name (taken : list (list Z)) : list Z :=
  match find (fun n => negb (existsb (beq (wgn n)) taken)) (seq 0 (S (length taken))) with
  | Some n => wgn n
  | None => wgn (S (length taken))
  end.

(** src/wg-quick/openbsd.bash:158, 161: FIRSTADDR6 and FIRSTADDR4, when all addresses have been added: "${1%/*}" of the first of the family, unless it is empty *)
Definition of_family (v6 : bool) (a : list Z) : bool := Bool.eqb (has_char 58 a) v6.
Definition first_addr (v6 : bool) (addresses : list (list Z)) : list Z :=
  match filter (fun a => negb (beq a [])) (map dirname (filter (of_family v6) addresses)) with
  | a :: _ => a
  | [] => []
  end.

Section Open.
Variable sys : system.
Variable glob : list Z -> list (list Z).
Variable fuel : nat.
Variable ifc : list Z.                               (* INTERFACE *)
Variable o : options.
Variable config_file : list Z.                       (* CONFIG_FILE *)
Variable amp : bool.                                 (* bash is 5.2 or later *)

(** src/wg-quick/openbsd.bash:90-103 get_real_interface *)
Definition get_real_interface : act vars (option (list Z)) :=
  out <~ feed sys [!"ifconfig"] ;;
  pure (scan ifc (fst (raw_lines out)) []).

(** src/wg-quick/openbsd.bash:105-118 add_if; the result is REAL_INTERFACE.  The text that sed makes of the names (line 107) becomes the keys of an array. *)
Definition exists_text : list Z := !"ifconfig: SIOCIFCREATE: File exists".
Fixpoint add_if (n : nat) : act vars (list Z) :=
  match n with
  | O => fun s => Spin s
  | S n' =>
      names <~ ask sys [!"wg"; !"show"; !"interfaces"] ;;
      let real := free_name (words names) in
      a <~ call sys (argv [!"ifconfig"; real; !"create"; !"description"; !"wg-quick: " ++ ifc]) ;;
      if a_status a =? 0 then pure real
      else if contains exists_text (captured (a_output a)) then add_if n'
      else quit 1
  end.

(** src/wg-quick/openbsd.bash:302-306 unset_dns; [real] is empty as long as there is no interface *)
Definition resolv_conf : list Z := !"/etc/resolv.conf".
Definition backup : list Z := !"/etc/resolv.conf.wg-quick-backup." ++ ifc.
Definition unset_dns (real : list Z) : act vars unit :=
  there <~ holds sys [!"test"; !"-f"; backup] ;;
  if there then
    must sys ([!"route"; !"nameserver"] ++ match real with [] => [] | _ => [real] end) ;~
    must sys [!"mv"; backup; resolv_conf]
  else pure tt.
(** src/wg-quick/openbsd.bash:145-148 del_if: without an interface its last command is false, and "set -e" ends the script *)
Definition del_if (real : list Z) : act vars unit :=
  unset_dns real ;~
  match real with
  | [] => quit 1
  | _ => must sys [!"ifconfig"; real; !"destroy"]
  end.
(** src/wg-quick/openbsd.bash:120-143 del_routes: line 122 *)
Definition del_routes_of (real : list Z) : act vars unit := match real with [] => pure tt | _ => del_routes sys real end.
(** src/wg-quick/openbsd.bash:419: the trap *)
Definition undo (real : list Z) : act vars unit := del_if real ;~ del_routes_of real.

Section Real.
Variable real : list Z.                              (* REAL_INTERFACE *)
(** src/wg-quick/openbsd.bash:284-300 set_dns; the array DNS is not quoted in line 299 *)
Definition set_dns : act vars unit :=
  match o_dns o with
  | [] => pure tt
  | _ =>
      unwind <~ holds sys [!"pgrep"; !"-qx"; !"unwind"] ;;
      resolvd <~ (if unwind then pure true else holds sys [!"pgrep"; !"-qx"; !"resolvd"]) ;;
      if resolvd then
        must sys [!"cp"; resolv_conf; backup] ;~
        (match o_search o with
         | [] => pure tt
         | ds => must_in sys [!">"; resolv_conf] (!"search " ++ join_sp ds ++ [10])
         end) ;~
        must sys ([!"route"; !"nameserver"; real] ++ flat_map (expand glob) (o_dns o))
      else pure tt
  end.

(** src/wg-quick/openbsd.bash:308-337 add_route *)
Definition add_route (r : list Z) : act vars unit :=
  if beq (o_table o) !"off" then pure tt
  else
    match first_addr (has_char 58 r) (o_addresses o) with
    | [] => quit 1
    | local =>
        if negb (auto_table o) then must sys [!"route"; !"-q"; !"-n"; !"-T"; o_table o; !"add"; 45 :: inet r; r; !"-iface"; local]
        else if ends_with !"/0" r then
          (if has_char 58 r then
             put with_auto6 ;~
             must sys [!"route"; !"-q"; !"-n"; !"add"; !"-inet6"; !"::/1"; !"-iface"; local] ;~
             must sys [!"route"; !"-q"; !"-n"; !"add"; !"-inet6"; !"8000::/1"; !"-iface"; local]
           else
             put with_auto4 ;~
             must sys [!"route"; !"-q"; !"-n"; !"add"; !"-inet"; !"0.0.0.0/1"; !"-iface"; local] ;~
             must sys [!"route"; !"-q"; !"-n"; !"add"; !"-inet"; !"128.0.0.0/1"; !"-iface"; local])
        else
          out <~ ask sys [!"route"; !"-n"; !"get"; 45 :: inet r; r] ;;
          if somewhere (named_pattern real) out then pure tt
          else must sys [!"route"; !"-q"; !"-n"; !"add"; 45 :: inet r; r; !"-iface"; local]
    end.
(** src/wg-quick/openbsd.bash:429-431 *)
Definition add_routes : act vars unit :=
  out <~ feed sys [!"wg"; !"show"; real; !"allowed-ips"] ;;
  sorted <~ call sys (mk_cmd [!"sort"; !"-nr"; !"-k"; !"2"; !"-t"; !"/"] (concat (map (fun r => r ++ [10]) (route_lines glob (read_complete out))))) ;;
  each add_route (expand glob (captured (a_output sorted))).

(** src/wg-quick/openbsd.bash:379-387 execute_hooks *)
Definition hook_text (hook : list Z) : list Z := replace_all (!"%I") ifc (replace_all (!"%i") real hook).
Definition execute_hooks (hooks : list (list Z)) : act vars unit := each (fun h => must sys [!"eval"; hook_text h]) hooks.

(** src/wg-quick/openbsd.bash:421-434: cmd_up after add_if.  The monitor (265-282) runs in the background; its loop and its end are in BsdRoutes.v. *)
Definition after_add_if : act vars unit :=
  execute_hooks (o_preup o) ;~
  must_in sys [!"wg"; !"setconf"; real; !"/dev/fd/63"] (handed o) ;~
  each (add_addr sys real) (o_addresses o) ;~
  set_mtu sys real o ;~
  must sys [!"ifconfig"; real; !"up"] ;~
  set_dns ;~
  add_routes ;~
  direct_routes sys real ;~
  try sys [!"monitor_daemon"; !"&"] ;~
  execute_hooks (o_postup o).

(** src/wg-quick/openbsd.bash:345-352: the lines of netstat, but for those of the link layer *)
Definition own_addresses (lines : list (list Z)) : list (list Z) :=
  flat_map (fun l => if contains !"Link" (field 2 l) then [] else [field 3 l]) lines.
(** src/wg-quick/openbsd.bash:344-369 *)
Definition prepare : act vars (list Z * list Z) :=
  out <~ feed sys [!"netstat"; !"-I"; real; !"-n"; !"-v"] ;;
  ls <~ tail_lines out ;;
  old <~ ask sys [!"umask"] ;;
  must sys [!"umask"; !"077"] ;~
  c <~ call sys (argv [!"wg"; !"showconf"; real]) ;;
  if negb (a_status c =? 0) then quit (a_status c)
  else pure (old, saved_text amp (new_config o (own_addresses ls) (o_dns o) (match o_mtu o with [] => None | m => Some m end)) (captured (a_output c))).
(** src/wg-quick/openbsd.bash:343-377 save_config, followed by [rest]; outside of lines 370 to 375 there is no trap *)
Definition save_config (rest : act vars unit) : sh vars -> outcome :=
  region (pure tt) prepare (fun r =>
    region (must sys [!"rm"; !"-f"; tmp_file config_file]) (replace_file sys config_file (snd r))
      (fun _ => region (pure tt) (must sys [!"umask"; fst r] ;~ rest) (fun _ s => (Some 0, s_hist s)))).
(** src/wg-quick/openbsd.bash:442-444 *)
Definition down_rest : act vars unit := del_if real ;~ unset_dns real ;~ execute_hooks (o_postdown o).
End Real.

(** src/wg-quick/openbsd.bash:416-436 cmd_up.  REAL_INTERFACE is set when add_if returns. *)
Definition cmd_up : sh vars -> outcome :=
  region (pure tt) (r <~ get_real_interface ;; match r with Some _ => quit 1 | None => pure tt end) (fun _ =>
    region (undo []) (add_if fuel) (fun real =>
      region (undo real) (after_add_if real) (fun _ s => (Some 0, s_hist s)))).
(** src/wg-quick/openbsd.bash:439 and 448 *)
Definition must_be_there : act vars (list Z) := r <~ get_real_interface ;; match r with Some real => pure real | None => quit 1 end.
(** src/wg-quick/openbsd.bash:438-445 cmd_down *)
Definition cmd_down : sh vars -> outcome :=
  region (pure tt) (real <~ must_be_there ;; execute_hooks real (o_predown o) ;~ pure real) (fun real =>
    if o_save o then save_config real (down_rest real) else region (pure tt) (down_rest real) (fun _ s => (Some 0, s_hist s))).
(** src/wg-quick/openbsd.bash:447-450 cmd_save *)
Definition cmd_save : sh vars -> outcome := region (pure tt) must_be_there (fun real => save_config real (pure tt)).
End Open.

(** ** The whole script *)
Section Main.
Variable sys : system.
Variable glob : list Z -> list (list Z).
Variable fuel : nat.
Variable amp : bool.
Variable fs : files.
Variable uid : Z.
Variables bash self : list Z.

(** src/wg-quick/openbsd.bash:85-87 auto_su *)
Definition doas (args : list (list Z)) : list (list Z) := [!"doas"; !"--"; bash; !"--"; self] ++ args.
Definition with_options (args : list (list Z)) (arg : list Z) (f : list said -> list Z -> list Z -> options -> ran) : ran :=
  if uid =? 0 then
    match QuickMain.find_options glob fs arg with
    | (err, inl st) => mk_ran (Ends st) [] err []
    | (err, inr (ifc, conf, o)) => f err ifc conf o
    end
  else mk_ran (Becomes (doas args)) [] [] [].
(** src/wg-quick/openbsd.bash:458-480 *)
Definition main (args : list (list Z)) : ran :=
  match args with
  | [a] =>
      if beq a !"--help" || beq a !"-h" || beq a !"help" then mk_ran (Ends 0) [] [Usage] []
      else mk_ran (Ends 1) [] [Usage] []
  | [v; arg] =>
      if beq v !"up" then with_options args arg (fun err ifc conf o => of_outcome err (cmd_up sys glob fuel ifc o (mk_sh [] vars0)))
      else if beq v !"down" then with_options args arg (fun err ifc conf o => of_outcome err (cmd_down sys ifc o conf amp (mk_sh [] vars0)))
      else if beq v !"save" then with_options args arg (fun err ifc conf o => of_outcome err (cmd_save sys ifc o conf amp (mk_sh [] vars0)))
      else if beq v !"strip" then with_options args arg (fun err ifc conf o => mk_ran (Ends 0) (cmd_strip o) err [])
      else mk_ran (Ends 1) [] [Usage] []
  | _ => mk_ran (Ends 1) [] [Usage] []
  end.
End Main.
