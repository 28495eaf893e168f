(** Model of src/wg-quick/freebsd.bash, apart from parse_options' loop (Quick.v; the text is that of linux.bash) and the host routes to endpoints
    (BsdRoutes.v).

    Commands, answers and systems are those of QuickRun.v.  Not modelled: the echo of commands, the wording of messages, redirections to /dev/null
    (for "ifconfig wg create" the output is what it writes to standard error, freebsd.bash:119), failures of the builtins echo and printf, the
    variable TMPDIR as such, signals that arrive while no command runs. *)
From Coq Require Import String ZArith List Bool.
From Verif Require Import Base Cstr Bash Quick QuickRun QuickSave QuickMain Sh BsdRoutes.
Import ListNotations.
Open Scope Z_scope.

(** ** Text *)
(** src/wg-quick/freebsd.bash:194 and 198: interface:\ ([^ ]+)$'\n'.  The group is the longest: it ends before the last newline of what follows up to
    the next space. *)
Fixpoint device_named (s : list Z) : option (list Z) :=
  match strip_prefix (!"interface: ") s with
  | Some r => match split_last 10 (take_while (fun c => negb (c =? 32)) r) with
              | Some ((_ :: _) as g, _) => Some g
              | _ => match s with [] => None | _ :: s' => device_named s' end
              end
  | None => match s with [] => None | _ :: s' => device_named s' end
  end.
(** src/wg-quick/freebsd.bash:335: interface:\ $INTERFACE$'\n', where the name is not quoted, so a dot stands for any character and a plus for one or
    more of what precedes it. *)
Definition named_pattern (ifc : list Z) : list atom := let p := !"interface: " ++ ifc ++ [10] in name_atoms (length p) p.
Fixpoint somewhere (l : list atom) (s : list Z) : bool :=
  match rests l s with
  | _ :: _ => true
  | [] => match s with [] => false | _ :: s' => somewhere l s' end
  end.

Section Free.
Variable sys : system.
Variable glob : list Z -> list (list Z).
Variable fuel : nat.
Variable ifc : list Z.                               (* INTERFACE *)
Variable o : options.
Variable config_file : list Z.                       (* CONFIG_FILE *)
Variable userspace : list Z.                         (* ${WG_QUICK_USERSPACE_IMPLEMENTATION:-wireguard-go} *)
Variable amp : bool.                                 (* bash is 5.2 or later *)

(** src/wg-quick/freebsd.bash:44-58 make_temp; the status of mktemp is lost in the assignment *)
Definition make_temp : act vars unit :=
  old <~ ask sys [!"umask"] ;;
  must sys [!"umask"; !"077"] ;~
  dir <~ ask sys [!"mktemp"; !"-d"] ;;
  must sys [!"umask"; old] ;~
  ok <~ holds sys [!"test"; !"-d"; dir] ;;
  if ok then put (with_tmp dir) else quit 1.
(** src/wg-quick/freebsd.bash:60-62 clean_temp *)
Definition clean_temp : act vars unit :=
  get (fun v => match v_tmp v with [] => quit 1 | d => must sys [!"rm"; !"-rf"; d] end).

(** src/wg-quick/freebsd.bash:117-129 add_if.  [rc=$?] (line 122) sees the status of the if command, which is 0. *)
Definition taken_name : list Z := !"ifconfig: ioctl SIOCSIFNAME (set name): File exists".
Definition add_if : act vars unit :=
  a <~ call sys (argv [!"ifconfig"; !"wg"; !"create"; !"name"; ifc]) ;;
  if a_status a =? 0 then pure tt
  else if contains taken_name (captured (a_output a)) then pure tt
  else must sys [userspace; ifc].

(** src/wg-quick/freebsd.bash:303-314 *)
Definition set_dns : act vars unit :=
  match o_dns o with
  | [] => pure tt
  | _ => must_in sys [!"resolvconf"; !"-a"; ifc; !"-x"] (dns_text o) ;~ put with_dns
  end.
Definition unset_dns : act vars unit :=
  match o_dns o with
  | [] => pure tt
  | _ => must sys [!"resolvconf"; !"-d"; ifc]
  end.

(** src/wg-quick/freebsd.bash:155-169 del_if *)
Definition socket : list Z := !"/var/run/wireguard/" ++ ifc ++ !".sock".
Fixpoint wait_gone (n : nat) : act vars unit :=
  match n with
  | O => fun s => Spin s
  | S n' =>
      up <~ holds sys [!"ifconfig"; ifc] ;;
      if up then must sys [!"sleep"; !"0.1"] ;~ wait_gone n' else pure tt
  end.
Definition del_if : act vars unit :=
  get (fun v => if v_dns v then unset_dns else pure tt) ;~
  sock <~ holds sys [!"test"; !"-S"; socket] ;;
  (if sock then must sys [!"rm"; !"-f"; socket] else must sys [!"ifconfig"; ifc; !"destroy"]) ;~
  wait_gone fuel.

(** src/wg-quick/freebsd.bash:175-181, 317-318 *)
Definition inet (a : list Z) : list Z := if has_char 58 a then !"inet6" else !"inet".
Definition add_addr (a : list Z) : act vars unit := must sys [!"ifconfig"; ifc; inet a; a; !"alias"].

(** src/wg-quick/freebsd.bash:194, 198: the interface is asked only when the route names one *)
Definition device_mtu (out : list Z) : act vars (option Z) :=
  match device_named out with
  | None => pure None
  | Some d => link <~ ask sys [!"ifconfig"; d] ;; pure (mtu_field link)
  end.
(** src/wg-quick/freebsd.bash:189-195 *)
Fixpoint peers_mtu (lines : list (list Z)) (mtu : Z) : act vars Z :=
  match lines with
  | [] => pure mtu
  | l :: ls =>
      match endpoint_host (second_field l) with
      | None => peers_mtu ls mtu
      | Some h =>
          out <~ ask sys [!"route"; !"-n"; !"get"; 45 :: inet h; h] ;;
          m <~ device_mtu out ;;
          peers_mtu ls (larger mtu m)
      end
  end.
Definition less_80 (m : Z) : list Z := if m <? 80 then 45 :: print_dec (80 - m) else print_dec (m - 80).
(** src/wg-quick/freebsd.bash:183-202 set_mtu; line 197 reads the first line, without its newline *)
Definition set_mtu : act vars unit :=
  match o_mtu o with
  | _ :: _ => must sys [!"ifconfig"; ifc; !"mtu"; o_mtu o]
  | [] =>
      eps <~ feed sys [!"wg"; !"show"; ifc; !"endpoints"] ;;
      mtu1 <~ peers_mtu (read_complete eps) 0 ;;
      mtu2 <~ (if mtu1 =? 0 then
                 out <~ feed sys [!"route"; !"-n"; !"get"; !"default"] ;;
                 m <~ device_mtu (trim blankb (before 10 (no_nul out))) ;;
                 pure (larger mtu1 m)
               else pure mtu1) ;;
      must sys [!"ifconfig"; ifc; !"mtu"; less_80 (if 0 <? mtu2 then mtu2 else 1500)]
  end.

(** src/wg-quick/freebsd.bash:316-337 add_route *)
Definition add_route (r : list Z) : act vars unit :=
  if beq (o_table o) !"off" then pure tt
  else if negb (auto_table o) then must sys [!"route"; !"-q"; !"-n"; !"add"; 45 :: inet r; !"-fib"; o_table o; r; !"-interface"; ifc]
  else if ends_with !"/0" r then
    (if has_char 58 r then
       put with_auto6 ;~
       must sys [!"route"; !"-q"; !"-n"; !"add"; !"-inet6"; !"::/1"; !"-interface"; ifc] ;~
       must sys [!"route"; !"-q"; !"-n"; !"add"; !"-inet6"; !"8000::/1"; !"-interface"; ifc]
     else
       put with_auto4 ;~
       must sys [!"route"; !"-q"; !"-n"; !"add"; !"-inet"; !"0.0.0.0/1"; !"-interface"; ifc] ;~
       must sys [!"route"; !"-q"; !"-n"; !"add"; !"-inet"; !"128.0.0.0/1"; !"-interface"; ifc])
  else
    out <~ ask sys [!"route"; !"-n"; !"get"; 45 :: inet r; r] ;;
    if somewhere (named_pattern ifc) out then pure tt
    else must sys [!"route"; !"-q"; !"-n"; !"add"; 45 :: inet r; r; !"-interface"; ifc].
(** src/wg-quick/freebsd.bash:432-434: as in linux.bash:338-340 *)
Definition add_routes : act vars unit :=
  out <~ feed sys [!"wg"; !"show"; ifc; !"allowed-ips"] ;;
  sorted <~ call sys (mk_cmd [!"sort"; !"-nr"; !"-k"; !"2"; !"-t"; !"/"] (concat (map (fun r => r ++ [10]) (route_lines glob (read_complete out))))) ;;
  each add_route (expand glob (captured (a_output sorted))).

(** src/wg-quick/freebsd.bash:381-388 execute_hooks *)
Definition execute_hooks (hooks : list (list Z)) : act vars unit := each (fun h => must sys [!"eval"; hook_text ifc h]) hooks.
(** src/wg-quick/freebsd.bash:435 *)
Definition direct_routes : act vars unit := get (fun v => if v_auto4 v || v_auto6 v then set_endpoint_direct_route sys ifc false else pure tt).

(** src/wg-quick/freebsd.bash:423-438: the part of cmd_up after add_if.  The monitor (282-300) is started in the background; its loop and its end are
    in BsdRoutes.v. *)
Definition after_add_if : act vars unit :=
  execute_hooks (o_preup o) ;~
  must_in sys [!"wg"; !"setconf"; ifc; !"/dev/stdin"] (handed o) ;~
  each add_addr (o_addresses o) ;~
  set_mtu ;~
  must sys [!"ifconfig"; ifc; !"up"] ;~
  set_dns ;~
  add_routes ;~
  direct_routes ;~
  try sys [!"monitor_daemon"; !"&"] ;~
  execute_hooks (o_postup o).
(** src/wg-quick/freebsd.bash:422: the trap *)
Definition undo : act vars unit := del_if ;~ del_routes sys ifc ;~ clean_temp.
(** The end of the script with [trap 'clean_temp; exit' INT TERM EXIT] set (line 487) *)
Definition the_end (s : sh vars) : outcome := at_exit clean_temp 0 s.
(** src/wg-quick/freebsd.bash:419-439 cmd_up, from the state after make_temp *)
Definition cmd_up : sh vars -> outcome :=
  region clean_temp (link <~ ask sys [!"ifconfig"; ifc] ;; if negb (beq link []) then quit 1 else pure tt)
    (fun _ => region undo (add_if ;~ after_add_if) (fun _ => the_end)).

(** ** Saving, and taking the interface down *)
(** [read -r _] at the beginning of each group (freebsd.bash:346, 349) ends the script if there is no line to read. *)
Definition tail_lines (text : list Z) : act vars (list (list Z)) :=
  match read_complete text with [] => quit 1 | _ :: ls => pure ls end.
(** src/wg-quick/freebsd.bash:344-353 *)
Definition gather : act vars (list Z) :=
  t4 <~ feed sys [!"netstat"; !"-I"; ifc; !"-n"; !"-W"; !"-f"; !"inet"] ;;
  l4 <~ tail_lines t4 ;;
  t6 <~ feed sys [!"netstat"; !"-I"; ifc; !"-n"; !"-W"; !"-f"; !"inet6"] ;;
  l6 <~ tail_lines t6 ;;
  ns <~ feed sys [!"resolvconf"; !"-l"; ifc] ;;
  pure (new_config o (map (field 3) (l4 ++ l6))
                   (flat_map (fun l => match nameserver l with Some v => [v] | None => [] end) (read_complete ns))
                   (match o_mtu o with [] => None | m => Some m end)).
(** src/wg-quick/freebsd.bash:344-371 *)
Definition prepare : act vars (list Z * list Z) :=
  new <~ gather ;;
  old <~ ask sys [!"umask"] ;;
  must sys [!"umask"; !"077"] ;~
  c <~ call sys (argv [!"wg"; !"showconf"; ifc]) ;;
  if negb (a_status c =? 0) then quit (a_status c)
  else pure (old, saved_text amp new (captured (a_output c))).
(** src/wg-quick/freebsd.bash:373-375 *)
Definition replace_file (text : list Z) : act vars unit :=
  w <~ call sys (mk_cmd [!">"; tmp_file config_file] text) ;;
  if negb (a_status w =? 0) then quit 1
  else
    must sys [!"sync"; tmp_file config_file] ;~
    m <~ call sys (argv [!"mv"; tmp_file config_file; config_file]) ;;
    if negb (a_status m =? 0) then quit 1 else pure tt.
(** src/wg-quick/freebsd.bash:343-379 save_config, followed by [rest] *)
Definition save_config (rest : act vars unit) : sh vars -> outcome :=
  region clean_temp prepare (fun r =>
    region (must sys [!"rm"; !"-f"; tmp_file config_file] ;~ clean_temp) (replace_file (snd r))
      (fun _ => region clean_temp (must sys [!"umask"; fst r] ;~ rest) (fun _ => the_end))).
(** src/wg-quick/freebsd.bash:442 and 451 *)
Definition check_interface : act vars unit :=
  out <~ ask sys [!"wg"; !"show"; !"interfaces"] ;;
  if contains (32 :: ifc ++ [32]) (32 :: out ++ [32]) then pure tt else quit 1.
(** src/wg-quick/freebsd.bash:445-447 *)
Definition down_rest : act vars unit := del_if ;~ unset_dns ;~ execute_hooks (o_postdown o).
(** src/wg-quick/freebsd.bash:441-448 cmd_down *)
Definition cmd_down : sh vars -> outcome :=
  region clean_temp (check_interface ;~ execute_hooks (o_predown o))
    (fun _ => if o_save o then save_config down_rest else region clean_temp down_rest (fun _ => the_end)).
(** src/wg-quick/freebsd.bash:450-453 cmd_save *)
Definition cmd_save : sh vars -> outcome := region clean_temp check_interface (fun _ => save_config (pure tt)).
End Free.

(** ** The whole script *)
Section Main.
Variable sys : system.
Variable glob : list Z -> list (list Z).
Variable fuel : nat.
Variable amp : bool.
Variable userspace : list Z.
Variable fs : files.
Variable uid : Z.
Variables bash self program : list Z.

(** src/wg-quick/freebsd.bash:42 and 67-72: the last path tried, if none exists *)
Fixpoint search (paths : list (list Z)) (name last : list Z) : list Z :=
  match paths with
  | [] => last
  | p :: ps => let c := p ++ [47] ++ name ++ !".conf" in if f_exists fs c then c else search ps name c
  end.
Definition search_paths : list (list Z) := [!"/etc/wireguard"; !"/usr/local/etc/wireguard"].
Definition path_of (arg : list Z) : list Z := if is_name arg then search search_paths arg arg else arg.
(** src/wg-quick/freebsd.bash:64-103 parse_options *)
Definition find_options (arg : list Z) : list said * (Z + (list Z * list Z * options)) :=
  let path := path_of arg in
  if negb (f_exists fs path) then ([NotThere path], inl 1)
  else match interface_of path with
  | None => ([BadName], inl 1)
  | Some ifc =>
      match f_resolve fs path with
      | None => ([], inl 1)
      | Some p =>
          let conf := captured (p ++ [10]) in
          let warning := if world_accessible fs conf then [WorldAccessible conf] else [] in
          match f_read fs conf with
          | None => (warning, inl 1)
          | Some (text, _) =>
              match parse_options glob text with
              | None => (warning ++ [BadBool], inl 1)
              | Some o => (warning, inr (ifc, conf, o))
              end
          end
      end
  end.

Definition finish (err : list said) (out : list Z) (x : outcome) : ran :=
  mk_ran (match fst x with Some st => Ends st | None => Endless end) out err (snd x).
(** With the trap of line 462 set: the script ends with status [st]. *)
Definition ends (err : list said) (out : list Z) (st : Z) (s : sh vars) : ran := finish err out (at_exit (clean_temp sys) st s).
Definition with_options (args : list (list Z)) (arg : list Z) (s : sh vars) (f : list said -> list Z -> list Z -> options -> ran) : ran :=
  if uid =? 0 then
    match find_options arg with
    | (err, inl st) => ends err [] st s
    | (err, inr (ifc, conf, o)) => f err ifc conf o
    end
  else mk_ran (Becomes (sudo bash self program args)) [] [] (s_hist s).
(** src/wg-quick/freebsd.bash:461-487.  [exec sudo] (line 114) does not run the trap. *)
Definition dispatch (args : list (list Z)) (s : sh vars) : ran :=
  match args with
  | [a] =>
      if beq a !"--help" || beq a !"-h" || beq a !"help" then ends [Usage] [] 0 s
      else ends [Usage] [] 1 s
  | [v; arg] =>
      if beq v !"up" then with_options args arg s (fun err ifc conf o => finish err [] (cmd_up sys glob fuel ifc o userspace s))
      else if beq v !"down" then with_options args arg s (fun err ifc conf o => finish err [] (cmd_down sys fuel ifc o conf amp s))
      else if beq v !"save" then with_options args arg s (fun err ifc conf o => finish err [] (cmd_save sys ifc o conf amp s))
      else if beq v !"strip" then with_options args arg s (fun err ifc conf o => ends err (cmd_strip o) 0 s)
      else ends [Usage] [] 1 s
  | _ => ends [Usage] [] 1 s
  end.
Definition start_state : sh vars := mk_sh [] vars0.
Definition main (args : list (list Z)) : ran :=
  match make_temp sys start_state with
  | Fin _ s => dispatch args s
  | Quit st s | Hit st s => mk_ran (Ends st) [] [] (s_hist s)
  | Spin s => mk_ran Endless [] [] (s_hist s)
  end.
End Main.
