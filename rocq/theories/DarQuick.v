(** Model of src/wg-quick/darwin.bash, apart from the loop of parse_options (Quick.v; the text is that of linux.bash), the host routes to endpoints and the monitor
    (BsdRoutes.v) and DNS (DarDns.v).  What is the same as on FreeBSD, with REAL_INTERFACE for INTERFACE, is that of FreeQuick.v.

    Commands, answers and systems are those of QuickRun.v.  Not modelled: the echo of commands, the wording of messages, redirections to /dev/null, failures of
    the builtin echo, signals that arrive while no command runs; detecting launchd, which decides only whether the script waits for the monitor (darwin.bash:87-96,
    345, 518), but for its command.  The script does not initialise REAL_INTERFACE, AUTO_ROUTE4 and AUTO_ROUTE6; here they are not set in the environment it is
    started in. *)
From Coq Require Import String ZArith List Bool.
From Verif Require Import Base Cstr Bash Quick QuickRun QuickSave QuickMain Sh BsdRoutes FreeQuick.
From Verif Require DarDns.
Import ListNotations.
Open Scope Z_scope.

(** ** Text *)
(** src/wg-quick/darwin.bash:379: inet6?\ ([^ ]+) *)
Fixpoint inet_address (s : list Z) : option (list Z) :=
  let next := match s with [] => None | _ :: s' => inet_address s' end in
  match (match strip_prefix !"inet " s with Some r => Some r | None => strip_prefix !"inet6 " s end) with
  | Some r => match take_while (fun c => negb (c =? 32)) r with [] => next | g => Some g end
  | None => next
  end.
(** src/wg-quick/darwin.bash:179-184: the sixth word of the first line that begins with the word default *)
Fixpoint default_device (lines : list (list Z)) : list Z :=
  match lines with
  | [] => []
  | l :: ls => if beq (field 0 l) !"default" then field 5 l else default_device ls
  end.
(** src/wg-quick/darwin.bash:115: the output of stat is a number *)
Definition time_of (default : Z) (a : answer) : Z := if a_status a =? 0 then number (captured (a_output a)) else default.

(** What the DNS part does (DarDns.v), in a script that keeps the other variables.  The arrays are empty when it starts, and what runs in cmd_up afterwards does not
    look at them. *)
Definition with_arrays {A} (m : act DarDns.dvars A) : act vars A := fun s =>
  match m (mk_sh (s_hist s) DarDns.dvars0) with
  | Fin a s1 => Fin a (mk_sh (s_hist s1) (s_vars s))
  | Quit st s1 => Quit st (mk_sh (s_hist s1) (s_vars s))
  | Hit st s1 => Hit st (mk_sh (s_hist s1) (s_vars s))
  | Spin s1 => Spin (mk_sh (s_hist s1) (s_vars s))
  end.

Section Dar.
Variable sys : system.
Variable glob : list Z -> list (list Z).
Variable order : history -> list (list Z) -> list (list Z).
Variable ifc : list Z.                               (* INTERFACE *)
Variable o : options.
Variable config_file : list Z.                       (* CONFIG_FILE *)
Variable userspace : list Z.                         (* ${WG_QUICK_USERSPACE_IMPLEMENTATION:-wireguard-go} *)
Variable amp : bool.                                 (* bash is 5.2 or later *)

Definition name_file : list Z := !"/var/run/wireguard/" ++ ifc ++ !".name".
Definition socket_of (real : list Z) : list Z := !"/var/run/wireguard/" ++ real ++ !".sock".
(** src/wg-quick/darwin.bash:110-121 get_real_interface.  [strict]: "set -e" is in force, that is, the function is not called as a condition.  With "set -e"
    a failure of [wg] or of [$(<...)] ends the script. *)
Definition ask_as (strict : bool) (ws : list (list Z)) : act vars (list Z) :=
  a <~ call sys (argv ws) ;;
  if a_status a =? 0 then pure (captured (a_output a))
  else if strict then quit (a_status a) else pure (captured (a_output a)).
Definition get_real_interface (strict : bool) : act vars (option (list Z)) :=
  ask_as strict [!"wg"; !"show"; !"interfaces"] ;~
  file <~ holds sys [!"test"; !"-f"; name_file] ;;
  if negb file then pure None
  else
    name <~ ask_as strict [!"<"; name_file] ;;
    match name with
    | [] => pure None
    | _ =>
        sock <~ holds sys [!"test"; !"-S"; socket_of name] ;;
        if negb sock then pure None
        else
          t <~ call sys (argv [!"stat"; !"-f"; !"%m"; socket_of name]) ;;
          u <~ call sys (argv [!"stat"; !"-f"; !"%m"; name_file]) ;;
          let diff := time_of 200 t - time_of 100 u in
          pure (if (2 <=? diff) || (diff <=? -2) then None else Some name)
    end.

(** src/wg-quick/darwin.bash:123-128 add_if; the result is REAL_INTERFACE *)
Definition add_if : act vars (list Z) :=
  must sys [!"mkdir"; !"-p"; !"/var/run/wireguard/"] ;~
  must sys [userspace; !"utun"] ;~
  r <~ get_real_interface true ;;
  match r with Some real => pure real | None => quit 1 end.

(** src/wg-quick/darwin.bash:155-158 del_if; [real] is empty as long as REAL_INTERFACE is not set *)
Definition del_if (real : list Z) : act vars unit :=
  match real with [] => pure tt | _ => must sys [!"rm"; !"-f"; socket_of real] end ;~
  must sys [!"rm"; !"-f"; name_file].
(** src/wg-quick/darwin.bash:130-153 del_routes: line 131 *)
Definition del_routes_of (real : list Z) : act vars unit := match real with [] => pure tt | _ => del_routes sys real end.
(** src/wg-quick/darwin.bash:454: the trap *)
Definition undo (real : list Z) : act vars unit := del_if real ;~ del_routes_of real.

Section Real.
Variable real : list Z.                              (* REAL_INTERFACE *)
(** src/wg-quick/darwin.bash:164-170 add_addr *)
Definition add_addr (a : list Z) : act vars unit :=
  if has_char 58 a then must sys [!"ifconfig"; real; !"inet6"; a; !"alias"]
  else must sys [!"ifconfig"; real; !"inet"; a; before 47 a; !"alias"].
(** src/wg-quick/darwin.bash:172-190 set_mtu *)
Definition set_mtu : act vars unit :=
  match o_mtu o with
  | _ :: _ => must sys [!"ifconfig"; real; !"mtu"; o_mtu o]
  | [] =>
      out <~ feed sys [!"netstat"; !"-nr"; !"-f"; !"inet"] ;;
      mtu <~ (match default_device (read_complete out) with
              | [] => pure 0
              | d => link <~ ask sys [!"ifconfig"; d] ;; pure (match mtu_field link with Some m => m | None => 0 end)
              end) ;;
      own <~ ask sys [!"ifconfig"; real] ;;
      let m := if 0 <? mtu then mtu else 1500 in
      if m - 80 =? match mtu_field own with Some c => c | None => -1 end then pure tt
      else must sys [!"ifconfig"; real; !"mtu"; less_80 m]
  end.
(** src/wg-quick/darwin.bash:348-369 add_route *)
Definition add_route (r : list Z) : act vars unit :=
  if beq (o_table o) !"off" then pure tt
  else if ends_with !"/0" r && auto_table o then
    (if has_char 58 r then
       put with_auto6 ;~
       must sys [!"route"; !"-q"; !"-n"; !"add"; !"-inet6"; !"::/1"; !"-interface"; real] ;~
       must sys [!"route"; !"-q"; !"-n"; !"add"; !"-inet6"; !"8000::/1"; !"-interface"; real]
     else
       put with_auto4 ;~
       must sys [!"route"; !"-q"; !"-n"; !"add"; !"-inet"; !"0.0.0.0/1"; !"-interface"; real] ;~
       must sys [!"route"; !"-q"; !"-n"; !"add"; !"-inet"; !"128.0.0.0/1"; !"-interface"; real])
  else if negb (beq (o_table o) !"main" || auto_table o) then quit 1
  else
    out <~ ask sys [!"route"; !"-n"; !"get"; 45 :: inet r; r] ;;
    if somewhere (named_pattern real) out then pure tt
    else must sys [!"route"; !"-q"; !"-n"; !"add"; 45 :: inet r; r; !"-interface"; real].
(** src/wg-quick/darwin.bash:463-465 *)
Definition add_routes : act vars unit :=
  out <~ feed sys [!"wg"; !"show"; real; !"allowed-ips"] ;;
  sorted <~ call sys (mk_cmd [!"sort"; !"-nr"; !"-k"; !"2"; !"-t"; !"/"] (concat (map (fun r => r ++ [10]) (route_lines glob (read_complete out))))) ;;
  each add_route (expand glob (captured (a_output sorted))).
(** src/wg-quick/darwin.bash:466 *)
Definition direct_routes : act vars unit := get (fun v => if v_auto4 v || v_auto6 v then set_endpoint_direct_route sys real true else pure tt).
(** src/wg-quick/darwin.bash:467 *)
Definition set_dns : act vars unit :=
  match o_dns o with
  | [] => pure tt
  | _ => with_arrays (DarDns.set_dns sys order (o_dns o) (o_search o) (pure tt))
  end.
(** src/wg-quick/darwin.bash:411-419 execute_hooks *)
Definition hook_text (hook : list Z) : list Z := replace_all (!"%I") ifc (replace_all (!"%i") real hook).
Definition execute_hooks (hooks : list (list Z)) : act vars unit := each (fun h => must sys [!"eval"; hook_text h]) hooks.

(** src/wg-quick/darwin.bash:456-469: cmd_up after add_if.  The monitor (323-346) runs in the background. *)
Definition after_add_if : act vars unit :=
  execute_hooks (o_preup o) ;~
  must_in sys [!"wg"; !"setconf"; real; !"/dev/fd/63"] (handed o) ;~
  each add_addr (o_addresses o) ;~
  set_mtu ;~
  must sys [!"ifconfig"; real; !"up"] ;~
  add_routes ;~
  direct_routes ;~
  set_dns ;~
  try sys [!"monitor_daemon"; !"&"] ;~
  execute_hooks (o_postup o).

(** src/wg-quick/darwin.bash:375-401 *)
Definition own_addresses (lines : list (list Z)) : list (list Z) :=
  flat_map (fun l => match inet_address l with Some a => [a] | None => [] end) lines.
Definition prepare : act vars (list Z * list Z) :=
  out <~ feed sys [!"ifconfig"; real] ;;
  old <~ ask sys [!"umask"] ;;
  must sys [!"umask"; !"077"] ;~
  c <~ call sys (argv [!"wg"; !"showconf"; real]) ;;
  if negb (a_status c =? 0) then quit (a_status c)
  else pure (old, saved_text amp (new_config o (own_addresses (read_complete out)) (o_dns o) (match o_mtu o with [] => None | m => Some m end)) (captured (a_output c))).
(** src/wg-quick/darwin.bash:375-409 save_config, followed by [rest]; outside of lines 402 to 406 there is no trap *)
Definition save_config (rest : act vars unit) : sh vars -> outcome :=
  region (pure tt) prepare (fun r =>
    region (must sys [!"rm"; !"-f"; tmp_file config_file]) (replace_file sys config_file (snd r))
      (fun _ => region (pure tt) (must sys [!"umask"; fst r] ;~ rest) (fun _ s => (Some 0, s_hist s)))).
(** src/wg-quick/darwin.bash:479-480 *)
Definition down_rest : act vars unit := del_if real ;~ execute_hooks (o_postdown o).
End Real.

(** src/wg-quick/darwin.bash:451-471 cmd_up.  REAL_INTERFACE is set when add_if returns. *)
Definition cmd_up : sh vars -> outcome :=
  region (pure tt) (r <~ get_real_interface false ;; match r with Some _ => quit 1 | None => pure tt end) (fun _ =>
    region (undo []) add_if (fun real =>
      region (undo real) (after_add_if real) (fun _ s => (Some 0, s_hist s)))).
(** src/wg-quick/darwin.bash:474-476, 484-486 *)
Definition must_be_there : act vars (list Z) :=
  r <~ get_real_interface false ;;
  match r with
  | None => quit 1
  | Some real =>
      names <~ ask sys [!"wg"; !"show"; !"interfaces"] ;;
      if contains (32 :: real ++ [32]) (32 :: names ++ [32]) then pure real else quit 1
  end.
(** src/wg-quick/darwin.bash:473-481 cmd_down *)
Definition cmd_down : sh vars -> outcome :=
  region (pure tt) (real <~ must_be_there ;; execute_hooks real (o_predown o) ;~ pure real) (fun real =>
    if o_save o then save_config real (down_rest real) else region (pure tt) (down_rest real) (fun _ s => (Some 0, s_hist s))).
(** src/wg-quick/darwin.bash:483-488 cmd_save *)
Definition cmd_save : sh vars -> outcome := region (pure tt) must_be_there (fun real => save_config real (pure tt)).
End Dar.

(** ** The whole script *)
Section Main.
Variable sys : system.
Variable glob : list Z -> list (list Z).
Variable order : history -> list (list Z) -> list (list Z).
Variable userspace : list Z.
Variable amp : bool.
Variable fs : files.
Variable uid : Z.
Variables bash self program pid : list Z.

(** src/wg-quick/darwin.bash:95 *)
Definition detect_launchd : act vars unit := feed sys [!"launchctl"; !"procinfo"; pid] ;~ pure tt.
(** src/wg-quick/darwin.bash:44-85 parse_options, in state [s]: the text is that of freebsd.bash *)
Definition parsed (arg : list Z) (s : sh vars) (f : list said -> list Z -> list Z -> options -> ran) : ran :=
  match find_options glob fs arg with
  | (err, inl st) => mk_ran (Ends st) [] err (s_hist s)
  | (err, inr (ifc, conf, o)) => f err ifc conf o
  end.
(** src/wg-quick/darwin.bash:106-108 auto_su *)
Definition as_root (args : list (list Z)) (r : ran) : ran := if uid =? 0 then r else mk_ran (Becomes (sudo bash self program args)) [] [] [].
(** src/wg-quick/darwin.bash:494-520 *)
Definition main (args : list (list Z)) : ran :=
  let s0 := mk_sh [] vars0 in
  match args with
  | [a] =>
      if beq a !"--help" || beq a !"-h" || beq a !"help" then mk_ran (Ends 0) [] [Usage] []
      else mk_ran (Ends 1) [] [Usage] []
  | [v; arg] =>
      if beq v !"up" then
        as_root args (match detect_launchd s0 with
          | Fin _ s => parsed arg s (fun err ifc conf o => of_outcome err (cmd_up sys glob order ifc o userspace s))
          | Quit st s | Hit st s => mk_ran (Ends st) [] [] (s_hist s)
          | Spin s => mk_ran Endless [] [] (s_hist s)
          end)
      else if beq v !"down" then as_root args (parsed arg s0 (fun err ifc conf o => of_outcome err (cmd_down sys ifc o conf amp s0)))
      else if beq v !"save" then as_root args (parsed arg s0 (fun err ifc conf o => of_outcome err (cmd_save sys ifc o conf amp s0)))
      else if beq v !"strip" then as_root args (parsed arg s0 (fun err ifc conf o => mk_ran (Ends 0) (cmd_strip o) err []))
      else mk_ran (Ends 1) [] [Usage] []
  | _ => mk_ran (Ends 1) [] [Usage] []
  end.
End Main.
