(** Independent vocabulary for what wg-quick does to the system on FreeBSD. *)
From Coq Require Import String ZArith List Bool.
From Verif Require Import Base Bash Quick QuickRun QuickRunSpec QuickRouteSpec BsdRoutes BsdRoutesSpec QuickSpec QuickMainSpec QuickReloadSpec.
From Verif Require QuickMtuSpec.
Import ListNotations.
Open Scope Z_scope.

(** ** Commands *)
Definition is_there (ifc : list Z) : command := argv [str "ifconfig"; ifc].
Definition create (ifc : list Z) : command := argv [str "ifconfig"; str "wg"; str "create"; str "name"; ifc].
Definition alias (ifc a : list Z) (c : command) : Prop := exists f, fits f a /\
  c = argv [str "ifconfig"; ifc; match f with F4 => str "inet" | F6 => str "inet6" end; a; str "alias"].
Definition configure (ifc text : list Z) : command := mk_cmd [str "wg"; str "setconf"; ifc; str "/dev/stdin"] text.
Definition give_mtu (ifc n : list Z) : command := argv [str "ifconfig"; ifc; str "mtu"; n].
Definition bring_up (ifc : list Z) : command := argv [str "ifconfig"; ifc; str "up"].
Definition register (ifc text : list Z) : command := mk_cmd [str "resolvconf"; str "-a"; ifc; str "-x"] text.
Definition unregister (ifc : list Z) : command := argv [str "resolvconf"; str "-d"; ifc].
Definition start_monitor : command := argv [str "monitor_daemon"; str "&"].
Definition socket_path (ifc : list Z) : list Z := str "/var/run/wireguard/" ++ ifc ++ str ".sock".
Definition has_socket (ifc : list Z) : command := argv [str "test"; str "-S"; socket_path ifc].
Definition remove_socket (ifc : list Z) : command := argv [str "rm"; str "-f"; socket_path ifc].
Definition destroy (ifc : list Z) : command := argv [str "ifconfig"; ifc; str "destroy"].
Definition wait : command := argv [str "sleep"; str "0.1"].
Definition remove_dir (d : list Z) : command := argv [str "rm"; str "-rf"; d].
Definition via_interface (f : fam) (r ifc : list Z) : command := argv [str "route"; str "-q"; str "-n"; str "add"; flag f; r; str "-interface"; ifc].
Definition in_table (f : fam) (t r ifc : list Z) : command := argv [str "route"; str "-q"; str "-n"; str "add"; flag f; str "-fib"; t; r; str "-interface"; ifc].
Definition find_route (f : fam) (r : list Z) : command := argv [str "route"; str "-n"; str "get"; flag f; r].
Definition list_addresses (f : fam) (ifc : list Z) : command :=
  argv [str "netstat"; str "-I"; ifc; str "-n"; str "-W"; str "-f"; match f with F4 => str "inet" | F6 => str "inet6" end].
Definition list_dns (ifc : list Z) : command := argv [str "resolvconf"; str "-l"; ifc].

(** ** Failures *)
(** Commands that only ask. *)
Definition prefixes : list (list (list Z)) := map words_of
  [["netstat"]; ["route"; "-n"; "get"]; ["wg"; "show"]; ["test"]; ["sort"]; ["resolvconf"; "-l"]]%string.
Definition only_asks (c : command) : Prop :=
  (exists p, In p prefixes /\ begins p (c_argv c) = true) \/ (exists x, c_argv c = [str "ifconfig"; x]) \/ c_argv c = [str "umask"].
(** Commands that may fail: those, those that add and delete host routes to endpoints, and starting the route monitor in the background. *)
Definition excused (c : command) : Prop :=
  only_asks c \/ (exists f e t, c = adds f e t) \/ (exists f e, c = deletes f e) \/ c = start_monitor.
(** No signal arrived, and the command succeeded unless it may fail. *)
Definition fine (ev : event) : Prop := a_signal (snd ev) = None /\ (a_status (snd ev) = 0 \/ excused (fst ev)).
(** Commands whose failure is reported as status 1. *)
Definition reported_1 (c : command) : Prop := exists w ws, c_argv c = w :: ws /\ (w = str ">" \/ w = str "mv").
(** The script ends with [st] because of [ev]: the command failed, or, asked for the addresses, said nothing. *)
Definition broke (ev : event) (st : Z) : Prop := a_signal (snd ev) = None /\
  ((~ excused (fst ev) /\ a_status (snd ev) <> 0 /\ (st = a_status (snd ev) \/ (reported_1 (fst ev) /\ st = 1))) \/
   (exists f ifc, fst ev = list_addresses f ifc /\ complete_lines (a_output (snd ev)) [] /\ st = 1)).

(** ** Bringing the interface up *)
Definition hooks (ifc : list Z) (texts : list (list Z)) (h : history) : Prop :=
  exists ts, Forall2 (substituted (str "%i") ifc) texts ts /\ map fst h = map run_hook ts.
Definition asking (h : history) : Prop := Forall (fun ev => only_asks (fst ev)) h.
(** The text contains the line "interface: NAME". *)
Definition says_interface (ifc text : list Z) : Prop := occurs (str "interface: " ++ ifc ++ [10]) text.
(** The interface name has no dots and pluses. *)
Definition literal (ifc : list Z) : Prop := ~ In 46 ifc /\ ~ In 43 ifc.
Definition automatic (o : options) : Prop := o_table o = [] \/ o_table o = str "auto".
Definition half_routes (f : fam) : list (list Z) := match f with F4 => [str "0.0.0.0/1"; str "128.0.0.0/1"] | F6 => [str "::/1"; str "8000::/1"] end.
(** What is done for each route: nothing if Table is off; if a table is named, the route goes there; a default route becomes two routes; any other is
    added unless packets for it go through the interface already. *)
Inductive route_steps (ifc : list Z) (o : options) : list Z -> history -> Prop :=
| ro_off : forall r, o_table o = str "off" -> route_steps ifc o r []
| ro_table : forall r f a, o_table o <> str "off" -> ~ automatic o -> fits f r -> route_steps ifc o r [(in_table f (o_table o) r ifc, a)]
| ro_default : forall r f a b x y, automatic o -> fits f r -> is_default r -> half_routes f = [x; y] ->
    route_steps ifc o r [(via_interface f x ifc, a); (via_interface f y ifc, b)]
| ro_there : forall r f a, automatic o -> fits f r -> ~ is_default r -> (literal ifc -> says_interface ifc (captured (a_output a))) ->
    route_steps ifc o r [(find_route f r, a)]
| ro_add : forall r f a b, automatic o -> fits f r -> ~ is_default r -> (literal ifc -> ~ says_interface ifc (captured (a_output a))) ->
    route_steps ifc o r [(find_route f r, a); (via_interface f r ifc, b)].
Inductive route_all (ifc : list Z) (o : options) : list (list Z) -> history -> Prop :=
| ra_nil : route_all ifc o [] []
| ra_cons : forall r rs h h', route_steps ifc o r h -> route_all ifc o rs h' -> route_all ifc o (r :: rs) (h ++ h').
(** A default route of the family is among them, and the table is automatic. *)
Definition routes_all_of (o : options) (f : fam) (rs : list (list Z)) : Prop := automatic o /\ exists r, In r rs /\ is_default r /\ fits f r.
(** Host routes to the endpoints, in that case. *)
Definition host_routes (ifc : list Z) (h : history) : Prop := exists a4 a6 ae h',
  h = [(ask_routes F4, a4); (ask_routes F6, a6); (ask_endpoints ifc, ae)] ++ h' /\
  Forall (fun ev => (exists f e t, fst ev = adds f e t) \/ (exists f e, fst ev = deletes f e)) h'.

(** A route says "interface: NAME" at the end of a line: the first place where that is followed by a name and a newline, and the longest name without spaces there. *)
Definition names_interface (text dev : list Z) : Prop := exists u w, text = u ++ str "interface: " ++ dev ++ 10 :: w /\ dev <> [] /\ ~ In 32 dev /\
  (forall x y, w = x ++ 10 :: y -> In 32 x) /\
  (forall u' dev' w', text = u' ++ str "interface: " ++ dev' ++ 10 :: w' -> dev' <> [] -> ~ In 32 dev' -> (length u <= length u')%nat).
(** The MTU of the interface a route names, which is asked for; 0 if none is named. *)
Inductive interface_says (text : list Z) : history -> Z -> Prop :=
| is_named : forall dev a n, names_interface text dev -> QuickMtuSpec.mtu_or_0 (captured (a_output a)) n -> interface_says text [(is_there dev, a)] n
| is_nothing : (forall dev, ~ names_interface text dev) -> interface_says text [] 0.
(** The largest MTU of the interfaces by which the hosts are reached. *)
Inductive interfaces_say : list (list Z) -> history -> Z -> Prop :=
| iss_nil : interfaces_say [] [] 0
| iss_cons : forall f host hs a h n h' m, fits f host -> interface_says (captured (a_output a)) h n -> interfaces_say hs h' m ->
    interfaces_say (host :: hs) ((find_route f host, a) :: h ++ h') (Z.max n m).
(** The MTU is 80 less than that for the endpoints, else than that for the default route (by its first line), else than 1500. *)
Definition measured (ifc : list Z) (q : history) (n : list Z) : Prop := exists a E h1 h2 m k, q = (ask_endpoints ifc, a) :: h1 ++ h2 /\ reports_endpoints (a_output a) E /\
  interfaces_say E h1 m /\ n = QuickMtuSpec.signed (k - 80) /\
  ((0 < m /\ h2 = [] /\ k = m) \/
   (m = 0 /\ exists c h3 line j, h2 = (argv [str "route"; str "-n"; str "get"; str "default"], c) :: h3 /\ QuickMtuSpec.first_line (a_output c) line /\ interface_says line h3 j /\
      ((0 < j /\ k = j) \/ (j = 0 /\ k = 1500)))).

(** The steps after the interface has been created, in the documented order (wg-quick(8)). *)
Record steps := mk_steps { p_pre : history; p_conf : history; p_addr : history; p_mtu : history; p_up : history; p_dns : history; p_list : history;
  p_routes : history; p_hosts : history; p_mon : history; p_post : history }.
Definition all_steps (p : steps) : history :=
  p_pre p ++ p_conf p ++ p_addr p ++ p_mtu p ++ p_up p ++ p_dns p ++ p_list p ++ p_routes p ++ p_hosts p ++ p_mon p ++ p_post p.
Definition in_order (glob : list Z -> list (list Z)) (ifc : list Z) (o : options) (rs : list (list Z)) (p : steps) : Prop :=
  hooks ifc (o_preup o) (p_pre p) /\
  map fst (p_conf p) = [configure ifc (o_config o ++ [10])] /\
  Forall2 (alias ifc) (o_addresses o) (map fst (p_addr p)) /\
  (exists q n a, p_mtu p = q ++ [(give_mtu ifc n, a)] /\ asking q /\ (o_mtu o <> [] -> q = [] /\ n = o_mtu o) /\ (o_mtu o = [] -> measured ifc q n)) /\
  map fst (p_up p) = [bring_up ifc] /\
  ((o_dns o = [] /\ p_dns p = []) \/ (o_dns o <> [] /\ map fst (p_dns p) = [register ifc (resolv_text (o_dns o) (o_search o))])) /\
  (exists a b, p_list p = [(show_aips ifc, a); (sort_command (unlines (route_lines glob (read_complete (a_output a)))), b)] /\
    rs = expand glob (captured (a_output b))) /\
  route_all ifc o rs (p_routes p) /\
  (routes_all_of o F4 rs \/ routes_all_of o F6 rs -> host_routes ifc (p_hosts p)) /\
  (~ (routes_all_of o F4 rs \/ routes_all_of o F6 rs) -> p_hosts p = []) /\
  map fst (p_mon p) = [start_monitor] /\
  hooks ifc (o_postup o) (p_post p).

(** The interface is created by the kernel, or, if that fails, by the userspace implementation. *)
Definition name_taken (out : list Z) : Prop := occurs (str "ifconfig: ioctl SIOCSIFNAME (set name): File exists") (captured out).
Definition created (us ifc : list Z) (h : history) : Prop :=
  (exists a, h = [(create ifc, a)] /\ a_status a = 0) \/
  (exists a, h = [(create ifc, a)] /\ a_status a <> 0 /\ name_taken (a_output a)) \/
  (exists a b, h = [(create ifc, a); (argv [us; ifc], b)] /\ a_status a <> 0 /\ ~ name_taken (a_output a) /\ a_status b = 0).
Definition not_created (us ifc : list Z) (h : history) (st : Z) : Prop :=
  exists a b, h = [(create ifc, a); (argv [us; ifc], b)] /\ a_status a <> 0 /\ ~ name_taken (a_output a) /\ a_status b = st /\ st <> 0.

(** ** Taking it back *)
(** DNS servers were registered. *)
Definition registered (ifc : list Z) (h : history) : Prop := exists text a, In (register ifc text, a) h /\ a_status a = 0 /\ a_signal a = None.
(** Waiting until the interface is gone. *)
Inductive until_gone (ifc : list Z) : history -> Prop :=
| ug_gone : forall a, a_status a <> 0 -> until_gone ifc [(is_there ifc, a)]
| ug_wait : forall a b h, a_status a = 0 -> until_gone ifc h -> until_gone ifc ((is_there ifc, a) :: (wait, b) :: h).
(** The interface is removed; that of a userspace implementation by way of its socket. *)
Definition takes_down (ifc : list Z) (h : history) : Prop := exists a b w, until_gone ifc w /\
  ((a_status a = 0 /\ h = (has_socket ifc, a) :: (remove_socket ifc, b) :: w) \/ (a_status a <> 0 /\ h = (has_socket ifc, a) :: (destroy ifc, b) :: w)).
(** After [h]: the DNS servers are unregistered if they were registered, the interface and the routes are deleted, and the temporary directory [d]. *)
Definition undoing (ifc : list Z) (o : options) (d : list Z) (h cl : history) : Prop := exists dns down rts a,
  cl = dns ++ down ++ rts ++ [(remove_dir d, a)] /\
  (registered ifc h -> exists b, dns = [(unregister ifc, b)]) /\ (~ registered ifc h -> dns = []) /\
  takes_down ifc down /\ Forall (fun ev => only_asks (fst ev) \/ exists f e, fst ev = deletes f e) rts.
(** The script is ending with status [st0] after [h]: that is done; if a step fails, the rest is not done and the status is that of the failure. *)
Definition undone (ifc : list Z) (o : options) (d : list Z) (h : history) (st0 : Z) (cl : history) (st : Z) : Prop :=
  (undoing ifc o d h cl /\ Forall fine cl /\ st = st0) \/
  (exists cl1 ev cl2, cl = cl1 ++ [ev] /\ undoing ifc o d h (cl1 ++ ev :: cl2) /\ Forall fine cl1 /\ broke ev st).
(** Or only the temporary directory is removed. *)
Definition tidied (d : list Z) (st0 : Z) (cl : history) (st : Z) : Prop :=
  exists a, cl = [(remove_dir d, a)] /\ ((a_status a = 0 /\ st = st0) \/ (a_status a <> 0 /\ st = a_status a)).

(** ** Taking the interface down *)
Definition showconf (ifc : list Z) : command := argv [str "wg"; str "showconf"; ifc].
(** The fourth column of a line. *)
Definition fourth (l a : list Z) : Prop := exists ws, columns l ws /\ a = nth 3 ws [].
Definition own_line (key : string) (v : list Z) : list Z := str key ++ str " = " ++ v.
(** What wg-quick adds to the interface's own configuration. *)
Definition own_lines (o : options) (addresses servers : list (list Z)) : list (list Z) :=
  map (own_line "Address") addresses ++ map (own_line "DNS") servers ++
  (if beq (o_mtu o) [] then [] else [own_line "MTU" (o_mtu o)]) ++ (if beq (o_table o) [] then [] else [own_line "Table" (o_table o)]) ++
  (if o_save o then [str "SaveConfig = true"] else []) ++
  map (own_line "PreUp") (o_preup o) ++ map (own_line "PostUp") (o_postup o) ++ map (own_line "PreDown") (o_predown o) ++ map (own_line "PostDown") (o_postdown o).
(** [text] is what is saved: the fourth columns of what netstat says after its first lines are the addresses, resolvconf knows the DNS servers.  [amp]: bash
    gives ampersands and backslashes a meaning in the replacement of a substitution (5.2). *)
Definition saves (o : options) (amp : bool) (a4 a6 an ac : answer) (text : list Z) : Prop := forall x l4 y l6 addresses ls servers rest,
  complete_lines (a_output a4) (x :: l4) -> complete_lines (a_output a6) (y :: l6) -> Forall2 fourth (l4 ++ l6) addresses ->
  complete_lines (a_output an) ls -> picks (fun _ => nameserver_line) [] ls servers ->
  captured (a_output ac) = str "[Interface]" ++ [10] ++ rest -> (amp = true -> Forall unaffected (own_lines o addresses servers)) ->
  text = unlines (str "[Interface]" :: own_lines o addresses servers) ++ rest ++ [10].
Definition saving_steps (ifc : list Z) (o : options) (conf : list Z) (amp : bool) (h : history) : Prop := exists a4 a6 an au b0 ac text bw bs bm b1,
  h = [(list_addresses F4 ifc, a4); (list_addresses F6 ifc, a6); (list_dns ifc, an); (argv [str "umask"], au); (argv [str "umask"; str "077"], b0);
       (showconf ifc, ac); (mk_cmd [str ">"; conf ++ str ".tmp"] text, bw); (argv [str "sync"; conf ++ str ".tmp"], bs);
       (argv [str "mv"; conf ++ str ".tmp"; conf], bm); (argv [str "umask"; captured (a_output au)], b1)] /\ saves o amp a4 a6 an ac text.
(** PreDown hooks, saving, the interface, DNS, PostDown hooks. *)
Record dsteps := mk_dsteps { q_pre : history; q_save : history; q_down : history; q_dns : history; q_post : history }.
Definition all_dsteps (q : dsteps) : history := q_pre q ++ q_save q ++ q_down q ++ q_dns q ++ q_post q.
Definition down_in_order (ifc : list Z) (o : options) (conf : list Z) (amp : bool) (q : dsteps) : Prop :=
  hooks ifc (o_predown o) (q_pre q) /\
  (o_save o = true -> saving_steps ifc o conf amp (q_save q)) /\ (o_save o = false -> q_save q = []) /\
  takes_down ifc (q_down q) /\
  (o_dns o = [] -> q_dns q = []) /\ (o_dns o <> [] -> exists a, q_dns q = [(unregister ifc, a)]) /\
  hooks ifc (o_postdown o) (q_post q).
(** The file is being replaced, by way of a temporary one. *)
Definition replacing (conf : list Z) (c : command) : Prop :=
  (exists text, c = mk_cmd [str ">"; conf ++ str ".tmp"] text) \/ c = argv [str "sync"; conf ++ str ".tmp"] \/ c = argv [str "mv"; conf ++ str ".tmp"; conf].
(** The temporary file and directory are removed. *)
Definition tidied_file (d conf : list Z) (st0 : Z) (cl : history) (st : Z) : Prop := exists a cl', cl = (argv [str "rm"; str "-f"; conf ++ str ".tmp"], a) :: cl' /\
  ((a_status a = 0 /\ tidied d st0 cl' st) \/ (a_status a <> 0 /\ cl' = [] /\ st = a_status a)).
(** After [h], command [c] is the next step of creating the interface. *)
Definition creating (us ifc : list Z) (h : history) (c : command) : Prop :=
  (h = [] /\ c = create ifc) \/ (exists a, h = [(create ifc, a)] /\ a_status a <> 0 /\ ~ name_taken (a_output a) /\ c = argv [us; ifc]).
(** After the commands in [h] the kernel has the host routes of before and one for each endpoint reported whose family has a default route among [rs]. *)
Definition hosts_kept (ifc : list Z) (o : options) (rs : list (list Z)) (h : history) : Prop := exists a4 a6 ae g4 g6 E b4 b6,
  last_asked ifc h a4 a6 ae /\ reports_gateway false (a_output a4) g4 /\ reports_gateway false (a_output a6) g6 /\ reports_endpoints (a_output ae) E /\
  (b4 = true <-> routes_all_of o F4 rs) /\ (b6 = true <-> routes_all_of o F6 rs) /\
  forall B T, kernel B h T -> not_occupied B ifc h -> routed_to B b4 b6 g4 g6 E T.
(** No signal arrives. *)
Definition undisturbed (h : history) : Prop := Forall (fun ev : event => a_signal (snd ev) = None) h.
Definition tidied_twice (d : list Z) (st0 : Z) (cl : history) (st : Z) : Prop := exists c1 c2 st1, cl = c1 ++ c2 /\ tidied d st0 c1 st1 /\ tidied d st1 c2 st.
Definition tidied_file_twice (d conf : list Z) (st0 : Z) (cl : history) (st : Z) : Prop := exists c1 c2 st1, cl = c1 ++ c2 /\ tidied_file d conf st0 c1 st1 /\ tidied_file d conf st1 c2 st.
(** The interface is one of those that "wg show interfaces" names. *)
Definition show_interfaces : command := argv [str "wg"; str "show"; str "interfaces"].
Definition named_in (ifc out : list Z) : Prop := occurs ([32] ++ ifc ++ [32]) ([32] ++ captured out ++ [32]).
(** The variables of the script after the temporary directory [d] has been made. *)
Definition first_vars (d : list Z) : vars := mk_vars false false false [] [] [] d.

(** ** The whole script *)
(** The temporary directory [d] is made, for root only: the five commands, in order. *)
Definition temp_commands (old d : list Z) : list command :=
  [argv [str "umask"]; argv [str "umask"; str "077"]; argv [str "mktemp"; str "-d"]; argv [str "umask"; old]; argv [str "test"; str "-d"; d]].
(** The directory and the former umask are what mktemp and umask said. *)
Definition temp_history (d : list Z) (h : history) : Prop := exists a c, map fst h = temp_commands (captured (a_output a)) d /\ d = captured (a_output c) /\
  nth_error (map snd h) 0 = Some a /\ nth_error (map snd h) 2 = Some c.
Definition temp_made (d : list Z) (h : history) : Prop := temp_history d h /\ undisturbed h /\
  forall i c, In i [1; 3; 4]%nat -> nth_error (map snd h) i = Some c -> a_status c = 0.
(** Or that fails: the script ends at the command that failed. *)
Definition temp_not_made (h : history) (st : Z) : Prop := exists d fwd ev rest, temp_history d (fwd ++ ev :: rest) /\ h = fwd ++ [ev] /\ undisturbed fwd /\
  (a_signal (snd ev) = Some st \/ (a_signal (snd ev) = None /\ a_status (snd ev) <> 0 /\ (st = a_status (snd ev) \/ (fst ev = argv [str "test"; str "-d"; d] /\ st = 1)))).
(** The file an argument stands for: an interface name stands for the first of two files that exists (or for the second one). *)
Definition bsd_stands_for (there : list Z -> bool) (arg path : list Z) : Prop :=
  let in_etc := str "/etc/wireguard/" ++ arg ++ str ".conf" in let in_local := str "/usr/local/etc/wireguard/" ++ arg ++ str ".conf" in
  (QuickMainSpec.iface_name arg /\ there in_etc = true /\ path = in_etc) \/ (QuickMainSpec.iface_name arg /\ there in_etc = false /\ path = in_local) \/
  (~ QuickMainSpec.iface_name arg /\ path = arg).
