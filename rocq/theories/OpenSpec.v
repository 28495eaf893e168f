(** Independent vocabulary for what wg-quick does to the system on OpenBSD.  The interface is described as "wg-quick: NAME", and the kernel knows it by
    another name, the first wgN that is free ([ri] below). *)
From Coq Require Import String ZArith List Bool.
From Verif Require Import Base Bash Quick QuickRun QuickRunSpec QuickRouteSpec BsdRoutes BsdRoutesSpec QuickSpec QuickReloadSpec.
From Verif Require FreeSpec QuickMtuSpec.
Import ListNotations.
Open Scope Z_scope.

(** ** Commands *)
Definition list_all : command := argv [str "ifconfig"].
Definition create (ri ifc : list Z) : command := argv [str "ifconfig"; ri; str "create"; str "description"; str "wg-quick: " ++ ifc].
Definition runs (daemon : string) : command := argv [str "pgrep"; str "-qx"; str daemon].
Definition copy (ifc : list Z) : list Z := str "/etc/resolv.conf.wg-quick-backup." ++ ifc.
Definition has_copy (ifc : list Z) : command := argv [str "test"; str "-f"; copy ifc].
Definition take_copy (ifc : list Z) : command := argv [str "cp"; str "/etc/resolv.conf"; copy ifc].
Definition put_back (ifc : list Z) : command := argv [str "mv"; copy ifc; str "/etc/resolv.conf"].
Definition write_search (domains : list (list Z)) : command := mk_cmd [str ">"; str "/etc/resolv.conf"] (str "search " ++ glue [32] domains ++ [10]).
Definition nameservers (ri : list Z) (servers : list (list Z)) : command := argv (str "route" :: str "nameserver" :: ri :: servers).
Definition via_local (f : fam) (r loc : list Z) : command := argv [str "route"; str "-q"; str "-n"; str "add"; flag f; r; str "-iface"; loc].
Definition in_table (f : fam) (t r loc : list Z) : command := argv [str "route"; str "-q"; str "-n"; str "-T"; t; str "add"; flag f; r; str "-iface"; loc].
Definition list_addresses (ri : list Z) : command := argv [str "netstat"; str "-I"; ri; str "-n"; str "-v"].

(** ** Failures *)
(** Commands whose failure does not end the script: those that only ask, those that add and delete host routes to endpoints, starting the route monitor
    in the background, and creating the interface, whose failure is looked into. *)
Definition bears (c : command) : Prop := FreeSpec.excused c \/ c = list_all \/ (exists daemon, c = runs daemon) \/ (exists ri ifc, c = create ri ifc).
Definition fine (ev : event) : Prop := a_signal (snd ev) = None /\ (a_status (snd ev) = 0 \/ bears (fst ev)).
(** The script ends with [st] because this command failed. *)
Definition fails_with (ev : event) (st : Z) : Prop := a_signal (snd ev) = None /\ ~ bears (fst ev) /\ a_status (snd ev) <> 0 /\ st = a_status (snd ev).
(** A series of commands (any for which [P] holds) is not run to its end: [ev] is the last that runs. *)
Definition breaks_off (P : history -> Prop) (fwd : history) (ev : event) : Prop := Forall fine fwd /\ exists rest, P (fwd ++ ev :: rest).
(** What a trap runs when the script is ending with status [st0]: all of it, or what comes before a failure or another signal. *)
Definition trap (P : history -> Prop) (st0 : Z) (cl : history) (st : Z) : Prop :=
  (P cl /\ Forall fine cl /\ st = st0) \/
  (exists cl1 ev, cl = cl1 ++ [ev] /\ breaks_off P cl1 ev /\ (fails_with ev st \/ a_signal (snd ev) = Some st)).

(** ** The interface's name *)
Definition lower (c : Z) : Prop := 97 <= c <= 122.
Definition digit (c : Z) : Prop := 48 <= c <= 57.
(** The lines of a text that end with a newline. *)
Definition whole_lines (out : list Z) (ls : list (list Z)) : Prop := exists rest,
  no_nul out = concat (map (fun l => l ++ [10]) ls) ++ rest /\ Forall (fun l => ~ In 10 l) ls /\ ~ In 10 rest.
(** The first line about an interface; a line with wg-quick's description. *)
Definition heads (l n : list Z) : Prop := exists a b rest,
  l = n ++ str ": " ++ rest /\ n = a ++ b /\ a <> [] /\ b <> [] /\ Forall lower a /\ Forall digit b /\ rest <> [].
Definition describes (ifc l : list Z) : Prop := l = 9 :: str "description: wg-quick: " ++ ifc /\ ifc <> [].
(** [ri] is a WireGuard interface with that description; it is the one whose first line has [k] lines before it. *)
Definition described (ifc : list Z) (ls : list (list Z)) (k : nat) (ri : list Z) : Prop := exists a hl b dl c,
  ls = a ++ hl :: b ++ dl :: c /\ length a = k /\ heads hl ri /\ (exists x, ri = str "wg" ++ x) /\ describes ifc dl /\ forall l n, In l b -> ~ heads l n.
(** The first such interface, by what ifconfig says. *)
Definition real_name (ifc out ri : list Z) : Prop := exists ls k, whole_lines out ls /\ described ifc ls k ri /\ forall k' ri', described ifc ls k' ri' -> (k <= k')%nat.
Definition no_real_name (ifc out : list Z) : Prop := exists ls, whole_lines out ls /\ forall k ri, ~ described ifc ls k ri.

(** The first wgN that is not among the words of a text. *)
Definition wg_number (n : nat) (ri : list Z) : Prop := exists digits, ri = str "wg" ++ digits /\ NumSpec.decimal digits (Z.of_nat n) /\ (hd 0 digits = 48 -> digits = [48]).
Definition white (c : Z) : Prop := c = 32 \/ c = 9 \/ c = 10.
Definition word_in (text w : list Z) : Prop := exists a b, text = a ++ w ++ b /\ w <> [] /\ Forall (fun c => ~ white c) w /\
  (a = [] \/ exists a' c, a = a' ++ [c] /\ white c) /\ (b = [] \/ exists c b', b = c :: b' /\ white c).
Definition first_free (text ri : list Z) : Prop := exists n, wg_number n ri /\ ~ word_in text ri /\
  forall m, (m < n)%nat -> exists w, wg_number m w /\ word_in text w.
(** Creating the interface, again when another one got the number first. *)
Definition number_taken (out : list Z) : Prop := occurs (str "ifconfig: SIOCIFCREATE: File exists") (captured out).
Inductive creation (ifc : list Z) : history -> list Z -> Prop :=
| cr_done : forall a b ri, first_free (captured (a_output a)) ri -> a_status b = 0 -> creation ifc [(FreeSpec.show_interfaces, a); (create ri ifc, b)] ri
| cr_again : forall a b taken h ri, first_free (captured (a_output a)) taken -> a_status b <> 0 -> number_taken (a_output b) -> creation ifc h ri ->
    creation ifc ((FreeSpec.show_interfaces, a) :: (create taken ifc, b) :: h) ri.
Inductive no_creation (ifc : list Z) : history -> Prop :=
| nc_fails : forall a b ri, first_free (captured (a_output a)) ri -> a_status b <> 0 -> ~ number_taken (a_output b) -> no_creation ifc [(FreeSpec.show_interfaces, a); (create ri ifc, b)]
| nc_again : forall a b taken h, first_free (captured (a_output a)) taken -> a_status b <> 0 -> number_taken (a_output b) -> no_creation ifc h ->
    no_creation ifc ((FreeSpec.show_interfaces, a) :: (create taken ifc, b) :: h).
Definition creating (ifc : list Z) (h : history) : Prop := (exists ri, creation ifc h ri) \/ no_creation ifc h.

(** ** Bringing the interface up *)
(** Hooks: "%i" is replaced by the name the kernel knows, then "%I" by the name wg-quick knows. *)
Definition hook_becomes (ri ifc hook text : list Z) : Prop := exists mid, substituted (str "%i") ri hook mid /\ substituted (str "%I") ifc mid text.
Definition hooks (ri ifc : list Z) (texts : list (list Z)) (h : history) : Prop := exists ts, Forall2 (hook_becomes ri ifc) texts ts /\ map fst h = map run_hook ts.
(** An address without its prefix length: what comes before the last slash. *)
Definition bare (a b : list Z) : Prop := (exists t, a = b ++ 47 :: t /\ ~ In 47 t) \/ (~ In 47 a /\ b = a).
(** The interface's first address of the family. *)
Definition local_address (f : fam) (o : options) (loc : list Z) : Prop := exists a1 a a2, o_addresses o = a1 ++ a :: a2 /\ fits f a /\ bare a loc /\ loc <> [] /\
  forall x, In x a1 -> fits f x -> bare x [].
Definition no_local_address (f : fam) (o : options) : Prop := forall a, In a (o_addresses o) -> fits f a -> bare a [].
(** What is done for each route: nothing if Table is off; if a table is named, the route goes there; a default route becomes two routes; any other is
    added unless packets for it go through the interface already. *)
Inductive route_steps (ri : list Z) (o : options) : list Z -> history -> Prop :=
| ro_off : forall r, o_table o = str "off" -> route_steps ri o r []
| ro_table : forall r f loc a, o_table o <> str "off" -> ~ FreeSpec.automatic o -> fits f r -> local_address f o loc -> route_steps ri o r [(in_table f (o_table o) r loc, a)]
| ro_default : forall r f loc a b x y, FreeSpec.automatic o -> fits f r -> local_address f o loc -> is_default r -> FreeSpec.half_routes f = [x; y] ->
    route_steps ri o r [(via_local f x loc, a); (via_local f y loc, b)]
| ro_there : forall r f loc a, FreeSpec.automatic o -> fits f r -> local_address f o loc -> ~ is_default r -> FreeSpec.says_interface ri (captured (a_output a)) ->
    route_steps ri o r [(FreeSpec.find_route f r, a)]
| ro_add : forall r f loc a b, FreeSpec.automatic o -> fits f r -> local_address f o loc -> ~ is_default r -> ~ FreeSpec.says_interface ri (captured (a_output a)) ->
    route_steps ri o r [(FreeSpec.find_route f r, a); (via_local f r loc, b)].
Inductive route_all (ri : list Z) (o : options) : list (list Z) -> history -> Prop :=
| ra_nil : route_all ri o [] []
| ra_cons : forall r rs h h', route_steps ri o r h -> route_all ri o rs h' -> route_all ri o (r :: rs) (h ++ h').
(** There is no address for this route. *)
Definition refuses (o : options) (r : list Z) : Prop := o_table o <> str "off" /\ exists f, fits f r /\ no_local_address f o.
(** DNS is set up if a daemon is running that will use it: /etc/resolv.conf is copied, search domains are written, the name servers are proposed. *)
Definition daemon_runs (q : history) : Prop :=
  (exists a, q = [(runs "unwind", a)] /\ a_status a = 0) \/ (exists a b, q = [(runs "unwind", a); (runs "resolvd", b)] /\ a_status a <> 0 /\ a_status b = 0).
Definition no_daemon_runs (q : history) : Prop := exists a b, q = [(runs "unwind", a); (runs "resolvd", b)] /\ a_status a <> 0 /\ a_status b <> 0.
Definition dns_steps (glob : list Z -> list (list Z)) (ri ifc : list Z) (o : options) (h : history) : Prop :=
  (o_dns o = [] /\ h = []) \/ (o_dns o <> [] /\ no_daemon_runs h) \/
  (o_dns o <> [] /\ exists q h', h = q ++ h' /\ daemon_runs q /\
    map fst h' = take_copy ifc :: (match o_search o with [] => [] | ds => [write_search ds] end) ++ [nameservers ri (flat_map (expand glob) (o_dns o))]).

Import FreeSpec (steps, p_pre, p_conf, p_addr, p_mtu, p_up, p_dns, p_list, p_routes, p_hosts, p_mon, p_post, all_steps, routes_all_of).
(** The steps before the routes, and all of them, in the documented order (wg-quick(8)). *)
Definition in_order_so_far (glob : list Z -> list (list Z)) (ri ifc : list Z) (o : options) (rs : list (list Z)) (p : steps) : Prop :=
  hooks ri ifc (o_preup o) (p_pre p) /\
  map fst (p_conf p) = [sets_config ri (o_config o ++ [10])] /\
  Forall2 (FreeSpec.alias ri) (o_addresses o) (map fst (p_addr p)) /\
  (exists q n a, p_mtu p = q ++ [(FreeSpec.give_mtu ri n, a)] /\ FreeSpec.asking q /\ (o_mtu o <> [] -> q = [] /\ n = o_mtu o) /\ (o_mtu o = [] -> FreeSpec.measured ri q n)) /\
  map fst (p_up p) = [FreeSpec.bring_up ri] /\
  dns_steps glob ri ifc o (p_dns p) /\
  (exists a b, p_list p = [(show_aips ri, a); (sort_command (unlines (route_lines glob (read_complete (a_output a)))), b)] /\
    rs = expand glob (captured (a_output b))).
Definition in_order (glob : list Z -> list (list Z)) (ri ifc : list Z) (o : options) (rs : list (list Z)) (p : steps) : Prop :=
  in_order_so_far glob ri ifc o rs p /\
  route_all ri o rs (p_routes p) /\
  (routes_all_of o F4 rs \/ routes_all_of o F6 rs -> FreeSpec.host_routes ri (p_hosts p)) /\
  (~ (routes_all_of o F4 rs \/ routes_all_of o F6 rs) -> p_hosts p = []) /\
  map fst (p_mon p) = [FreeSpec.start_monitor] /\
  hooks ri ifc (o_postup o) (p_post p).
(** Or the script gives up at the first route for which there is no address. *)
Definition in_order_refused (glob : list Z -> list (list Z)) (ri ifc : list Z) (o : options) (rs : list (list Z)) (p : steps) : Prop :=
  in_order_so_far glob ri ifc o rs p /\
  (exists rs1 r rs2, rs = rs1 ++ r :: rs2 /\ route_all ri o rs1 (p_routes p) /\ refuses o r) /\
  p_hosts p = [] /\ p_mon p = [] /\ p_post p = [].
Definition setting_up (glob : list Z -> list (list Z)) (ri ifc : list Z) (o : options) (h : history) : Prop :=
  exists rs p, h = all_steps p /\ (in_order glob ri ifc o rs p \/ in_order_refused glob ri ifc o rs p).

(** ** Taking it back *)
(** /etc/resolv.conf is put back if there is a copy; [ri] is empty as long as there is no interface. *)
Definition no_servers (ri : list Z) : command := match ri with [] => argv [str "route"; str "nameserver"] | _ => nameservers ri [] end.
Definition restoring (ifc ri : list Z) (h : history) : Prop :=
  (exists a, h = [(has_copy ifc, a)] /\ a_status a <> 0) \/ (exists a b c, h = [(has_copy ifc, a); (no_servers ri, b); (put_back ifc, c)] /\ a_status a = 0).
(** The routes that go by the interface are deleted, and the host routes to endpoints; nothing else is. *)
Definition deletes_routes (ri : list Z) (h : history) : Prop :=
  Forall (fun ev => FreeSpec.only_asks (fst ev) \/ exists f e, fst ev = deletes f e) h /\
  (Forall fine h -> exists a4 a6 eps, In (ask_routes F4, a4) h /\ In (ask_routes F6, a6) h /\
    forall T T', kernel T h T' -> forall f e,
      let P := (names_route f ri (a_output (match f with F4 => a4 | F6 => a6 end)) e \/ In e eps) /\ fits f e in (P -> T' f e = None) /\ (~ P -> T' f e = T f e)).
Definition undoing (ifc ri : list Z) (h : history) : Prop := exists dns b rts, h = dns ++ (FreeSpec.destroy ri, b) :: rts /\ restoring ifc ri dns /\ deletes_routes ri rts.
Definition undone (ifc ri : list Z) : Z -> history -> Z -> Prop := trap (undoing ifc ri).
(** Without an interface there is only the copy; the status is 1 then. *)
Definition undone_early (ifc : list Z) (cl : history) (st : Z) : Prop := trap (restoring ifc []) 1 cl st.

(** ** Taking the interface down *)
(** A line of netstat that is not about the link layer, and its address. *)
Definition address_line (l a : list Z) : Prop := exists ws, columns l ws /\ ~ occurs (str "Link") (nth 2 ws []) /\ a = nth 3 ws [].
(** [text] is what is saved: the addresses the interface has, and the DNS servers of the configuration. *)
Definition saves (o : options) (amp : bool) (an ac : answer) (text : list Z) : Prop := forall x ls addresses rest,
  complete_lines (a_output an) (x :: ls) -> picks (fun _ => address_line) [] ls addresses ->
  captured (a_output ac) = str "[Interface]" ++ [10] ++ rest -> (amp = true -> Forall unaffected (FreeSpec.own_lines o addresses (o_dns o))) ->
  text = unlines (str "[Interface]" :: FreeSpec.own_lines o addresses (o_dns o)) ++ rest ++ [10].
Definition saving_steps (ri : list Z) (o : options) (conf : list Z) (amp : bool) (h : history) : Prop := exists an au b0 ac text bw bs bm b1,
  h = [(list_addresses ri, an); (argv [str "umask"], au); (argv [str "umask"; str "077"], b0);
       (FreeSpec.showconf ri, ac); (mk_cmd [str ">"; conf ++ str ".tmp"] text, bw); (argv [str "sync"; conf ++ str ".tmp"], bs);
       (argv [str "mv"; conf ++ str ".tmp"; conf], bm); (argv [str "umask"; captured (a_output au)], b1)] /\
  ~ complete_lines (a_output an) [] /\ saves o amp an ac text.
(** netstat says nothing. *)
Definition silent (ri : list Z) (h : history) : Prop := exists an, h = [(list_addresses ri, an)] /\ complete_lines (a_output an) [].
(** The file is being replaced, by way of a temporary one; failures are reported as status 1, but for that of sync. *)
Definition swaps (conf : list Z) (c : command) : Prop := (exists text, c = mk_cmd [str ">"; conf ++ str ".tmp"] text) \/ c = argv [str "mv"; conf ++ str ".tmp"; conf].
Definition replacing (conf : list Z) (c : command) : Prop := swaps conf c \/ c = argv [str "sync"; conf ++ str ".tmp"].
Definition fails_saving (conf : list Z) (ev : event) (st : Z) : Prop := a_signal (snd ev) = None /\ ~ bears (fst ev) /\ a_status (snd ev) <> 0 /\
  (st = a_status (snd ev) \/ (swaps conf (fst ev) /\ st = 1)).
Definition removes_temp (conf : list Z) (h : history) : Prop := exists a, h = [(argv [str "rm"; str "-f"; conf ++ str ".tmp"], a)].
(** PreDown hooks, saving, DNS, the interface, DNS again, PostDown hooks. *)
Record dsteps := mk_dsteps { q_pre : history; q_save : history; q_dns : history; q_down : history; q_dns2 : history; q_post : history }.
Definition all_dsteps (q : dsteps) : history := q_pre q ++ q_save q ++ q_dns q ++ q_down q ++ q_dns2 q ++ q_post q.
Definition down_in_order (ri ifc : list Z) (o : options) (conf : list Z) (amp : bool) (q : dsteps) : Prop :=
  hooks ri ifc (o_predown o) (q_pre q) /\
  (o_save o = true -> saving_steps ri o conf amp (q_save q)) /\ (o_save o = false -> q_save q = []) /\
  restoring ifc ri (q_dns q) /\ map fst (q_down q) = [FreeSpec.destroy ri] /\ restoring ifc ri (q_dns2 q) /\
  hooks ri ifc (o_postdown o) (q_post q).
(** Or the script gives up when netstat says nothing. *)
Definition down_silent (ri ifc : list Z) (o : options) (q : dsteps) : Prop := hooks ri ifc (o_predown o) (q_pre q) /\ o_save o = true /\ silent ri (q_save q) /\
  q_dns q = [] /\ q_down q = [] /\ q_dns2 q = [] /\ q_post q = [].
Definition taking_down (ri ifc : list Z) (o : options) (conf : list Z) (amp : bool) (h : history) : Prop :=
  exists q, h = all_dsteps q /\ (down_in_order ri ifc o conf amp q \/ down_silent ri ifc o q).
Definition saving (ri : list Z) (o : options) (conf : list Z) (amp : bool) (h : history) : Prop := saving_steps ri o conf amp h \/ silent ri h.
(** A trap removes the temporary file while the file is being replaced; there is no other trap. *)
Definition swept (conf : list Z) (c : command) (st0 : Z) (cl : history) (st : Z) : Prop :=
  (replacing conf c /\ trap (removes_temp conf) st0 cl st) \/ (~ replacing conf c /\ cl = [] /\ st = st0).
Definition swept_twice (conf : list Z) (c : command) (st0 : Z) (cl : history) (st : Z) : Prop :=
  (replacing conf c /\ exists c1 c2 st1, cl = c1 ++ c2 /\ trap (removes_temp conf) st0 c1 st1 /\ trap (removes_temp conf) st1 c2 st) \/ (~ replacing conf c /\ cl = [] /\ st = st0).
