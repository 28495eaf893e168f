(** Independent vocabulary for what wg-quick does to the system on macOS.  A userspace implementation creates the interface, whose name the kernel chooses ([ri]
    below) and the implementation writes into a file named after the interface's name in wg-quick. *)
From Coq Require Import String ZArith List Bool.
From Verif Require Import Base Bash Quick QuickRun QuickRunSpec QuickRouteSpec BsdRoutes BsdRoutesSpec QuickSpec QuickReloadSpec.
From Verif Require FreeSpec OpenSpec QuickMtuSpec DarDnsSpec.
Import ListNotations.
Open Scope Z_scope.

(** ** Commands *)
Definition name_path (ifc : list Z) : list Z := str "/var/run/wireguard/" ++ ifc ++ str ".name".
Definition make_dir : command := argv [str "mkdir"; str "-p"; str "/var/run/wireguard/"].
Definition start (us : list Z) : command := argv [us; str "utun"].
Definition has_name (ifc : list Z) : command := argv [str "test"; str "-f"; name_path ifc].
Definition read_name (ifc : list Z) : command := argv [str "<"; name_path ifc].
Definition made_at (path : list Z) : command := argv [str "stat"; str "-f"; str "%m"; path].
Definition remove (path : list Z) : command := argv [str "rm"; str "-f"; path].

(** ** Failures *)
(** Commands whose failure does not end the script: those that only ask, those that add and delete host routes to endpoints, starting the route monitor in the
    background, listing the network services, and setting their DNS servers. *)
Definition bears (c : command) : Prop := FreeSpec.excused c \/ (exists path, c = made_at path) \/ (exists ifc, c = read_name ifc) \/
  c = DarDnsSpec.list_services \/ (exists s ws, c = DarDnsSpec.set_servers s ws) \/ (exists s ws, c = DarDnsSpec.set_domains s ws).
(** While the interface is being created, fewer. *)
Definition bears_at_start (c : command) : Prop := (exists x y, c = argv [str "test"; x; y]) \/ (exists path, c = made_at path).
Section Failures.
Variable may_fail : command -> Prop.
Definition fine (ev : event) : Prop := a_signal (snd ev) = None /\ (a_status (snd ev) = 0 \/ may_fail (fst ev)).
(** The script ends with [st] because this command failed. *)
Definition fails_with (ev : event) (st : Z) : Prop := a_signal (snd ev) = None /\ ~ may_fail (fst ev) /\ a_status (snd ev) <> 0 /\ st = a_status (snd ev).
(** A series of commands (any for which [P] holds) is not run to its end: [ev] is the last that runs. *)
Definition breaks_off (P : history -> Prop) (fwd : history) (ev : event) : Prop := Forall fine fwd /\ exists rest, P (fwd ++ ev :: rest).
(** What a trap runs when the script is ending with status [st0]: all of it, or what comes before a failure or another signal. *)
Definition trap (P : history -> Prop) (st0 : Z) (cl : history) (st : Z) : Prop :=
  (P cl /\ Forall fine cl /\ st = st0) \/
  (exists cl1 ev, cl = cl1 ++ [ev] /\ breaks_off P cl1 ev /\ (fails_with ev st \/ a_signal (snd ev) = Some st)).
End Failures.

(** ** The interface's name *)
(** The time a file was made, in seconds; [dflt] if stat fails. *)
Definition seconds (dflt : Z) (a : answer) (t : Z) : Prop := (a_status a <> 0 /\ t = dflt) \/ (a_status a = 0 /\ QuickMtuSpec.digits (captured (a_output a)) t).
Definition same_time (a b : answer) : Prop := forall t u, seconds 200 a t -> seconds 100 b u -> -2 < t - u < 2.
Definition other_time (a b : answer) : Prop := forall t u, seconds 200 a t -> seconds 100 b u -> t - u <= -2 \/ 2 <= t - u.
(** The interface is up if the file names one whose socket was made at the same time as the file. *)
Inductive lookup (ifc : list Z) : history -> option (list Z) -> Prop :=
| lk_no_file : forall a b, a_status b <> 0 -> lookup ifc [(FreeSpec.show_interfaces, a); (has_name ifc, b)] None
| lk_no_name : forall a b c, a_status b = 0 -> captured (a_output c) = [] -> lookup ifc [(FreeSpec.show_interfaces, a); (has_name ifc, b); (read_name ifc, c)] None
| lk_no_socket : forall a b c ri d, a_status b = 0 -> captured (a_output c) = ri -> ri <> [] -> a_status d <> 0 ->
    lookup ifc [(FreeSpec.show_interfaces, a); (has_name ifc, b); (read_name ifc, c); (FreeSpec.has_socket ri, d)] None
| lk_stale : forall a b c ri d e f, a_status b = 0 -> captured (a_output c) = ri -> ri <> [] -> a_status d = 0 -> other_time e f ->
    lookup ifc [(FreeSpec.show_interfaces, a); (has_name ifc, b); (read_name ifc, c); (FreeSpec.has_socket ri, d); (made_at (FreeSpec.socket_path ri), e); (made_at (name_path ifc), f)] None
| lk_found : forall a b c ri d e f, a_status b = 0 -> captured (a_output c) = ri -> ri <> [] -> a_status d = 0 -> same_time e f ->
    lookup ifc [(FreeSpec.show_interfaces, a); (has_name ifc, b); (read_name ifc, c); (FreeSpec.has_socket ri, d); (made_at (FreeSpec.socket_path ri), e); (made_at (name_path ifc), f)] (Some ri).
Definition looking (ifc : list Z) (h : history) : Prop := exists r, lookup ifc h r.
(** The implementation is started, and the interface looked up. *)
Definition starting (us ifc : list Z) (h : history) (r : option (list Z)) : Prop := exists a b h', h = (make_dir, a) :: (start us, b) :: h' /\ lookup ifc h' r.
Definition creation (us ifc : list Z) (h : history) (ri : list Z) : Prop := starting us ifc h (Some ri).
Definition no_creation (us ifc : list Z) (h : history) : Prop := starting us ifc h None.
Definition creating (us ifc : list Z) (h : history) : Prop := exists r, starting us ifc h r.

(** ** Bringing the interface up *)
(** An address without its prefix length: what comes before the first slash. *)
Definition bare (a b : list Z) : Prop := (exists t, a = b ++ 47 :: t /\ ~ In 47 b) \/ (~ In 47 a /\ b = a).
Definition alias (ri a : list Z) (c : command) : Prop :=
  (fits F6 a /\ c = argv [str "ifconfig"; ri; str "inet6"; a; str "alias"]) \/
  (fits F4 a /\ exists b, bare a b /\ c = argv [str "ifconfig"; ri; str "inet"; a; b; str "alias"]).
(** The device of the first line about a default route. *)
Definition default_line (l d : list Z) : Prop := exists ws, columns l ws /\ nth 0 ws [] = str "default" /\ d = nth 5 ws [].
Definition default_goes_by (out d : list Z) : Prop := exists ls, complete_lines out ls /\
  ((exists l1 l l2, ls = l1 ++ l :: l2 /\ default_line l d /\ forall x, In x l1 -> forall e, ~ default_line x e) \/ (d = [] /\ forall x, In x ls -> forall e, ~ default_line x e)).
(** The MTU is 80 less than that of that device, else than 1500; it is given unless the interface has it. *)
Definition mtu_steps (ri : list Z) (o : options) (h : history) : Prop :=
  (o_mtu o <> [] /\ map fst h = [FreeSpec.give_mtu ri (o_mtu o)]) \/
  (o_mtu o = [] /\ exists a dev q m k own c g, h = (ask_routes F4, a) :: q ++ (FreeSpec.is_there ri, own) :: g /\ default_goes_by (a_output a) dev /\
    ((dev = [] /\ q = [] /\ m = 0) \/ (dev <> [] /\ exists b, q = [(FreeSpec.is_there dev, b)] /\ QuickMtuSpec.mtu_or_0 (captured (a_output b)) m)) /\
    ((0 < m /\ k = m) \/ (m = 0 /\ k = 1500)) /\
    (QuickMtuSpec.names_mtu (captured (a_output own)) c \/ ((forall n, ~ QuickMtuSpec.names_mtu (captured (a_output own)) n) /\ c = -1)) /\
    (k - 80 = c -> g = []) /\ (k - 80 <> c -> map fst g = [FreeSpec.give_mtu ri (QuickMtuSpec.signed (k - 80))])).
(** What is done for each route: nothing if Table is off; if it is automatic, a default route becomes two routes; any other is added unless packets for it go
    through the interface already. *)
Definition by_halves (o : options) (r : list Z) : Prop := FreeSpec.automatic o /\ is_default r.
Inductive route_steps (ri : list Z) (o : options) : list Z -> history -> Prop :=
| ro_off : forall r, o_table o = str "off" -> route_steps ri o r []
| ro_default : forall r f a b x y, by_halves o r -> fits f r -> FreeSpec.half_routes f = [x; y] ->
    route_steps ri o r [(FreeSpec.via_interface f x ri, a); (FreeSpec.via_interface f y ri, b)]
| ro_there : forall r f a, FreeSpec.automatic o \/ o_table o = str "main" -> ~ by_halves o r -> fits f r -> (FreeSpec.literal ri -> FreeSpec.says_interface ri (captured (a_output a))) ->
    route_steps ri o r [(FreeSpec.find_route f r, a)]
| ro_add : forall r f a b, FreeSpec.automatic o \/ o_table o = str "main" -> ~ by_halves o r -> fits f r -> (FreeSpec.literal ri -> ~ FreeSpec.says_interface ri (captured (a_output a))) ->
    route_steps ri o r [(FreeSpec.find_route f r, a); (FreeSpec.via_interface f r ri, b)].
Inductive route_all (ri : list Z) (o : options) : list (list Z) -> history -> Prop :=
| ra_nil : route_all ri o [] []
| ra_cons : forall r rs h h', route_steps ri o r h -> route_all ri o rs h' -> route_all ri o (r :: rs) (h ++ h').
(** There are no other tables. *)
Definition no_such_table (o : options) : Prop := o_table o <> str "off" /\ ~ FreeSpec.automatic o /\ o_table o <> str "main".
(** DNS: when all commands succeed, the listed services have the servers and search domains of the configuration, and no other is changed. *)
Definition dns_command (o : options) (c : command) : Prop := c = DarDnsSpec.list_services \/ exists s, c = DarDnsSpec.get_servers s \/ c = DarDnsSpec.get_domains s \/
  c = DarDnsSpec.set_servers s (o_dns o) \/ c = DarDnsSpec.set_domains s (match o_search o with [] => [str "Empty"] | ds => ds end).
Definition dns_set (o : options) (h : history) : Prop := DarDnsSpec.succeeds h -> forall T T1, DarDnsSpec.effects T h T1 ->
  forall x, (DarDnsSpec.listed x h -> T1 x = DarDnsSpec.configured (o_dns o) (o_search o)) /\ (~ DarDnsSpec.listed x h -> T1 x = T x).
Definition dns_steps (o : options) (h : history) : Prop := (o_dns o = [] /\ h = []) \/
  (o_dns o <> [] /\ Forall (fun ev => dns_command o (fst ev)) h /\ dns_set o h).
(** The script gives up at a service without a name. *)
Definition dns_refused (o : options) (h : history) : Prop := o_dns o <> [] /\ Forall (fun ev => dns_command o (fst ev)) h /\ DarDnsSpec.listed [] h.

(** The steps after the interface has been created, in the documented order (wg-quick(8)). *)
Record steps := mk_steps { p_pre : history; p_conf : history; p_addr : history; p_mtu : history; p_up : history; p_list : history; p_routes : history;
  p_hosts : history; p_dns : history; p_mon : history; p_post : history }.
Definition all_steps (p : steps) : history :=
  p_pre p ++ p_conf p ++ p_addr p ++ p_mtu p ++ p_up p ++ p_list p ++ p_routes p ++ p_hosts p ++ p_dns p ++ p_mon p ++ p_post p.
Definition default_among (o : options) (rs : list (list Z)) : Prop := FreeSpec.routes_all_of o F4 rs \/ FreeSpec.routes_all_of o F6 rs.
Definition before_routes (glob : list Z -> list (list Z)) (ri ifc : list Z) (o : options) (rs : list (list Z)) (p : steps) : Prop :=
  OpenSpec.hooks ri ifc (o_preup o) (p_pre p) /\
  map fst (p_conf p) = [sets_config ri (o_config o ++ [10])] /\
  Forall2 (alias ri) (o_addresses o) (map fst (p_addr p)) /\
  mtu_steps ri o (p_mtu p) /\
  map fst (p_up p) = [FreeSpec.bring_up ri] /\
  (exists a b, p_list p = [(show_aips ri, a); (sort_command (unlines (route_lines glob (read_complete (a_output a)))), b)] /\
    rs = expand glob (captured (a_output b))).
Definition before_dns (glob : list Z -> list (list Z)) (ri ifc : list Z) (o : options) (rs : list (list Z)) (p : steps) : Prop :=
  before_routes glob ri ifc o rs p /\ route_all ri o rs (p_routes p) /\
  (default_among o rs -> FreeSpec.host_routes ri (p_hosts p)) /\ (~ default_among o rs -> p_hosts p = []).
Definition in_order (glob : list Z -> list (list Z)) (ri ifc : list Z) (o : options) (rs : list (list Z)) (p : steps) : Prop :=
  before_dns glob ri ifc o rs p /\ dns_steps o (p_dns p) /\ map fst (p_mon p) = [FreeSpec.start_monitor] /\ OpenSpec.hooks ri ifc (o_postup o) (p_post p).
(** Or the script gives up at the first route, or when DNS is set. *)
Definition in_order_refused (glob : list Z -> list (list Z)) (ri ifc : list Z) (o : options) (rs : list (list Z)) (p : steps) : Prop :=
  p_mon p = [] /\ p_post p = [] /\
  ((before_routes glob ri ifc o rs p /\ no_such_table o /\ rs <> [] /\ p_routes p = [] /\ p_hosts p = [] /\ p_dns p = []) \/
   (before_dns glob ri ifc o rs p /\ dns_refused o (p_dns p))).
Definition setting_up (glob : list Z -> list (list Z)) (ri ifc : list Z) (o : options) (h : history) : Prop :=
  exists rs p, h = all_steps p /\ (in_order glob ri ifc o rs p \/ in_order_refused glob ri ifc o rs p).
(** After the commands in [h] the kernel has the host routes of before and one for each endpoint reported whose family has a default route among [rs]; gateways that
    are interfaces do not count. *)
Definition hosts_kept (ri : list Z) (o : options) (rs : list (list Z)) (h : history) : Prop := exists a4 a6 ae g4 g6 E b4 b6,
  last_asked ri h a4 a6 ae /\ reports_gateway true (a_output a4) g4 /\ reports_gateway true (a_output a6) g6 /\ reports_endpoints (a_output ae) E /\
  (b4 = true <-> FreeSpec.routes_all_of o F4 rs) /\ (b6 = true <-> FreeSpec.routes_all_of o F6 rs) /\
  forall B T, kernel B h T -> not_occupied B ri h -> routed_to B b4 b6 g4 g6 E T.

(** ** Taking it back *)
(** The routes that go by the interface are deleted, and the host routes to endpoints; nothing else is. *)
Definition deletes_routes (ri : list Z) (h : history) : Prop :=
  Forall (fun ev => FreeSpec.only_asks (fst ev) \/ exists f e, fst ev = deletes f e) h /\
  (device_word ri -> Forall (fine bears) h -> exists a4 a6 eps, In (ask_routes F4, a4) h /\ In (ask_routes F6, a6) h /\
    forall T T', kernel T h T' -> forall f e,
      let P := (names_route f ri (a_output (match f with F4 => a4 | F6 => a6 end)) e \/ In e eps) /\ fits f e in (P -> T' f e = None) /\ (~ P -> T' f e = T f e)).
(** Removing the socket ends the userspace implementation. *)
Definition gone (ri ifc : list Z) (h : history) : Prop := map fst h = [remove (FreeSpec.socket_path ri); remove (name_path ifc)].
Definition undoing (ri ifc : list Z) (h : history) : Prop := exists h1 h2, h = h1 ++ h2 /\ gone ri ifc h1 /\ deletes_routes ri h2.
Definition undone (ri ifc : list Z) : Z -> history -> Z -> Prop := trap bears (undoing ri ifc).
(** As long as the name is not known only the file is removed. *)
Definition forgets (ifc : list Z) (h : history) : Prop := map fst h = [remove (name_path ifc)].
Definition undone_early (ifc : list Z) : Z -> history -> Z -> Prop := trap bears_at_start (forgets ifc).

(** ** Taking the interface down *)
(** A line of ifconfig with an address: the first place where "inet " or "inet6 " is followed by a word; its address is that word. *)
Definition marks (m : list Z) : Prop := m = str "inet " \/ m = str "inet6 ".
Definition address_line (l a : list Z) : Prop := exists u m w, l = u ++ m ++ a ++ w /\ marks m /\ a <> [] /\ ~ In 32 a /\ (forall x w', w = x :: w' -> x = 32) /\
  forall u' m' c w', l = u' ++ m' ++ c :: w' -> marks m' -> c <> 32 -> (length u <= length u')%nat.
Definition list_addresses (ri : list Z) : command := argv [str "ifconfig"; ri].
(** [text] is what is saved: the addresses the interface has, and the DNS servers of the configuration. *)
Definition saves (o : options) (amp : bool) (an ac : answer) (text : list Z) : Prop := forall ls addresses rest,
  complete_lines (a_output an) ls -> picks (fun _ => address_line) [] ls addresses ->
  captured (a_output ac) = str "[Interface]" ++ [10] ++ rest -> (amp = true -> Forall unaffected (FreeSpec.own_lines o addresses (o_dns o))) ->
  text = unlines (str "[Interface]" :: FreeSpec.own_lines o addresses (o_dns o)) ++ rest ++ [10].
Definition saving_steps (ri : list Z) (o : options) (conf : list Z) (amp : bool) (h : history) : Prop := exists an au b0 ac text bw bs bm b1,
  h = [(list_addresses ri, an); (argv [str "umask"], au); (argv [str "umask"; str "077"], b0);
       (FreeSpec.showconf ri, ac); (mk_cmd [str ">"; conf ++ str ".tmp"] text, bw); (argv [str "sync"; conf ++ str ".tmp"], bs);
       (argv [str "mv"; conf ++ str ".tmp"; conf], bm); (argv [str "umask"; captured (a_output au)], b1)] /\ saves o amp an ac text.
Definition fails_saving (conf : list Z) (ev : event) (st : Z) : Prop := a_signal (snd ev) = None /\ ~ bears (fst ev) /\ a_status (snd ev) <> 0 /\
  (st = a_status (snd ev) \/ (OpenSpec.swaps conf (fst ev) /\ st = 1)).
(** PreDown hooks, saving, the interface, PostDown hooks. *)
Record dsteps := mk_dsteps { q_pre : history; q_save : history; q_down : history; q_post : history }.
Definition all_dsteps (q : dsteps) : history := q_pre q ++ q_save q ++ q_down q ++ q_post q.
Definition down_in_order (ri ifc : list Z) (o : options) (conf : list Z) (amp : bool) (q : dsteps) : Prop :=
  OpenSpec.hooks ri ifc (o_predown o) (q_pre q) /\
  (o_save o = true -> saving_steps ri o conf amp (q_save q)) /\ (o_save o = false -> q_save q = []) /\
  gone ri ifc (q_down q) /\ OpenSpec.hooks ri ifc (o_postdown o) (q_post q).
Definition taking_down (ri ifc : list Z) (o : options) (conf : list Z) (amp : bool) (h : history) : Prop :=
  exists q, h = all_dsteps q /\ down_in_order ri ifc o conf amp q.
(** A trap removes the temporary file while the file is being replaced; there is no other trap. *)
Definition swept (conf : list Z) (c : command) (st0 : Z) (cl : history) (st : Z) : Prop :=
  (OpenSpec.replacing conf c /\ trap bears (OpenSpec.removes_temp conf) st0 cl st) \/ (~ OpenSpec.replacing conf c /\ cl = [] /\ st = st0).
Definition swept_twice (conf : list Z) (c : command) (st0 : Z) (cl : history) (st : Z) : Prop :=
  (OpenSpec.replacing conf c /\ exists c1 c2 st1, cl = c1 ++ c2 /\ trap bears (OpenSpec.removes_temp conf) st0 c1 st1 /\ trap bears (OpenSpec.removes_temp conf) st1 c2 st) \/
  (~ OpenSpec.replacing conf c /\ cl = [] /\ st = st0).
(** The interface has to be there, by the file and by what "wg show interfaces" says. *)
Definition found (ifc : list Z) (h : history) (ri : list Z) : Prop := exists h1 a, h = h1 ++ [(FreeSpec.show_interfaces, a)] /\ lookup ifc h1 (Some ri) /\ FreeSpec.named_in ri (a_output a).
Definition not_found (ifc : list Z) (h : history) : Prop := lookup ifc h None \/
  exists h1 a ri, h = h1 ++ [(FreeSpec.show_interfaces, a)] /\ lookup ifc h1 (Some ri) /\ ~ FreeSpec.named_in ri (a_output a).
