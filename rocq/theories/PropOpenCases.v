(** C66, continued: examples, and what is not guaranteed. *)
From Coq Require Import String ZArith List Bool Lia.
From Verif Require Import Base Cstr Bash Quick QuickSpec PropQuick QuickRun QuickRunSpec QuickRouteSpec QuickUpProofs PropQuickUp QuickSave QuickMain QuickMainSpec PropQuickMain QuickReloadSpec
  Sh BsdRoutes BsdRoutesSpec OpenQuick OpenSpec PropOpenQuick PropOpenMain.
From Verif Require FreeSpec PropFreeCases.
Import FreeSpec (undisturbed, destroy).
Import PropFreeCases (lines_said, commands, saving_options, calmb, calmb_iff).
Import ListNotations.
Open Scope Z_scope.

(** The servers of the file are proposed word for word. *)
Theorem C66_servers : forall glob ri ifc o q h, glob_plain glob -> Forall (fun w => plain_word w /\ w <> [] /\ Forall (fun c => ~ separator c) w) (o_dns o) -> o_dns o <> [] ->
  daemon_runs q -> dns_steps glob ri ifc o (q ++ h) ->
  map fst h = take_copy ifc :: (match o_search o with [] => [] | ds => [write_search ds] end) ++ [nameservers ri (o_dns o)].
Proof.
  intros glob ri ifc o q h Hg F N D [(E & _)|[(_ & x & y & E & X & Y)|(_ & q' & h' & E & D' & M)]]; [contradiction| |].
  - exfalso. destruct D as [(a & -> & A)|(a & b & -> & A & B)].
    + cbn [app] in E. assert (a = x) by congruence. congruence.
    + cbn [app] in E. assert (b = y) by congruence. congruence.
  - assert (Eh : h = h').
    { destruct D as [(a & -> & A)|(a & b & -> & A & B)], D' as [(a' & -> & A')|(a' & b' & -> & A' & B')]; cbn [app] in E; [congruence| | |congruence]; exfalso; assert (a = a') by congruence; congruence. }
    subst h'. rewrite M. assert (W : flat_map (expand glob) (o_dns o) = o_dns o) by (clear - Hg F; induction F as [|w ws (P & Ne & S) F IH]; [reflexivity|]; cbn [flat_map]; rewrite IH, expand_word by assumption; reflexivity).
    rewrite W. reflexivity.
Qed.

Definition home : list Z := str "home".
Definition described_as (s : string) : list Z := 9 :: str "description: wg-quick: " ++ str s ++ [10].
Definition listing (up : bool) : answer := mk_answer 0 (str "lo0: flags=8049<UP> mtu 32768" ++ [10] ++ str "wg0: flags=80c3<UP> mtu 1420" ++ [10] ++ described_as "work" ++
  (if up then str "wg1: flags=80c3<UP> mtu 1420" ++ [10] ++ described_as "home" else [])) None.
Definition open_bsd (up : bool) : list (list string * answer) :=
  [(["umask"]%string, says "0022"); (["test"; "-f"]%string, fails (if up then 0 else 1)); (["pgrep"; "-qx"; "unwind"]%string, fails 1);
   (["ifconfig"; "em0"]%string, says "em0: flags=8843<UP> mtu 1400"); (["ifconfig"; "wg1"]%string, fails 0); (["ifconfig"]%string, listing up);
   (["wg"; "show"; "interfaces"]%string, says "wg0");
   (["wg"; "show"; "wg1"; "endpoints"]%string, mk_answer 0 (str "k1" ++ [9] ++ str "192.0.2.1:51820" ++ [10]) None);
   (["wg"; "show"; "wg1"; "allowed-ips"]%string, says "k1 0.0.0.0/0 10.1.0.0/16");
   (["sort"]%string, lines_said ["10.1.0.0/16"; "0.0.0.0/0"]%string);
   (["netstat"; "-nr"; "-f"; "inet"]%string, lines_said ["Destination Gateway Flags Refs Use Mtu Prio Iface"; "default 198.51.100.1 UGS 0 0 - 8 em0"]%string);
   (["netstat"; "-I"]%string, lines_said ["Name Mtu Network Address Ipkts"; "wg1 1420 <Link> wg1 0"; "wg1 1420 10.0.0/24 10.0.0.2 0"; "wg1 1420 fd00::/64 fd00::2 0"]%string);
   (["wg"; "showconf"]%string, lines_said ["[Interface]"; "ListenPort = 51820"]%string);
   (["route"; "-n"; "get"]%string, lines_said ["   route to: 192.0.2.1"; "destination: default"; "  interface: em0"; "      flags: <UP,GATEWAY>"]%string)].
Definition oup (sys : system) (o : options) : outcome := OpenQuick.cmd_up sys no_glob 5 home o (mk_sh [] vars0).
Definition conf : list Z := str "/etc/wireguard/home.conf".
Definition odown (l : list (list string * answer)) (o : options) : outcome := OpenQuick.cmd_down (table_system l) home o conf true (mk_sh [] vars0).
Definition osave (l : list (list string * answer)) (o : options) : outcome := OpenQuick.cmd_save (table_system l) home o conf true (mk_sh [] vars0).
Definition calm_bsd : system := table_system (open_bsd false).

(** The hypotheses of C66_up: hooks, addresses, an endpoint, DNS, a default route. *)
Example C66_up_case : fst (oup calm_bsd example_options) = Some 0 /\ undisturbed (snd (oup calm_bsd example_options)) /\
  commands (oup calm_bsd example_options) = map words_of
   [["ifconfig"]; ["wg"; "show"; "interfaces"]; ["ifconfig"; "wg1"; "create"; "description"; "wg-quick: home"]; ["eval"; "echo wg1; echo wg1"]; ["wg"; "setconf"; "wg1"; "/dev/fd/63"];
    ["ifconfig"; "wg1"; "inet"; "10.0.0.2/24"; "alias"]; ["ifconfig"; "wg1"; "inet6"; "fd00::2/64"; "alias"]; ["wg"; "show"; "wg1"; "endpoints"]; ["route"; "-n"; "get"; "-inet"; "192.0.2.1"]; ["ifconfig"; "em0"];
    ["ifconfig"; "wg1"; "mtu"; "1320"]; ["ifconfig"; "wg1"; "up"]; ["pgrep"; "-qx"; "unwind"]; ["pgrep"; "-qx"; "resolvd"]; ["cp"; "/etc/resolv.conf"; "/etc/resolv.conf.wg-quick-backup.home"]; [">"; "/etc/resolv.conf"];
    ["route"; "nameserver"; "wg1"; "10.0.0.1"]; ["wg"; "show"; "wg1"; "allowed-ips"]; ["sort"; "-nr"; "-k"; "2"; "-t"; "/"]; ["route"; "-n"; "get"; "-inet"; "10.1.0.0/16"];
    ["route"; "-q"; "-n"; "add"; "-inet"; "10.1.0.0/16"; "-iface"; "10.0.0.2"]; ["route"; "-q"; "-n"; "add"; "-inet"; "0.0.0.0/1"; "-iface"; "10.0.0.2"];
    ["route"; "-q"; "-n"; "add"; "-inet"; "128.0.0.0/1"; "-iface"; "10.0.0.2"]; ["netstat"; "-nr"; "-f"; "inet"]; ["netstat"; "-nr"; "-f"; "inet6"]; ["wg"; "show"; "wg1"; "endpoints"];
    ["route"; "-q"; "-n"; "delete"; "-inet"; "192.0.2.1"]; ["route"; "-q"; "-n"; "add"; "-inet"; "192.0.2.1"; "-gateway"; "198.51.100.1"]; ["monitor_daemon"; "&"]; ["eval"; "touch /run/wg1"]]%string.
Proof. split; [vm_compute; reflexivity|]. split; [apply calmb_iff; vm_compute; reflexivity|vm_compute; reflexivity]. Qed.
(** A hook fails: everything is taken back and the status is the hook's. *)
Definition bad_hook : list (list string * answer) := (["test"; "-f"]%string, fails 0) :: (["eval"; "touch /run/wg1"]%string, fails 3) :: open_bsd false.
Example C66_failing_case : fst (oup (table_system bad_hook) example_options) = Some 3 /\ undisturbed (snd (oup (table_system bad_hook) example_options)) /\
  skipn 30 (commands (oup (table_system bad_hook) example_options)) = map words_of
   [["test"; "-f"; "/etc/resolv.conf.wg-quick-backup.home"]; ["route"; "nameserver"; "wg1"]; ["mv"; "/etc/resolv.conf.wg-quick-backup.home"; "/etc/resolv.conf"]; ["ifconfig"; "wg1"; "destroy"];
    ["netstat"; "-nr"; "-f"; "inet"]; ["netstat"; "-nr"; "-f"; "inet6"]; ["route"; "-q"; "-n"; "delete"; "-inet"; "192.0.2.1"]]%string.
Proof. split; [vm_compute; reflexivity|]. split; [apply calmb_iff; vm_compute; reflexivity|vm_compute; reflexivity]. Qed.
(** Another interface gets the number first: the next one is tried. *)
Definition is_create (s : string) (c : command) : bool := existsb (beq (str "create")) (c_argv c) && existsb (beq (str s)) (c_argv c).
Definition racing : system := fun h c =>
  if is_create "wg1" c then mk_answer 1 (str "ifconfig: SIOCIFCREATE: File exists" ++ [10]) None
  else if beq (concat (c_argv c)) (str "wgshowinterfaces") then (if existsb (fun ev => is_create "wg1" (fst ev)) h then says "wg0 wg1" else says "wg0")
  else calm_bsd h c.
Example C66_race_case : fst (oup racing example_options) = Some 0 /\ undisturbed (snd (oup racing example_options)) /\
  firstn 6 (commands (oup racing example_options)) = map words_of
   [["ifconfig"]; ["wg"; "show"; "interfaces"]; ["ifconfig"; "wg1"; "create"; "description"; "wg-quick: home"]; ["wg"; "show"; "interfaces"]; ["ifconfig"; "wg2"; "create"; "description"; "wg-quick: home"];
    ["eval"; "echo wg2; echo wg2"]]%string.
Proof. split; [vm_compute; reflexivity|]. split; [apply calmb_iff; vm_compute; reflexivity|vm_compute; reflexivity]. Qed.
(** Down, with saving; and a failure while the file is being replaced. *)
Definition saved_lines : list string := ["[Interface]"; "Address = 10.0.0.2"; "Address = fd00::2"; "DNS = 10.0.0.1"; "SaveConfig = true"; "PreDown = echo a"; "PostDown = echo b"; "ListenPort = 51820"]%string.
Definition full : list (list string * answer) := (["mv"]%string, fails 5) :: open_bsd true.
Example C66_down_case : fst (odown (open_bsd true) saving_options) = Some 0 /\
  commands (odown (open_bsd true) saving_options) = map words_of
   [["ifconfig"]; ["eval"; "echo a"]; ["netstat"; "-I"; "wg1"; "-n"; "-v"]; ["umask"]; ["umask"; "077"]; ["wg"; "showconf"; "wg1"]; [">"; "/etc/wireguard/home.conf.tmp"]; ["sync"; "/etc/wireguard/home.conf.tmp"];
    ["mv"; "/etc/wireguard/home.conf.tmp"; "/etc/wireguard/home.conf"]; ["umask"; "0022"];
    ["test"; "-f"; "/etc/resolv.conf.wg-quick-backup.home"]; ["route"; "nameserver"; "wg1"]; ["mv"; "/etc/resolv.conf.wg-quick-backup.home"; "/etc/resolv.conf"]; ["ifconfig"; "wg1"; "destroy"];
    ["test"; "-f"; "/etc/resolv.conf.wg-quick-backup.home"]; ["route"; "nameserver"; "wg1"]; ["mv"; "/etc/resolv.conf.wg-quick-backup.home"; "/etc/resolv.conf"]; ["eval"; "echo b"]]%string /\
  fst (osave (open_bsd true) saving_options) = Some 0 /\ In (mk_cmd [str ">"; str "/etc/wireguard/home.conf.tmp"] (a_output (lines_said saved_lines))) (map fst (snd (osave (open_bsd true) saving_options))) /\
  fst (odown full saving_options) = Some 1 /\ skipn 9 (commands (odown full saving_options)) = map words_of [["rm"; "-f"; "/etc/wireguard/home.conf.tmp"]]%string /\
  fst (odown (open_bsd false) saving_options) = Some 1 /\ commands (odown (open_bsd false) saving_options) = map words_of [["ifconfig"]]%string.
Proof. split; [vm_compute; reflexivity|]. split; [vm_compute; reflexivity|]. split; [vm_compute; reflexivity|]. split; [vm_compute; tauto|]. split; [vm_compute; reflexivity|]. split; [vm_compute; reflexivity|]. split; vm_compute; reflexivity. Qed.
(** The whole script. *)
Definition owq (uid : Z) (args : list (list Z)) : ran := OpenQuick.main calm_bsd no_glob 5 true usual uid (str "/usr/local/bin/bash") (str "/usr/local/bin/wg-quick") args.
Example C66_main_case : r_end (owq 0 [str "up"; wg0]) = Ends 0 /\ undisturbed (r_hist (owq 0 [str "up"; wg0])) /\
  In (argv [str "ifconfig"; str "wg1"; str "inet"; str "10.0.0.2/24"; str "alias"]) (map fst (r_hist (owq 0 [str "up"; wg0]))) /\
  r_end (owq 0 [str "up"; str "wg1"]) = Ends 1 /\ r_end (owq 0 [str "help"]) = Ends 0 /\ r_end (owq 501 [str "up"; wg0]) = Becomes (map str ["doas"; "--"; "/usr/local/bin/bash"; "--"; "/usr/local/bin/wg-quick"; "up"; "wg0"]%string).
Proof.
  split; [vm_compute; reflexivity|]. split; [apply calmb_iff; vm_compute; reflexivity|]. split; [vm_compute; tauto|]. split; [vm_compute; reflexivity|]. split; vm_compute; reflexivity.
Qed.

(** *** What is not guaranteed *)
(** "The special string `%i' is expanded to INTERFACE" (wg-quick(8)): here it is expanded to what the kernel calls the interface. *)
Theorem C66_hook_name_refuted : exists sys h, oup sys example_options = (Some 0, h) /\ undisturbed h /\ In (str "touch /run/%i") (o_postup example_options) /\
  ~ In (run_hook (str "touch /run/home")) (map fst h) /\ In (run_hook (str "touch /run/wg1")) (map fst h).
Proof.
  exists calm_bsd, (snd (oup calm_bsd example_options)). split; [vm_compute; reflexivity|]. split; [apply calmb_iff; vm_compute; reflexivity|]. split; [left; reflexivity|]. split; [vm_compute; intuition discriminate|vm_compute; tauto].
Qed.
(** If neither unwind nor resolvd is running, the DNS servers are left out and success is reported. *)
Theorem C66_dns_refuted : exists sys h, oup sys example_options = (Some 0, h) /\ undisturbed h /\ o_dns example_options = [str "10.0.0.1"] /\
  Forall (fun ev => forall ri ss, fst ev <> nameservers ri ss) h /\ Forall (fun ev => fst ev <> write_search (o_search example_options)) h.
Proof.
  set (l := (["pgrep"; "-qx"; "resolvd"]%string, fails 1) :: open_bsd false). exists (table_system l), (snd (oup (table_system l) example_options)). split; [vm_compute; reflexivity|]. split; [apply calmb_iff; vm_compute; reflexivity|].
  split; [reflexivity|]. split; vm_compute; repeat (constructor; [first [intros ri ss X; discriminate X|intro X; discriminate X]|]); constructor.
Qed.
(** A copy of /etc/resolv.conf left by an earlier run is put back when the interface cannot even be created. *)
Theorem C66_stale_copy_refuted : exists sys h a, oup sys example_options = (Some 1, h) /\ undisturbed h /\ In (create (str "wg1") home, a) h /\ a_status a <> 0 /\
  ~ In (take_copy home) (map fst h) /\ In (put_back home) (map fst h).
Proof.
  set (l := (["test"; "-f"]%string, fails 0) :: (["ifconfig"; "wg1"; "create"]%string, fails 1) :: open_bsd false). exists (table_system l), (snd (oup (table_system l) example_options)). eexists.
  split; [vm_compute; reflexivity|]. split; [apply calmb_iff; vm_compute; reflexivity|]. split; [vm_compute; do 2 right; left; reflexivity|]. split; [discriminate|]. split; [vm_compute; intuition discriminate|vm_compute; tauto].
Qed.
(** A peer with IPv6 in its allowed IPs needs the interface to have an IPv6 address: without one the script fails although every command succeeds. *)
Definition only_four : options := mk_options (str "[Interface]" ++ [10]) [str "10.0.0.2/24"] [] [] [] [] [] [] [] [] false.
Theorem C66_no_address_refuted : exists sys h, oup sys only_four = (Some 1, h) /\ undisturbed h /\ In (via_local F4 (str "10.1.0.0/16") (str "10.0.0.2")) (map fst h) /\
  Forall (fun ev => a_status (snd ev) = 0 \/ exists f, fst ev = argv [str "test"; str "-f"; f]) h.
Proof.
  set (l := (["sort"]%string, lines_said ["10.1.0.0/16"; "fd01::/64"]%string) :: (["wg"; "show"; "wg1"; "allowed-ips"]%string, says "k1 10.1.0.0/16 fd01::/64") :: open_bsd false).
  exists (table_system l), (snd (oup (table_system l) only_four)). split; [vm_compute; reflexivity|]. split; [apply calmb_iff; vm_compute; reflexivity|]. split; [vm_compute; tauto|].
  vm_compute. repeat (constructor; [first [left; reflexivity|right; eexists; reflexivity]|]). constructor.
Qed.
(** After a signal what was done is taken back twice; the second time there is no interface, so that the status is not that of the signal. *)
Definition destroyed_once : system := fun h c =>
  if beq (concat (c_argv c)) (str "ifconfigwg1destroy") && existsb (fun ev => beq (concat (c_argv (fst ev))) (str "ifconfigwg1destroy")) h then fails 1
  else table_system ((["eval"; "touch /run/wg1"]%string, mk_answer 0 [] (Some 130)) :: open_bsd false) h c.
Theorem C66_signal_refuted : exists h ev, oup destroyed_once example_options = (Some 1, h) /\ In ev h /\ a_signal (snd ev) = Some 130 /\ fst ev = run_hook (str "touch /run/wg1").
Proof.
  exists (snd (oup destroyed_once example_options)), (run_hook (str "touch /run/wg1"), mk_answer 0 [] (Some 130)). split; [vm_compute; reflexivity|]. split; [vm_compute; do 29 right; left; reflexivity|]. split; reflexivity.
Qed.
(** Saving loses the prefix lengths of the addresses and the search domains: the file does not give back the interface it was made from. *)
Theorem C66_save_refuted : exists sys h a w o, OpenQuick.cmd_save sys home saving_options conf true (mk_sh [] vars0) = (Some 0, h) /\ undisturbed h /\
  In (list_addresses (str "wg1"), a) h /\ occurs (str "10.0.0/24 10.0.0.2 ") (a_output a) /\
  In (mk_cmd [str ">"; conf ++ str ".tmp"] w) (map fst h) /\ parse_options no_glob w = Some o /\
  o_addresses saving_options = [str "10.0.0.2/24"; str "fd00::2/64"] /\ o_addresses o = [str "10.0.0.2"; str "fd00::2"] /\ o_search saving_options = [str "corp"] /\ o_search o = [].
Proof.
  exists (table_system (open_bsd true)), (snd (osave (open_bsd true) saving_options)). eexists. exists (a_output (lines_said saved_lines)). eexists. split; [vm_compute; reflexivity|]. split; [apply calmb_iff; vm_compute; reflexivity|].
  split; [vm_compute; right; left; reflexivity|]. split; [exists (str "Name Mtu Network Address Ipkts" ++ [10] ++ str "wg1 1420 <Link> wg1 0" ++ [10] ++ str "wg1 1420 "), (str "0" ++ [10] ++ str "wg1 1420 fd00::/64 fd00::2 0" ++ [10]); vm_compute; reflexivity|].
  split; [vm_compute; tauto|]. split; [vm_compute; reflexivity|]. split; [reflexivity|]. split; [vm_compute; reflexivity|]. split; [reflexivity|]. vm_compute. reflexivity.
Qed.

Print Assumptions C66_servers.
Print Assumptions C66_hook_name_refuted.
Print Assumptions C66_dns_refuted.
Print Assumptions C66_stale_copy_refuted.
Print Assumptions C66_no_address_refuted.
Print Assumptions C66_signal_refuted.
Print Assumptions C66_save_refuted.
