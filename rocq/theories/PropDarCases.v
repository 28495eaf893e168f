(** C68, continued: examples, and what is not guaranteed. *)
From Coq Require Import String ZArith List Bool Lia Permutation.
From Verif Require Import Base Cstr Bash Quick QuickSpec PropQuick QuickRun QuickRunSpec QuickRouteSpec QuickUpProofs PropQuickUp QuickSave QuickMain QuickMainSpec PropQuickMain QuickReloadSpec
  Sh BsdRoutes BsdRoutesSpec DarQuick DarSpec PropDarQuick PropDarMain.
From Verif Require FreeSpec PropFreeCases DarDnsSpec.
Import FreeSpec (undisturbed).
Import PropFreeCases (lines_said, commands, saving_options, calmb, calmb_iff).
Import ListNotations.
Open Scope Z_scope.

Definition home : list Z := str "home".
Definition conf : list Z := str "/etc/wireguard/home.conf".
Definition go : list Z := str "wireguard-go".
Definition same : history -> list (list Z) -> list (list Z) := fun _ l => l.
Lemma same_ok : DarDnsSpec.some_order same.
Proof. intros h l. apply Permutation_refl. Qed.
Definition mac (up : bool) : list (list string * answer) :=
  [(["launchctl"]%string, lines_said ["program path = /bin/bash"; "domain = system"]%string); (["umask"]%string, says "0022"); (["test"; "-f"]%string, fails (if up then 0 else 1)); (["test"; "-S"]%string, fails 0); (["<"]%string, says "utun3");
   (["stat"; "-f"; "%m"; "/var/run/wireguard/utun3.sock"]%string, says "1700000001"); (["stat"; "-f"; "%m"]%string, says "1700000000");
   (["wg"; "show"; "interfaces"]%string, says (if up then "utun1 utun3" else "utun1"));
   (["wg"; "show"; "utun3"; "endpoints"]%string, mk_answer 0 (str "k1" ++ [9] ++ str "192.0.2.1:51820" ++ [10]) None);
   (["wg"; "show"; "utun3"; "allowed-ips"]%string, says "k1 0.0.0.0/0 10.1.0.0/16");
   (["sort"]%string, lines_said ["10.1.0.0/16"; "0.0.0.0/0"]%string);
   (["netstat"; "-nr"; "-f"; "inet"]%string, lines_said ["Destination Gateway Flags Refs Use Netif Expire"; "default 198.51.100.1 UGScg 0 0 en0"; "192.0.2.1 198.51.100.1 UGHS 0 0 en0"]%string);
   (["ifconfig"; "en0"]%string, says "en0: flags=8863<UP> mtu 1400");
   (["ifconfig"; "utun3"; "inet"]%string, fails 0); (["ifconfig"; "utun3"; "inet6"]%string, fails 0); (["ifconfig"; "utun3"; "mtu"]%string, fails 0); (["ifconfig"; "utun3"; "up"]%string, fails 0);
   (["ifconfig"; "utun3"]%string, mk_answer 0 (str "utun3: flags=8051<UP> mtu 1420" ++ [10; 9] ++ str "inet 10.0.0.2 --> 10.0.0.2 netmask 0xffffff00" ++ [10; 9] ++ str "inet6 fd00::2 prefixlen 64" ++ [10]) None);
   (["networksetup"; "-listallnetworkservices"]%string, lines_said ["An asterisk (*) denotes that a network service is disabled."; "Wi-Fi"; "*USB LAN"]%string);
   (["networksetup"; "-getdnsservers"]%string, says "There aren't any DNS Servers set on Wi-Fi."); (["networksetup"; "-getsearchdomains"]%string, says "There aren't any Search Domains set on Wi-Fi.");
   (["wg"; "showconf"]%string, lines_said ["[Interface]"; "ListenPort = 51820"]%string);
   (["route"; "-n"; "get"]%string, lines_said ["   route to: 192.0.2.1"; "destination: default"; "  interface: en0"]%string)].
(** The file with the interface's name is there once the implementation has been started. *)
Definition started (h : history) : bool := existsb (fun ev => beq (concat (c_argv (fst ev))) (str "wireguard-goutun")) h.
Definition over (l : list (list string * answer)) : system := fun h c => table_system (l ++ mac (started h)) h c.
Definition dup (sys : system) (o : options) : outcome := DarQuick.cmd_up sys no_glob same home o go (mk_sh [] vars0).
Definition ddown (l : list (list string * answer)) (o : options) : outcome := DarQuick.cmd_down (table_system l) home o conf true (mk_sh [] vars0).
Definition dsave (l : list (list string * answer)) (o : options) : outcome := DarQuick.cmd_save (table_system l) home o conf true (mk_sh [] vars0).

(** The hypotheses of C68_up: hooks, addresses, an endpoint, DNS, a default route. *)
Theorem C68_up_case : exists h, dup (over []) example_options = (Some 0, h) /\ undisturbed h /\ commands (Some 0, h) = map words_of
   [["wg"; "show"; "interfaces"]; ["test"; "-f"; "/var/run/wireguard/home.name"]; ["mkdir"; "-p"; "/var/run/wireguard/"]; ["wireguard-go"; "utun"]; ["wg"; "show"; "interfaces"];
    ["test"; "-f"; "/var/run/wireguard/home.name"]; ["<"; "/var/run/wireguard/home.name"]; ["test"; "-S"; "/var/run/wireguard/utun3.sock"]; ["stat"; "-f"; "%m"; "/var/run/wireguard/utun3.sock"];
    ["stat"; "-f"; "%m"; "/var/run/wireguard/home.name"]; ["eval"; "echo utun3; echo utun3"]; ["wg"; "setconf"; "utun3"; "/dev/fd/63"];
    ["ifconfig"; "utun3"; "inet"; "10.0.0.2/24"; "10.0.0.2"; "alias"]; ["ifconfig"; "utun3"; "inet6"; "fd00::2/64"; "alias"]; ["netstat"; "-nr"; "-f"; "inet"]; ["ifconfig"; "en0"];
    ["ifconfig"; "utun3"]; ["ifconfig"; "utun3"; "mtu"; "1320"]; ["ifconfig"; "utun3"; "up"]; ["wg"; "show"; "utun3"; "allowed-ips"]; ["sort"; "-nr"; "-k"; "2"; "-t"; "/"];
    ["route"; "-n"; "get"; "-inet"; "10.1.0.0/16"]; ["route"; "-q"; "-n"; "add"; "-inet"; "10.1.0.0/16"; "-interface"; "utun3"];
    ["route"; "-q"; "-n"; "add"; "-inet"; "0.0.0.0/1"; "-interface"; "utun3"]; ["route"; "-q"; "-n"; "add"; "-inet"; "128.0.0.0/1"; "-interface"; "utun3"]; ["netstat"; "-nr"; "-f"; "inet"];
    ["netstat"; "-nr"; "-f"; "inet6"]; ["wg"; "show"; "utun3"; "endpoints"]; ["route"; "-q"; "-n"; "delete"; "-inet"; "192.0.2.1"];
    ["route"; "-q"; "-n"; "add"; "-inet"; "192.0.2.1"; "-gateway"; "198.51.100.1"]; ["networksetup"; "-listallnetworkservices"]; ["networksetup"; "-getdnsservers"; "Wi-Fi"];
    ["networksetup"; "-getsearchdomains"; "Wi-Fi"]; ["networksetup"; "-getdnsservers"; "USB LAN"]; ["networksetup"; "-getsearchdomains"; "USB LAN"];
    ["networksetup"; "-setdnsservers"; "Wi-Fi"; "10.0.0.1"]; ["networksetup"; "-setsearchdomains"; "Wi-Fi"; "corp"]; ["networksetup"; "-setdnsservers"; "USB LAN"; "10.0.0.1"];
    ["networksetup"; "-setsearchdomains"; "USB LAN"; "corp"]; ["monitor_daemon"; "&"]; ["eval"; "touch /run/utun3"]]%string.
Proof. exists (snd (dup (over []) example_options)). split; [vm_compute; reflexivity|]. split; [apply calmb_iff; vm_compute; reflexivity|vm_compute; reflexivity]. Qed.
(** A hook fails: everything is taken back and the status is the hook's. *)
Definition bad_hook : system := over [(["eval"; "touch /run/utun3"]%string, fails 3)].
Theorem C68_failing_case : exists h, dup bad_hook example_options = (Some 3, h) /\ undisturbed h /\ skipn 41 (commands (Some 3, h)) = map words_of
   [["rm"; "-f"; "/var/run/wireguard/utun3.sock"]; ["rm"; "-f"; "/var/run/wireguard/home.name"]; ["netstat"; "-nr"; "-f"; "inet"]; ["netstat"; "-nr"; "-f"; "inet6"];
    ["route"; "-q"; "-n"; "delete"; "-inet"; "192.0.2.1"]]%string.
Proof. exists (snd (dup bad_hook example_options)). split; [vm_compute; reflexivity|]. split; [apply calmb_iff; vm_compute; reflexivity|vm_compute; reflexivity]. Qed.
(** Down, with saving; a failure while the file is being replaced; and nothing when the interface is not up. *)
Definition saved_lines : list string := ["[Interface]"; "Address = 10.0.0.2"; "Address = fd00::2"; "DNS = 10.0.0.1"; "SaveConfig = true"; "PreDown = echo a"; "PostDown = echo b"; "ListenPort = 51820"]%string.
Definition full : list (list string * answer) := (["mv"]%string, fails 5) :: mac true.
Theorem C68_down_case : fst (ddown (mac true) saving_options) = Some 0 /\
  skipn 6 (commands (ddown (mac true) saving_options)) = map words_of
   [["wg"; "show"; "interfaces"]; ["eval"; "echo a"]; ["ifconfig"; "utun3"]; ["umask"]; ["umask"; "077"]; ["wg"; "showconf"; "utun3"]; [">"; "/etc/wireguard/home.conf.tmp"]; ["sync"; "/etc/wireguard/home.conf.tmp"];
    ["mv"; "/etc/wireguard/home.conf.tmp"; "/etc/wireguard/home.conf"]; ["umask"; "0022"]; ["rm"; "-f"; "/var/run/wireguard/utun3.sock"]; ["rm"; "-f"; "/var/run/wireguard/home.name"]; ["eval"; "echo b"]]%string /\
  fst (dsave (mac true) saving_options) = Some 0 /\ In (mk_cmd [str ">"; str "/etc/wireguard/home.conf.tmp"] (a_output (lines_said saved_lines))) (map fst (snd (dsave (mac true) saving_options))) /\
  fst (ddown full saving_options) = Some 1 /\ skipn 15 (commands (ddown full saving_options)) = map words_of [["rm"; "-f"; "/etc/wireguard/home.conf.tmp"]]%string /\
  fst (ddown (mac false) saving_options) = Some 1 /\ commands (ddown (mac false) saving_options) = map words_of [["wg"; "show"; "interfaces"]; ["test"; "-f"; "/var/run/wireguard/home.name"]]%string.
Proof. split; [vm_compute; reflexivity|]. split; [vm_compute; reflexivity|]. split; [vm_compute; reflexivity|]. split; [vm_compute; tauto|]. split; [vm_compute; reflexivity|]. split; [vm_compute; reflexivity|]. split; vm_compute; reflexivity. Qed.
(** The whole script. *)
Definition at_wg0 : system := fun h c => over [] h c.
Definition dwq (uid : Z) (args : list (list Z)) : ran := DarQuick.main at_wg0 no_glob same go true usual uid (str "/usr/local/bin/bash") (str "/usr/local/bin/wg-quick") (str "wg-quick") (str "4242") args.
Theorem C68_main_case : r_end (dwq 0 [str "up"; wg0]) = Ends 0 /\ undisturbed (r_hist (dwq 0 [str "up"; wg0])) /\
  In (argv [str "ifconfig"; str "utun3"; str "inet"; str "10.0.0.2/24"; str "10.0.0.2"; str "alias"]) (map fst (r_hist (dwq 0 [str "up"; wg0]))) /\
  r_end (dwq 0 [str "up"; str "wg1"]) = Ends 1 /\ r_end (dwq 0 [str "help"]) = Ends 0 /\
  r_end (dwq 501 [str "up"; wg0]) = Becomes (map str ["sudo"; "-p"; "wg-quick must be run as root. Please enter the password for %u to continue: "; "--"; "/usr/local/bin/bash"; "--"; "/usr/local/bin/wg-quick"; "up"; "wg0"]%string).
Proof.
  split; [vm_compute; reflexivity|]. split; [apply calmb_iff; vm_compute; reflexivity|]. split; [vm_compute; tauto|]. split; [vm_compute; reflexivity|]. split; vm_compute; reflexivity.
Qed.

(** *** What is not guaranteed *)
(** If the implementation takes its time, so that the two files are not of the same time, up fails and the implementation is left running: its socket, whose removal
    would end it, is not touched. *)
Definition slow : system := over [(["stat"; "-f"; "%m"; "/var/run/wireguard/utun3.sock"]%string, says "1700000004")].
Theorem C68_orphan_refuted : exists sys h, dup sys example_options = (Some 1, h) /\ undisturbed h /\
  In (start go, mk_answer 0 [] None) h /\ (exists a, In (read_name home, a) h /\ captured (a_output a) = str "utun3") /\ Forall (fun ev => fst ev <> remove (FreeSpec.socket_path (str "utun3"))) h.
Proof.
  exists slow, (snd (dup slow example_options)). split; [vm_compute; reflexivity|]. split; [apply calmb_iff; vm_compute; reflexivity|]. split; [vm_compute; tauto|].
  split; [exists (says "utun3"); split; [vm_compute; tauto|vm_compute; reflexivity]|]. vm_compute. repeat (constructor; [intro X; discriminate X|]). constructor.
Qed.
(** A signal while DNS is set, before the monitor runs: the interface is taken back, but services keep its DNS servers. *)
Definition stopped_in_dns : system := over [(["networksetup"; "-setsearchdomains"; "USB LAN"]%string, mk_answer 0 [] (Some 130))].
Theorem C68_dns_refuted : exists sys h, dup sys example_options = (Some 130, h) /\ In (DarDnsSpec.set_servers (str "Wi-Fi") [str "10.0.0.1"]) (map fst h) /\
  In (remove (FreeSpec.socket_path (str "utun3"))) (map fst h) /\ ~ In FreeSpec.start_monitor (map fst h) /\
  Forall (fun ev => forall ws, fst ev = DarDnsSpec.set_servers (str "Wi-Fi") ws -> ws = [str "10.0.0.1"]) h.
Proof.
  exists stopped_in_dns, (snd (dup stopped_in_dns example_options)). split; [vm_compute; reflexivity|]. split; [vm_compute; tauto|]. split; [vm_compute; tauto|]. split; [vm_compute; intuition discriminate|].
  vm_compute. repeat (constructor; [intros ws X; first [discriminate X|injection X; congruence]|]). constructor.
Qed.
(** "The special string `%i' is expanded to INTERFACE" (wg-quick(8)): here it is expanded to what the kernel calls the interface. *)
Theorem C68_hook_name_refuted : exists sys h, dup sys example_options = (Some 0, h) /\ undisturbed h /\ In (str "touch /run/%i") (o_postup example_options) /\
  ~ In (run_hook (str "touch /run/home")) (map fst h) /\ In (run_hook (str "touch /run/utun3")) (map fst h).
Proof.
  exists (over []), (snd (dup (over []) example_options)). split; [vm_compute; reflexivity|]. split; [apply calmb_iff; vm_compute; reflexivity|]. split; [left; reflexivity|]. split; [vm_compute; intuition discriminate|vm_compute; tauto].
Qed.
(** Saving loses the prefix lengths of the addresses and the search domains: the file does not give back the interface it was made from. *)
Theorem C68_save_refuted : exists sys h a w o, DarQuick.cmd_save sys home saving_options conf true (mk_sh [] vars0) = (Some 0, h) /\ undisturbed h /\
  In (list_addresses (str "utun3"), a) h /\ occurs (str "inet6 fd00::2 prefixlen 64") (a_output a) /\
  In (mk_cmd [str ">"; conf ++ str ".tmp"] w) (map fst h) /\ parse_options no_glob w = Some o /\
  o_addresses saving_options = [str "10.0.0.2/24"; str "fd00::2/64"] /\ o_addresses o = [str "10.0.0.2"; str "fd00::2"] /\ o_search saving_options = [str "corp"] /\ o_search o = [].
Proof.
  exists (table_system (mac true)), (snd (dsave (mac true) saving_options)). eexists. exists (a_output (lines_said saved_lines)). eexists. split; [vm_compute; reflexivity|]. split; [apply calmb_iff; vm_compute; reflexivity|].
  split; [vm_compute; do 7 right; left; reflexivity|]. split; [exists (str "utun3: flags=8051<UP> mtu 1420" ++ [10; 9] ++ str "inet 10.0.0.2 --> 10.0.0.2 netmask 0xffffff00" ++ [10; 9]), [10]; vm_compute; reflexivity|].
  split; [vm_compute; tauto|]. split; [vm_compute; reflexivity|]. split; [reflexivity|]. split; [vm_compute; reflexivity|]. split; [reflexivity|]. vm_compute. reflexivity.
Qed.

Print Assumptions C68_up_case.
Print Assumptions C68_orphan_refuted.
Print Assumptions C68_dns_refuted.
Print Assumptions C68_hook_name_refuted.
Print Assumptions C68_save_refuted.
