(** C64, continued: examples, and what is not guaranteed. *)
From Coq Require Import String ZArith List Bool Lia.
From Verif Require Import Base Cstr Bash Quick QuickRun QuickRunSpec QuickRouteSpec QuickUpProofs PropQuickUp QuickSave QuickMain QuickMainSpec PropQuickMain QuickReloadSpec
  Sh BsdRoutes BsdRoutesSpec FreeQuick FreeSpec PropFree PropFreeMain.
Import ListNotations.
Open Scope Z_scope.

Definition lines_said (l : list string) : answer := mk_answer 0 (flat_map (fun s => str s ++ [10]) l) None.
Definition missing : answer := fails 1.
Definition dir : list Z := str "/tmp/tmp.x".
Definition free_bsd : list (list string * answer) :=
  [(["umask"]%string, says "0022"); (["mktemp"]%string, says "/tmp/tmp.x"); (["test"; "-S"]%string, fails 1); (["test"; "-d"; "/tmp/tmp.x"]%string, fails 0); (["test"; "-d"]%string, fails 1);
   (["ifconfig"; "wg0"; "inet"]%string, fails 0); (["ifconfig"; "wg0"; "inet6"]%string, fails 0); (["ifconfig"; "wg0"; "mtu"]%string, fails 0); (["ifconfig"; "wg0"; "up"]%string, fails 0);
   (["ifconfig"; "wg0"; "destroy"]%string, fails 0); (["ifconfig"; "wg0"]%string, fails 1); (["ifconfig"; "em0"]%string, says "em0: flags=8843<UP> metric 0 mtu 1400");
   (["wg"; "show"; "interfaces"]%string, says "wg0 wg1");
   (["wg"; "show"; "wg0"; "endpoints"]%string, mk_answer 0 (str "k1" ++ [9] ++ str "192.0.2.1:51820" ++ [10]) None);
   (["wg"; "show"; "wg0"; "allowed-ips"]%string, says "k1 0.0.0.0/0 10.1.0.0/16");
   (["sort"]%string, lines_said ["10.1.0.0/16"; "0.0.0.0/0"]%string);
   (["netstat"; "-nr"; "-f"; "inet"]%string, lines_said ["Destination Gateway Flags Netif"; "default 198.51.100.1 UGS em0"]%string);
   (["netstat"; "-I"; "wg0"; "-n"; "-W"; "-f"; "inet"]%string, lines_said ["Name Mtu Network Address Ipkts"; "wg0 - 10.0.0.0/24 10.0.0.2 0"]%string);
   (["netstat"; "-I"; "wg0"; "-n"; "-W"; "-f"; "inet6"]%string, lines_said ["Name Mtu Network Address Ipkts"; "wg0 - fd00::/64 fd00::2 0"]%string);
   (["resolvconf"; "-l"]%string, lines_said ["# resolv.conf from wg0"; "nameserver 10.0.0.1"]%string);
   (["wg"; "showconf"]%string, lines_said ["[Interface]"; "ListenPort = 51820"]%string);
   (["route"; "-n"; "get"]%string, lines_said ["   route to: 192.0.2.1"; "destination: default"; "  interface: em0"; "      flags: <UP,GATEWAY>"]%string)].
Definition begun : sh vars := mk_sh [] (first_vars dir).
Definition fup (l : list (list string * answer)) (o : options) : outcome := FreeQuick.cmd_up (table_system l) no_glob 5 wg0 o (str "wireguard-go") begun.
Definition fdown (l : list (list string * answer)) (o : options) : outcome := FreeQuick.cmd_down (table_system l) 5 wg0 o (str "/etc/wireguard/wg0.conf") true begun.
Definition fsave (l : list (list string * answer)) (o : options) : outcome := FreeQuick.cmd_save (table_system l) wg0 o (str "/etc/wireguard/wg0.conf") true begun.
Definition commands (x : outcome) : list (list (list Z)) := map (fun ev => c_argv (fst ev)) (snd x).
Definition saving_options : options := mk_options (str "[Interface]" ++ [10]) [str "10.0.0.2/24"; str "fd00::2/64"] [] [str "10.0.0.1"] [str "corp"] [] [] [] [str "echo a"] [str "echo b"] true.
Definition calmb (h : history) : bool := forallb (fun ev => match a_signal (snd ev) with None => true | _ => false end) h.
Lemma calmb_iff : forall h, calmb h = true -> undisturbed h.
Proof. intros h H. apply Forall_forall. intros ev Hi. unfold calmb in H. rewrite forallb_forall in H. specialize (H ev Hi). destruct (a_signal (snd ev)); [discriminate H|reflexivity]. Qed.

(** The hypotheses of C64_up: hooks, addresses, an endpoint, DNS, a default route. *)
Example C64_up_case : fst (fup free_bsd example_options) = Some 0 /\ undisturbed (snd (fup free_bsd example_options)) /\
  commands (fup free_bsd example_options) = map words_of
   [["ifconfig"; "wg0"]; ["ifconfig"; "wg"; "create"; "name"; "wg0"]; ["eval"; "echo wg0; echo wg0"]; ["wg"; "setconf"; "wg0"; "/dev/stdin"]; ["ifconfig"; "wg0"; "inet"; "10.0.0.2/24"; "alias"];
    ["ifconfig"; "wg0"; "inet6"; "fd00::2/64"; "alias"]; ["wg"; "show"; "wg0"; "endpoints"]; ["route"; "-n"; "get"; "-inet"; "192.0.2.1"]; ["ifconfig"; "em0"]; ["ifconfig"; "wg0"; "mtu"; "1320"];
    ["ifconfig"; "wg0"; "up"]; ["resolvconf"; "-a"; "wg0"; "-x"]; ["wg"; "show"; "wg0"; "allowed-ips"]; ["sort"; "-nr"; "-k"; "2"; "-t"; "/"]; ["route"; "-n"; "get"; "-inet"; "10.1.0.0/16"];
    ["route"; "-q"; "-n"; "add"; "-inet"; "10.1.0.0/16"; "-interface"; "wg0"]; ["route"; "-q"; "-n"; "add"; "-inet"; "0.0.0.0/1"; "-interface"; "wg0"];
    ["route"; "-q"; "-n"; "add"; "-inet"; "128.0.0.0/1"; "-interface"; "wg0"]; ["netstat"; "-nr"; "-f"; "inet"]; ["netstat"; "-nr"; "-f"; "inet6"]; ["wg"; "show"; "wg0"; "endpoints"];
    ["route"; "-q"; "-n"; "delete"; "-inet"; "192.0.2.1"]; ["route"; "-q"; "-n"; "add"; "-inet"; "192.0.2.1"; "-gateway"; "198.51.100.1"]; ["monitor_daemon"; "&"]; ["eval"; "touch /run/wg0"];
    ["rm"; "-rf"; "/tmp/tmp.x"]]%string.
Proof. split; [vm_compute; reflexivity|]. split; [apply calmb_iff; vm_compute; reflexivity|vm_compute; reflexivity]. Qed.
(** A hook fails: everything is taken back and the status is the hook's. *)
Definition bad_hook : list (list string * answer) := (["eval"; "touch /run/wg0"]%string, fails 3) :: free_bsd.
Example C64_failing_case : fst (fup bad_hook example_options) = Some 3 /\ undisturbed (snd (fup bad_hook example_options)) /\
  skipn 25 (commands (fup bad_hook example_options)) = map words_of
   [["resolvconf"; "-d"; "wg0"]; ["test"; "-S"; "/var/run/wireguard/wg0.sock"]; ["ifconfig"; "wg0"; "destroy"]; ["ifconfig"; "wg0"]; ["netstat"; "-nr"; "-f"; "inet"]; ["netstat"; "-nr"; "-f"; "inet6"];
    ["route"; "-q"; "-n"; "delete"; "-inet"; "192.0.2.1"]; ["rm"; "-rf"; "/tmp/tmp.x"]]%string.
Proof. split; [vm_compute; reflexivity|]. split; [apply calmb_iff; vm_compute; reflexivity|vm_compute; reflexivity]. Qed.
(** A signal during the first hook. *)
Definition hit_hook : list (list string * answer) := (["eval"]%string, mk_answer 0 [] (Some 130)) :: free_bsd.
Example C64_interrupted_case : exists pre ev post, fup hit_hook example_options = (Some 130, [] ++ pre ++ ev :: post) /\ undisturbed pre /\ undisturbed post /\ a_signal (snd ev) = Some 130 /\
  fst ev = run_hook (str "echo wg0; echo wg0") /\ map (fun e => c_argv (fst e)) post = map words_of
   [["test"; "-S"; "/var/run/wireguard/wg0.sock"]; ["ifconfig"; "wg0"; "destroy"]; ["ifconfig"; "wg0"]; ["netstat"; "-nr"; "-f"; "inet"]; ["netstat"; "-nr"; "-f"; "inet6"]; ["rm"; "-rf"; "/tmp/tmp.x"];
    ["test"; "-S"; "/var/run/wireguard/wg0.sock"]; ["ifconfig"; "wg0"; "destroy"]; ["ifconfig"; "wg0"]; ["netstat"; "-nr"; "-f"; "inet"]; ["netstat"; "-nr"; "-f"; "inet6"]; ["rm"; "-rf"; "/tmp/tmp.x"]]%string.
Proof.
  exists (firstn 2 (snd (fup hit_hook example_options))), (nth 2 (snd (fup hit_hook example_options)) (argv [], fails 0)), (skipn 3 (snd (fup hit_hook example_options))).
  split; [vm_compute; reflexivity|]. split; [apply calmb_iff; vm_compute; reflexivity|]. split; [apply calmb_iff; vm_compute; reflexivity|]. split; [vm_compute; reflexivity|]. split; vm_compute; reflexivity.
Qed.
(** Down, with saving; and a failure while the file is being replaced. *)
Definition saved_lines : list string := ["[Interface]"; "Address = 10.0.0.2"; "Address = fd00::2"; "DNS = 10.0.0.1"; "SaveConfig = true"; "PreDown = echo a"; "PostDown = echo b"; "ListenPort = 51820"]%string.
Definition full : list (list string * answer) := (["mv"]%string, fails 5) :: free_bsd.
Example C64_down_case : fst (fdown free_bsd saving_options) = Some 0 /\ undisturbed (snd (fdown free_bsd saving_options)) /\
  commands (fdown free_bsd saving_options) = map words_of
   [["wg"; "show"; "interfaces"]; ["eval"; "echo a"]; ["netstat"; "-I"; "wg0"; "-n"; "-W"; "-f"; "inet"]; ["netstat"; "-I"; "wg0"; "-n"; "-W"; "-f"; "inet6"]; ["resolvconf"; "-l"; "wg0"]; ["umask"];
    ["umask"; "077"]; ["wg"; "showconf"; "wg0"]; [">"; "/etc/wireguard/wg0.conf.tmp"]; ["sync"; "/etc/wireguard/wg0.conf.tmp"]; ["mv"; "/etc/wireguard/wg0.conf.tmp"; "/etc/wireguard/wg0.conf"];
    ["umask"; "0022"]; ["test"; "-S"; "/var/run/wireguard/wg0.sock"]; ["ifconfig"; "wg0"; "destroy"]; ["ifconfig"; "wg0"]; ["resolvconf"; "-d"; "wg0"]; ["eval"; "echo b"]; ["rm"; "-rf"; "/tmp/tmp.x"]]%string /\
  fst (fsave free_bsd saving_options) = Some 0 /\ In (mk_cmd [str ">"; str "/etc/wireguard/wg0.conf.tmp"] (a_output (lines_said saved_lines))) (map fst (snd (fsave free_bsd saving_options))) /\
  fst (fdown full saving_options) = Some 1 /\ skipn 11 (commands (fdown full saving_options)) = map words_of [["rm"; "-f"; "/etc/wireguard/wg0.conf.tmp"]; ["rm"; "-rf"; "/tmp/tmp.x"]]%string.
Proof.
  split; [vm_compute; reflexivity|]. split; [apply calmb_iff; vm_compute; reflexivity|]. split; [vm_compute; reflexivity|]. split; [vm_compute; reflexivity|]. split; [vm_compute; tauto|]. split; vm_compute; reflexivity.
Qed.
(** The whole script. *)
Definition fwq (uid : Z) (args : list (list Z)) : ran := FreeQuick.main (table_system free_bsd) no_glob 5 true (str "wireguard-go") usual uid (str "/usr/local/bin/bash") (str "/usr/local/bin/wg-quick") (str "wg-quick") args.
Example C64_main_case : (forall h, a_status (table_system free_bsd h (argv [str "test"; str "-d"; []])) <> 0) /\ r_end (fwq 0 [str "up"; wg0]) = Ends 0 /\ undisturbed (r_hist (fwq 0 [str "up"; wg0])) /\
  In (argv [str "ifconfig"; wg0; str "inet"; str "10.0.0.2/24"; str "alias"]) (map fst (r_hist (fwq 0 [str "up"; wg0]))) /\
  r_end (fwq 0 [str "up"; str "wg1"]) = Ends 1 /\ r_end (fwq 0 [str "help"]) = Ends 0 /\ (exists l, r_end (fwq 501 [str "up"; wg0]) = Becomes l).
Proof.
  split; [intros h H; vm_compute in H; discriminate H|]. split; [vm_compute; reflexivity|]. split; [apply calmb_iff; vm_compute; reflexivity|]. split; [vm_compute; tauto|]. split; [vm_compute; reflexivity|].
  split; [vm_compute; reflexivity|]. eexists. vm_compute. reflexivity.
Qed.

(** *** What is not guaranteed *)
(** If the name is in use by the time the interface is created, the script goes on with somebody else's interface and reports success. *)
Theorem C64_name_taken_refuted : exists sys h a, FreeQuick.cmd_up sys no_glob 5 wg0 example_options (str "wireguard-go") begun = (Some 0, h) /\ undisturbed h /\
  In (create wg0, a) h /\ a_status a <> 0 /\ Forall (fun ev => forall ws, c_argv (fst ev) <> str "wireguard-go" :: ws) h.
Proof.
  set (l := (["ifconfig"; "wg"; "create"]%string, mk_answer 1 (str "ifconfig: ioctl SIOCSIFNAME (set name): File exists" ++ [10]) None) :: free_bsd).
  exists (table_system l), (snd (fup l example_options)). eexists. split; [vm_compute; reflexivity|]. split; [apply calmb_iff; vm_compute; reflexivity|]. split; [vm_compute; right; left; reflexivity|].
  split; [discriminate|]. vm_compute. repeat (constructor; [intros ws X; discriminate X|]). constructor.
Qed.
(** Without endpoints the MTU should be that of the interface of the default route, less 80; only the first line of the answer is looked at, which does not name it. *)
Theorem C64_default_mtu_refuted : exists sys h a b, FreeQuick.cmd_up sys no_glob 5 wg0 example_options (str "wireguard-go") begun = (Some 0, h) /\ undisturbed h /\
  In (argv [str "route"; str "-n"; str "get"; str "default"], a) h /\ occurs (str "interface: em0" ++ [10]) (a_output a) /\
  (forall h', sys h' (argv [str "ifconfig"; str "em0"]) = b) /\ occurs (str "mtu 1400") (a_output b) /\ In (give_mtu wg0 (str "1420")) (map fst h) /\ ~ In (give_mtu wg0 (str "1320")) (map fst h).
Proof.
  set (l := (["wg"; "show"; "wg0"; "endpoints"]%string, fails 0) :: free_bsd). exists (table_system l), (snd (fup l example_options)). eexists. exists (says "em0: flags=8843<UP> metric 0 mtu 1400"). split; [vm_compute; reflexivity|].
  split; [apply calmb_iff; vm_compute; reflexivity|]. split; [vm_compute; do 7 right; left; reflexivity|].
  split; [exists (str "   route to: 192.0.2.1" ++ [10] ++ str "destination: default" ++ [10] ++ str "  "), (str "      flags: <UP,GATEWAY>" ++ [10]); vm_compute; reflexivity|]. split; [intro h'; reflexivity|].
  split; [exists (str "em0: flags=8843<UP> metric 0 "), [10]; reflexivity|]. split; [vm_compute; tauto|]. vm_compute. intuition discriminate.
Qed.
(** A dot in the name of the interface stands for any letter: a route through the interface "wgx0" counts as one through "wg.0" and is not added. *)
Theorem C64_pattern_refuted : exists sys h, FreeQuick.cmd_up sys no_glob 5 (str "wg.0") example_options (str "wireguard-go") begun = (Some 0, h) /\ undisturbed h /\
  (forall h' f, says_interface (str "wgx0") (a_output (sys h' (find_route f (str "10.1.0.0/16"))))) /\
  ~ In (via_interface F4 (str "10.1.0.0/16") (str "wg.0")) (map fst h).
Proof.
  set (l := (["route"; "-n"; "get"]%string, lines_said ["  interface: wgx0"; "      flags: <UP>"]%string) :: (["wg"; "show"; "wg.0"; "allowed-ips"]%string, says "k1 10.1.0.0/16") :: (["sort"]%string, says "10.1.0.0/16") :: free_bsd).
  exists (table_system l), (snd (FreeQuick.cmd_up (table_system l) no_glob 5 (str "wg.0") example_options (str "wireguard-go") begun)). split; [vm_compute; reflexivity|]. split; [apply calmb_iff; vm_compute; reflexivity|].
  split; [intros h' f; exists (str "  "), (str "      flags: <UP>" ++ [10]); destruct f; vm_compute; reflexivity|]. vm_compute. intuition discriminate.
Qed.
(** If the interface cannot be destroyed while what was done is taken back, the host routes and the temporary directory are left. *)
Theorem C64_cleanup_refuted : exists sys h, FreeQuick.cmd_up sys no_glob 5 wg0 example_options (str "wireguard-go") begun = (Some 1, h) /\ undisturbed h /\
  In (adds F4 (str "192.0.2.1") (Via (str "198.51.100.1"))) (map fst h) /\ fst (last h (argv [], fails 0)) = destroy wg0 /\ ~ In (remove_dir dir) (map fst h).
Proof.
  set (l := (["ifconfig"; "wg0"; "destroy"]%string, fails 1) :: bad_hook). exists (table_system l), (snd (fup l example_options)). split; [vm_compute; reflexivity|].
  split; [apply calmb_iff; vm_compute; reflexivity|]. split; [vm_compute; tauto|]. split; [vm_compute; reflexivity|]. vm_compute. intuition discriminate.
Qed.
(** If the DNS servers cannot be unregistered after the interface has gone, the PostDown hooks do not run. *)
Theorem C64_postdown_refuted : exists sys h, FreeQuick.cmd_down sys 5 wg0 saving_options (str "/etc/wireguard/wg0.conf") true begun = (Some 1, h) /\ undisturbed h /\
  In (destroy wg0) (map fst h) /\ o_postdown saving_options = [str "echo b"] /\ ~ In (run_hook (str "echo b")) (map fst h).
Proof.
  set (l := (["resolvconf"; "-d"]%string, fails 1) :: free_bsd). exists (table_system l), (snd (fdown l saving_options)). split; [vm_compute; reflexivity|].
  split; [apply calmb_iff; vm_compute; reflexivity|]. split; [vm_compute; tauto|]. split; [reflexivity|]. vm_compute. intuition discriminate.
Qed.
(** A signal while the DNS servers are being registered: the command ends successfully, but they are not unregistered. *)
Theorem C64_dns_signal_refuted : exists sys h a text, FreeQuick.cmd_up sys no_glob 5 wg0 example_options (str "wireguard-go") begun = (Some 130, h) /\
  In (register wg0 text, a) h /\ a_status a = 0 /\ ~ In (unregister wg0) (map fst h).
Proof.
  set (l := (["resolvconf"; "-a"]%string, mk_answer 0 [] (Some 130)) :: free_bsd). exists (table_system l), (snd (fup l example_options)). eexists. eexists. split; [vm_compute; reflexivity|].
  split; [vm_compute; do 11 right; left; reflexivity|]. split; [reflexivity|]. vm_compute. intuition discriminate.
Qed.
(** Saving loses the prefix lengths of the addresses and the search domains: the file does not give back the interface it was made from. *)
Theorem C64_save_refuted : exists sys h a w o, FreeQuick.cmd_save sys wg0 saving_options (str "/etc/wireguard/wg0.conf") true begun = (Some 0, h) /\ undisturbed h /\
  In (list_addresses F4 wg0, a) h /\ occurs (str "10.0.0.0/24 10.0.0.2 ") (a_output a) /\
  In (mk_cmd [str ">"; str "/etc/wireguard/wg0.conf.tmp"] w) (map fst h) /\ parse_options no_glob w = Some o /\
  o_addresses saving_options = [str "10.0.0.2/24"; str "fd00::2/64"] /\ o_addresses o = [str "10.0.0.2"; str "fd00::2"] /\ o_search saving_options = [str "corp"] /\ o_search o = [].
Proof.
  exists (table_system free_bsd), (snd (fsave free_bsd saving_options)). eexists. exists (a_output (lines_said saved_lines)). eexists. split; [vm_compute; reflexivity|]. split; [apply calmb_iff; vm_compute; reflexivity|].
  split; [vm_compute; right; left; reflexivity|]. split; [exists (str "Name Mtu Network Address Ipkts" ++ [10] ++ str "wg0 - "), (str "0" ++ [10]); vm_compute; reflexivity|]. split; [vm_compute; tauto|].
  split; [vm_compute; reflexivity|]. split; [reflexivity|]. split; [vm_compute; reflexivity|]. split; [reflexivity|]. vm_compute. reflexivity.
Qed.
(** If netstat says nothing (here for IPv6) nothing is saved, and with SaveConfig the interface cannot be taken down. *)
Theorem C64_silent_netstat_refuted : exists sys h, FreeQuick.cmd_down sys 5 wg0 saving_options (str "/etc/wireguard/wg0.conf") true begun = (Some 1, h) /\ undisturbed h /\
  Forall (fun ev => a_status (snd ev) = 0) h /\ ~ In (destroy wg0) (map fst h).
Proof.
  set (l := (["netstat"; "-I"; "wg0"; "-n"; "-W"; "-f"; "inet6"]%string, fails 0) :: free_bsd). exists (table_system l), (snd (fdown l saving_options)). split; [vm_compute; reflexivity|].
  split; [apply calmb_iff; vm_compute; reflexivity|]. split; [vm_compute; repeat constructor|]. vm_compute. intuition discriminate.
Qed.

Print Assumptions C64_name_taken_refuted.
Print Assumptions C64_default_mtu_refuted.
Print Assumptions C64_pattern_refuted.
Print Assumptions C64_cleanup_refuted.
Print Assumptions C64_postdown_refuted.
Print Assumptions C64_dns_signal_refuted.
Print Assumptions C64_save_refuted.
Print Assumptions C64_silent_netstat_refuted.
