(** What bringing an interface up and taking it down on Android means (C73), in terms of the commands that were run. *)
From Coq Require Import String ZArith List Bool.
From Verif Require Import Base Cstr AndIf AndSpec AndQuick.
Import ListNotations.
Open Scope Z_scope.

(** A command succeeded: ndc answers, and not with an error code (400 to 599); another one ends with status 0. *)
Definition succeeded (w : world) (h : list deed) (d : deed) : Prop :=
  if list_eq_dec Z.eq_dec (firstn 4 (d_command d)) (str "ndc ")
  then exists l more, w_lines w h (d_command d) = l :: more /\ ~ (400 <= atoi l < 600)
  else w_status w h d = 0.
(** Everything that was done succeeded, each after what was done before it. *)
Definition all_succeeded (w : world) (h ds : list deed) : Prop :=
  forall before d after, ds = before ++ d :: after -> succeeded w (h ++ before) d.

(** The lines of iptables-save and ip6tables-save end with a newline. *)
Definition line (l : list Z) : list Z := l ++ [10].
(** Taking down, after [h]: the interface is deleted, then all rules that were added for it and no others, then at most one network. *)
Definition torn_down (w : world) (iface : list Z) (h ds : list deed) : Prop :=
  exists rules4 gone4 rules6 gone6 network,
    let d0 := [plain (str "ip link del " ++ iface)] in
    let d4 := map (fun r => plain (str "iptables -D " ++ r)) gone4 in
    let d6 := map (fun r => plain (str "ip6tables -D " ++ r)) gone6 in
    ds = d0 ++ d4 ++ d6 ++ network /\
    w_lines w (h ++ d0) (str "iptables-save") = map line rules4 /\ goes_for iface rules4 gone4 /\
    w_lines w (h ++ d0 ++ d4) (str "ip6tables-save") = map line rules6 /\ goes_for iface rules6 gone6 /\
    (network = [] \/ exists id, network = [plain (str "ndc network destroy " ++ id)]).
(** What is done to a list of rules by a command: PROGRAM -D RULE deletes the first that is equal. *)
Fixpoint without_first (r : list Z) (rules : list (list Z)) : list (list Z) :=
  match rules with [] => [] | x :: rs => if list_eq_dec Z.eq_dec x r then rs else x :: without_first r rs end.
Definition effect (program : list Z) (rules : list (list Z)) (d : deed) : list (list Z) :=
  let p := program ++ str " -D " in
  if list_eq_dec Z.eq_dec (firstn (length p) (d_command d)) p then without_first (skipn (length p) (d_command d)) rules else rules.
(** Of the rules, those that were not added for the interface, in order. *)
Inductive others (iface : list Z) : list (list Z) -> list (list Z) -> Prop :=
| others_nil : others iface [] []
| others_skip : forall r rules rest, added_for iface r -> others iface rules rest -> others iface (r :: rules) rest
| others_keep : forall r rules rest, ~ added_for iface r -> others iface rules rest -> others iface (r :: rules) (r :: rest).
(** What bringing up does once the interface has its configuration; [port]: the port it listens on, 0 for none; [block]: whether IPv6 traffic to it is dropped. *)
Definition rule_comment (iface : list Z) : list Z := str " -m comment --comment ""wireguard rule " ++ iface ++ str """".
Definition mark_accepted : list Z := str " -I OUTPUT 1 -m mark --mark 0x20000 -j ACCEPT".
Definition port_rule (port : Z) (verdict iface : list Z) : list Z := str " -I INPUT 1 -p udp --dport " ++ print_dec port ++ str " -j " ++ verdict ++ rule_comment iface.
Definition brought_up (iface : list Z) (sdk netid port : Z) (block : bool) (addresses dns routes : list (list Z)) (mtu : list Z) (users announced : list (list Z)) : list (list Z) :=
  [str "ip link set up dev " ++ iface; str "ip link set down dev " ++ iface; str "wg set " ++ iface ++ str " fwmark 0x20000";
   str "iptables" ++ mark_accepted ++ rule_comment iface; str "ip6tables" ++ mark_accepted ++ rule_comment iface] ++
  (if port =? 0 then [] else
    [str "iptables" ++ port_rule port (str "ACCEPT") iface; str "ip6tables" ++ port_rule port (if block then str "DROP" else str "ACCEPT") iface]) ++
  [str "ip link set up dev " ++ iface; str "ndc network create " ++ print_dec netid ++ (if sdk <? 31 then str " vpn 1 1" else str " vpn 1");
   str "ndc network interface add " ++ print_dec netid ++ str " " ++ iface] ++
  addresses ++ dns ++ routes ++ [mtu] ++ users ++ announced.
Definition announcement (from_app : bool) : list (list Z) :=
  if from_app then [] else [str "am broadcast -a com.wireguard.android.action.REFRESH_TUNNEL_STATES com.wireguard.android"].
Definition earlier (p h : list deed) : Prop := exists r, h = p ++ r.
