(** C75: on Android, wg-quick up NAME, from the command line and the configuration file to the commands; what is for wg alone, the private key, is in no command. *)
From Coq Require Import String ZArith List Bool Lia.
From Verif Require Import Base Cstr CstrProofs NumSpec ConfigProofs Quick AndUsers AndOptions AndDns AndIf AndSpec PropAndOptions PropAndIf AndQuick AndUpSpec PropAndUp AndMain.
From Verif Require Import Uapi.
Import ListNotations.
Open Scope Z_scope.

(** ** What is for wg alone *)
Definition commands (h : list deed) : list (list Z) := map d_command h.
(** The rest of the system replies by the commands, not by what wg was given to read. *)
Definition by_commands (w : world) : Prop := forall h h', commands h = commands h' ->
  w_lines w h = w_lines w h' /\ forall d d', d_command d = d_command d' -> w_status w h d = w_status w h' d'.
Definition same {A} (m m' : act A) : Prop := forall h h', commands h = commands h' ->
  match m h, m' h' with
  | Goes a k, Goes a' k' => a = a' /\ commands k = commands k'
  | Exits k, Exits k' => commands k = commands k'
  | Undefined, Undefined => True
  | _, _ => False
  end.
Lemma same_ret : forall A (a : A), same (ret a) (ret a).
Proof. intros A a h h' E. split; [reflexivity|exact E]. Qed.
Lemma same_stop : forall A, same (@stop A) (@stop A).
Proof. intros A h h' E. exact E. Qed.
Lemma same_undefined : forall A, same (fun _ => @Undefined A) (fun _ => @Undefined A).
Proof. intros A h h' E. exact I. Qed.
Lemma same_bind : forall A B (m m' : act A) (f f' : A -> act B), same m m' -> (forall a, same (f a) (f' a)) -> same (bind m f) (bind m' f').
Proof.
  intros A B m m' f f' S1 S2 h h' E. unfold bind. specialize (S1 h h' E). destruct (m h) as [a k|k|], (m' h') as [a' k'|k'|]; try contradiction; try exact S1.
  destruct S1 as [<- E1]. apply S2. exact E1.
Qed.
Lemma commands_app : forall h d h' d', commands h = commands h' -> d_command d = d_command d' -> commands (h ++ [d]) = commands (h' ++ [d']).
Proof. intros h d h' d' E1 E2. unfold commands in *. rewrite !map_app, E1. cbn [map]. rewrite E2. reflexivity. Qed.
Lemma same_ask : forall w t, by_commands w -> same (ask w t) (ask w t).
Proof. intros w t B h h' E. unfold ask. destruct (B h h' E) as [-> _]. auto. Qed.
Lemma same_cmd : forall w ex t, by_commands w -> same (cmd w ex t) (cmd w ex t).
Proof.
  intros w ex t B h h' E. unfold cmd. destruct (B h h' E) as [_ S]. rewrite (S (plain t) (plain t) eq_refl).
  destruct (negb (w_status w h' (plain t) =? 0) && negb ex); [|split; [reflexivity|]]; apply commands_app; auto.
Qed.
Lemma same_cndc : forall w t, by_commands w -> same (cndc w t) (cndc w t).
Proof.
  intros w t B h h' E. unfold cndc. destruct (B h h' E) as [-> _]. destruct (w_lines w h' t); [apply commands_app; auto|].
  destruct ((400 <=? atoi l) && (atoi l <? 600)); [|split; [reflexivity|]]; apply commands_app; auto.
Qed.
Lemma same_issue : forall w ex t, by_commands w -> same (issue w ex t) (issue w ex t).
Proof. intros w ex t B. unfold issue. destruct (after_prefix (str "ndc ") t); [apply same_cndc|apply same_cmd]; exact B. Qed.
Lemma same_issue_all : forall w ex ts, by_commands w -> same (issue_all w ex ts) (issue_all w ex ts).
Proof. intros w ex ts B. induction ts as [|t ts IH]; [apply same_ret|]. apply same_bind; [apply same_issue; exact B|intros; exact IH]. Qed.
Ltac sames := repeat first
  [ apply same_bind; [|intro] | apply same_ret | apply same_stop | apply same_undefined | apply same_ask; assumption | apply same_issue_all; assumption | apply same_issue; assumption
  | apply same_cmd; assumption | apply same_cndc; assumption ].
Lemma same_del_if : forall w ulmax ex iface, by_commands w -> same (del_if w ulmax ex iface) (del_if w ulmax ex iface).
Proof. intros. unfold del_if. sames. Qed.
Definition with_config (q : wanted) (c : list Z) : wanted := mk_wanted (q_iface q) c (q_mtu q) (q_addrs q) (q_dnses q) (q_excluded q) (q_included q).
Lemma same_up : forall w ulmax sdk random from_app q c, by_commands w -> same (up_steps w ulmax sdk random from_app q) (up_steps w ulmax sdk random from_app (with_config q c)).
Proof.
  intros w ulmax sdk random from_app q c B. unfold up_steps, with_config, add_if, determine_listen_port, up_if, set_dnses, set_users_of, broadcast. cbn [q_iface q_config q_mtu q_addrs q_dnses q_excluded q_included]. sames.
  - intros h h' E. unfold set_config. destruct (B h h' E) as [_ S].
    rewrite (S (mk_deed (str "wg setconf " ++ q_iface q ++ str " /proc/self/fd/0") (Some (q_config q))) (mk_deed (str "wg setconf " ++ q_iface q ++ str " /proc/self/fd/0") (Some c)) eq_refl).
    destruct (w_status w h' _ =? 0); [split; [reflexivity|]|]; apply commands_app; auto.
  - destruct (draw_netid random); sames. destruct (negb (a1 =? 0)); sames.
  - destruct (dns_parts (q_dnses q)) as [| | |[x|]]; sames.
  - intros h h' E. destruct (B h h' E) as [-> _]. apply same_issue; assumption.
  - destruct (set_users ulmax (w_packages w) a2 (q_excluded q) (q_included q)); sames.
  - destruct from_app; sames.
Qed.
(** Two configurations that differ only in what is for wg (the keys, the peers) lead to the same commands, whether up succeeds or not. *)
Theorem C75_private : forall w ulmax sdk random from_app q c, by_commands w ->
  match cmd_up w ulmax sdk random from_app q, cmd_up w ulmax sdk random from_app (with_config q c) with
  | Succeeded h, Succeeded h' => commands h = commands h'
  | Failed h, Failed h' => commands h = commands h'
  | No_telling, No_telling => True
  | _, _ => False
  end.
Proof.
  intros w ulmax sdk random from_app q c B. unfold cmd_up. cbn [with_config q_iface].
  destruct (w_lines w [] (str "ip link show dev " ++ q_iface q ++ str " 2>/dev/null")); [|reflexivity].
  pose proof (same_up w ulmax sdk random from_app q c B [] [] eq_refl) as S. unfold with_config in *. cbn [q_iface].
  destruct (up_steps w ulmax sdk random from_app q []) as [u k|k|], (up_steps w ulmax sdk random from_app _ []) as [u' k'|k'|]; try contradiction; try exact I; [apply S|].
  pose proof (same_del_if w ulmax true (q_iface q) B k k' S) as D.
  destruct (del_if w ulmax true (q_iface q) k) as [v l|l|], (del_if w ulmax true (q_iface q) k') as [v' l'|l'|]; try contradiction; try exact I; [apply D|exact D].
Qed.

(** ** The command line *)
(** A list of applications of the file, as a string in memory that goes on with [behind]. *)
Definition in_memory (behind : list Z) (vs : list (list Z)) : option (list Z) := match vs with [] => None | _ => Some (commas vs ++ 0 :: behind) end.
(** The MTU the file gives: 0 for none. *)
Definition mtu_given (ms : list (bool * list Z)) (mtu : Z) : Prop :=
  (settings_of "MTU" ms = [] -> mtu = 0) /\ (forall vs v n, settings_of "MTU" ms = vs ++ [v] -> Forall is_byte v -> decimal v n -> n < 2 ^ 32 -> mtu = n).
(** The command that brings an interface up, as root: with the file of the name in the first directory that has it. *)
Theorem C75_up : forall w ulmax sdk random from_app behind fopen self n f h,
  Forall (fun c => name_char c = true) n -> (1 <= length n <= 15)%nat ->
  match fopen (str "/data/misc/wireguard/" ++ n ++ str ".conf") with Some g => Some g | None => fopen (str "/data/data/com.wireguard.android/files/" ++ n ++ str ".conf") end = Some f ->
  Forall (fun l => Z.of_nat (length l) <= 65536) (getlines (f_text f)) ->
  main w ulmax sdk 0 random from_app behind fopen [self; str "up"; n] = Ran (Succeeded h) ->
  let ms := marked false (getlines (f_text f)) in
  w_lines w [] (str "ip link show dev " ++ n ++ str " 2>/dev/null") = [] /\ all_succeeded w [] h /\
  exists netid mtu port block users p1 p2 p3 p4,
    4096 <= netid <= 65534 /\ Z.even netid = true /\ mtu_given ms mtu /\
    earlier p1 h /\ port = listen_port ulmax (w_lines w p1 (str "wg show " ++ n ++ str " listen-port")) /\
    earlier p2 h /\ block = should_block_ipv6 (w_lines w p2 (str "wg show " ++ n ++ str " endpoints")) /\
    earlier p3 h /\ earlier p4 h /\
    set_users ulmax (w_packages w) netid (in_memory behind (settings_of "ExcludedApplications" ms)) (in_memory behind (settings_of "IncludedApplications" ms)) = Is users /\
    h = plain (str "ip link add " ++ n ++ str " type wireguard") :: mk_deed (str "wg setconf " ++ n ++ str " /proc/self/fd/0") (Some (for_wg ms)) ::
        map plain (brought_up n sdk netid port block (set_addr n (commas (settings_of "Address" ms))) (dns_set netid (commas (settings_of "DNS" ms)))
          (set_routes n netid (w_lines w p3 (str "wg show " ++ n ++ str " allowed-ips"))) (set_mtu (w_lines w p4) n mtu) users (announcement from_app)).
Proof.
  intros w ulmax sdk random from_app behind fopen self n f h N L O F M ms.
  unfold main in M. replace (beq (str "up") (str "up")) with true in M by reflexivity. cbn [negb Z.eqb] in M. rewrite C70_search in M by assumption.
  assert (P : match fopen (str "/data/misc/wireguard/" ++ n ++ str ".conf"), fopen (str "/data/data/com.wireguard.android/files/" ++ n ++ str ".conf") with
     | Some f, _ | None, Some f => Parsed n (negb (Z.land (f_mode f) 7 =? 0)) (read_settings (f_text f))
     | None, None => Refused end = Parsed n (negb (Z.land (f_mode f) 7 =? 0)) (read_settings (f_text f))).
  { destruct (fopen (str "/data/misc/wireguard/" ++ n ++ str ".conf")); [congruence|]. rewrite O. reflexivity. }
  rewrite P in M. destruct (C70_settings (f_text f) F) as (C & A & D & X & I & M0 & M1). fold ms in C, A, D, X, I, M0, M1. unfold wanted_of in M. rewrite C, A, D in M.
  match type of M with Ran (cmd_up _ _ _ _ _ ?q) = _ => assert (U : cmd_up w ulmax sdk random from_app q = Succeeded h) by congruence end.
  apply C73_up in U. cbn [q_iface q_config q_addrs q_dnses q_mtu q_excluded q_included] in U.
  destruct U as (U1 & U2 & netid & port & block & routes & mtu & users & p1 & p2 & p3 & p4 & N1 & N2 & E1 & P1 & E2 & P2 & E3 & -> & E4 & -> & S & E).
  split; [exact U1|]. split; [exact U2|]. exists netid, (s_mtu (read_settings (f_text f))), port, block, users, p1, p2, p3, p4.
  rewrite X, I in S.
  assert (S' : set_users ulmax (w_packages w) netid (in_memory behind (settings_of "ExcludedApplications" ms)) (in_memory behind (settings_of "IncludedApplications" ms)) = Is users).
  { unfold in_memory. destruct (settings_of "ExcludedApplications" ms), (settings_of "IncludedApplications" ms); exact S. }
  split; [exact N1|]. split; [exact N2|]. split; [split; [exact M0|exact M1]|]. auto 12.
Qed.
(** The rest of the command line: how it is used; another user than root becomes root with the same arguments and does nothing else. *)
Definition asks_for_help (a : list Z) : Prop := a = str "help" \/ a = str "--help" \/ a = str "-h".
Definition acts (verb : list Z) : Prop := verb = str "up" \/ verb = str "down".
Lemma beq_false : forall a b, beq a b = false <-> a <> b.
Proof. intros a b. destruct (beq a b) eqn:E; split; intro H; try congruence; try discriminate; [exfalso; apply H; apply beq_eq; exact E|]. intros ->. rewrite (proj2 (beq_eq b b) eq_refl) in E. discriminate. Qed.
Theorem C75_main : forall w ulmax sdk uid random from_app behind fopen argv,
  let r := main w ulmax sdk uid random from_app behind fopen argv in
  (r = Usage 0 <-> exists self a, argv = [self; a] /\ asks_for_help a) /\
  (r = Usage 1 <-> ~ (exists self a, argv = [self; a] /\ asks_for_help a) /\ ~ (exists self verb a, argv = [self; verb; a] /\ acts verb)) /\
  (uid <> 0 -> forall self verb a, argv = [self; verb; a] -> acts verb -> r = Becomes (map str ["su"; "-p"; "-c"]%string ++ argv)) /\
  (uid <> 0 -> forall e, r <> Ran e) /\
  (uid = 0 -> forall args, r <> Becomes args).
Proof.
  intros w ulmax sdk uid random from_app behind fopen argv r.
  assert (K : forall (a : list Z), beq a (str "help") || beq a (str "--help") || beq a (str "-h") = true <-> asks_for_help a).
  { intro a. unfold asks_for_help. rewrite !orb_true_iff, !beq_eq. tauto. }
  assert (V : forall verb a self, main w ulmax sdk uid random from_app behind fopen [self; verb; a] = Usage 1 <-> ~ acts verb).
  { intros verb a self. unfold acts. cbn [main]. destruct (beq verb (str "up")) eqn:B1; [|destruct (beq verb (str "down")) eqn:B2].
    - apply beq_eq in B1. split; [|tauto]. destruct (negb (uid =? 0)); [discriminate|]. destruct (parse_options fopen a); [discriminate|]. destruct (wanted_of behind iface s); discriminate.
    - apply beq_eq in B2. split; [|tauto]. destruct (negb (uid =? 0)); [discriminate|]. destruct (parse_options fopen a); discriminate.
    - apply beq_false in B1, B2. tauto. }
  assert (V0 : forall verb a self, main w ulmax sdk uid random from_app behind fopen [self; verb; a] <> Usage 0).
  { intros verb a self. cbn [main]. destruct (beq verb (str "up")); [|destruct (beq verb (str "down")); [|discriminate]]; (destruct (negb (uid =? 0)); [discriminate|]);
    (destruct (parse_options fopen a); [discriminate|]); [destruct (wanted_of behind iface s); discriminate|discriminate]. }
  split; [|split; [|split; [|split]]].
  - unfold r. split.
    + destruct argv as [|self [|a [|b [|c d]]]]; try discriminate.
      * cbn [main]. destruct (_ || _) eqn:B; [|discriminate]. intros _. exists self, a. split; [reflexivity|]. apply K. exact B.
      * intro H. apply V0 in H. destruct H.
    + intros (self & a & -> & H). cbn [main]. apply K in H. rewrite H. reflexivity.
  - unfold r. split.
    + intro H. split.
      * intros (self & a & -> & Q). cbn [main] in H. apply K in Q. rewrite Q in H. discriminate.
      * intros (self & verb & a & -> & Q). apply V in H. contradiction.
    + intros (H1 & H2). destruct argv as [|self [|a [|b [|c d]]]]; try reflexivity.
      * cbn [main]. destruct (_ || _) eqn:B; [|reflexivity]. exfalso. apply H1. exists self, a. split; [reflexivity|]. apply K. exact B.
      * apply V. intro Q. apply H2. exists self, a, b. auto.
  - unfold r. intros U self verb a -> A. apply Z.eqb_neq in U. destruct A as [-> | ->]; cbn [main]; rewrite U; reflexivity.
  - unfold r. intros U e. apply Z.eqb_neq in U. destruct argv as [|self [|a [|b [|c d]]]]; try discriminate; cbn [main].
    + destruct (_ || _); discriminate.
    + rewrite U. destruct (beq a (str "up")); [discriminate|]. destruct (beq a (str "down")); discriminate.
  - unfold r. intros -> args. destruct argv as [|self [|a [|b [|c d]]]]; try discriminate; cbn [main].
    + destruct (_ || _); discriminate.
    + cbn [negb Z.eqb]. destruct (beq a (str "up")); [|destruct (beq a (str "down")); [|discriminate]]; (destruct (parse_options fopen b); [discriminate|]); [destruct (wanted_of behind iface s); discriminate|discriminate].
Qed.

(** ** Cases *)
(** The phone of C73 replies by the commands alone. *)
Theorem C75_private_case : forall bad, by_commands (phone2 bad) /\ trip <> with_config trip (str "[Peer]").
Proof.
  intro bad. split; [|discriminate]. intros h h' E.
  assert (I : forall p, inserted p h = inserted p h').
  { intro p. unfold inserted. rewrite (flat_map_concat_map _ h), (flat_map_concat_map _ h').
    assert (M : forall k : list deed, map (fun d => match after_prefix (p ++ str " -I ") (d_command d) with Some r => [nl (str "-A " ++ r)] | None => [] end) k =
      map (fun t => match after_prefix (p ++ str " -I ") t with Some r => [nl (str "-A " ++ r)] | None => [] end) (commands k)).
    { intro k. unfold commands. rewrite map_map. reflexivity. }
    rewrite !M, E. reflexivity. }
  split.
  - unfold phone2. cbn [w_lines].
    rewrite !I. reflexivity.
  - intros d d' D. unfold phone2. cbn [w_status]. rewrite D. reflexivity.
Qed.
Definition home_conf : file := mk_file 384 (str "[Interface]
PrivateKey = secret
Address = 10.0.0.2/32
DNS = 10.0.0.1
MTU = 1280
[Peer]
AllowedIPs = 10.0.0.0/8, fd00::/8
").
Definition phone_files (p : list Z) : option file := if beq p (str "/data/data/com.wireguard.android/files/home.conf") then Some home_conf else None.
Theorem C75_up_case : main (phone2 (str "nothing")) (2 ^ 64 - 1) 30 0 [4000; 69732] false [] phone_files [str "wg-quick"; str "up"; str "home"] = Ran (Succeeded (
  plain (str "ip link add home type wireguard") :: mk_deed (str "wg setconf home /proc/self/fd/0") (Some (str "[Interface]
PrivateKey = secret
[Peer]
AllowedIPs = 10.0.0.0/8, fd00::/8
")) :: map plain [
  str "ip link set up dev home"; str "ip link set down dev home"; str "wg set home fwmark 0x20000";
  str "iptables -I OUTPUT 1 -m mark --mark 0x20000 -j ACCEPT -m comment --comment ""wireguard rule home""";
  str "ip6tables -I OUTPUT 1 -m mark --mark 0x20000 -j ACCEPT -m comment --comment ""wireguard rule home""";
  str "iptables -I INPUT 1 -p udp --dport 51820 -j ACCEPT -m comment --comment ""wireguard rule home""";
  str "ip6tables -I INPUT 1 -p udp --dport 51820 -j DROP -m comment --comment ""wireguard rule home""";
  str "ip link set up dev home"; str "ndc network create 4196 vpn 1 1"; str "ndc network interface add 4196 home";
  str "ndc interface setcfg home '10.0.0.2' 32"; str "ndc resolver setnetdns 4196 '' '10.0.0.1'";
  str "ndc network route add 4196 home 10.0.0.0/8"; str "ndc network route add 4196 home fd00::/8"; str "ndc interface setmtu home 1280";
  str "ndc network users add 4196 0-99999";
  str "am broadcast -a com.wireguard.android.action.REFRESH_TUNNEL_STATES com.wireguard.android"])).
Proof. vm_compute. reflexivity. Qed.
Theorem C75_main_case :
  main (phone2 []) (2 ^ 64 - 1) 30 2000 [] false [] phone_files [str "wg-quick"; str "up"; str "home"] = Becomes (map str ["su"; "-p"; "-c"; "wg-quick"; "up"; "home"]%string) /\
  main (phone2 []) (2 ^ 64 - 1) 30 2000 [] false [] phone_files [str "wg-quick"; str "save"; str "home"] = Usage 1 /\
  main (phone2 []) (2 ^ 64 - 1) 30 0 [] false [] phone_files [str "wg-quick"; str "up"; str "work"] = Ran (Failed []).
Proof. repeat split. Qed.
Print Assumptions C75_private.
Print Assumptions C75_up.
Print Assumptions C75_main.
Print Assumptions C75_private_case.
Print Assumptions C75_up_case.
Print Assumptions C75_main_case.
