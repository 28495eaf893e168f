(** C71: on Android, addresses and DNS entries are passed on as they are, and as nothing but arguments. *)
From Coq Require Import String ZArith List Bool Lia.
From Verif Require Import Base Cstr CstrProofs NumSpec ConfigProofs Quick Uapi UapiProofs2 AndUsers AndOptions AndDns AndSpec AndProofs2 AndProofs3.
Import ListNotations.
Open Scope Z_scope.

Lemma entries_nonempty : forall s t, In t (entries s) -> t <> [] /\ ~ In 39 t.
Proof.
  intros s t I. rewrite <- entries_eq in I. apply filter_In in I as [I S]. split; [exact (strtok_nonempty _ _ _ I)|].
  rewrite skipped_eq in S. rewrite forallb_forall in S. intro K. apply S in K. discriminate.
Qed.
Lemma servers_eq : forall s, filter is_ip (entries s) = filter is_server (entries s) /\ filter (fun t => negb (is_ip t)) (entries s) = filter (fun t => negb (is_server t)) (entries s).
Proof.
  intro s. split; apply filter_ext_in; intros t I; rewrite is_ip_eq; try reflexivity; apply (entries_nonempty s t I).
Qed.

(** The servers and the search domains are the entries of either kind, in order; without a server nothing is set.  None of the six buffers and arrays overflows. *)
Theorem C71_entries : forall dnses, Z.of_nat (length dnses) <= 65536 ->
  match filter is_server (entries dnses) with
  | [] => dns_parts dnses = Is None
  | servers => exists x, dns_parts dnses = Is (Some x) /\ x_servers x = servers /\ x_domains x = filter (fun t => negb (is_server t)) (entries dnses)
  end.
Proof.
  intros s L. destruct (servers_eq s) as [E1 E2]. destruct (parts_spec s L) as [[P E]|[NE (fn & sf & P)]]; rewrite <- E1.
  - rewrite E. exact P.
  - destruct (filter is_ip (entries s)) as [|ip ips] eqn:E; [congruence|]. eexists. split; [exact P|]. split; [reflexivity|exact E2].
Qed.

Lemma word_first : forall p r, forallb plain_char p = true -> p <> [] ->
  words_from false None (p ++ 32 :: r) = match words_from false None r with Some ws => Some (p :: ws) | None => None end.
Proof. intros p r P NE. rewrite words_plain by assumption. reflexivity. Qed.
Lemma dec_plain : forall n, 0 <= n -> forallb plain_char (print_dec n) = true /\ print_dec n <> [].
Proof.
  intros n N. split; [|apply print_num_nonempty]. apply forallb_forall. intros c I. pose proof (print_dec_digits n N) as D. rewrite Forall_forall in D. apply D in I.
  unfold plain_char. destruct (Z.leb_spec 48 c), (Z.leb_spec c 57); cbn [andb orb]; reflexivity || lia.
Qed.
Lemma command_words : forall netid x, 0 <= netid -> words (dns_command netid x) =
  match words_from true (Some []) (x_search_shell x ++ 39 :: 32 :: x_shell x) with
  | Some ws => Some ([str "ndc"; str "resolver"; str "setnetdns"; print_dec netid] ++ ws) | None => None end.
Proof.
  intros netid x N. unfold words, dns_command. destruct (dec_plain netid N) as [D1 D2].
  change (str "ndc resolver setnetdns " ++ print_dec netid ++ str " '" ++ x_search_shell x ++ str "' " ++ x_shell x)
    with (str "ndc" ++ 32 :: str "resolver" ++ 32 :: str "setnetdns" ++ 32 :: print_dec netid ++ 32 :: 39 :: x_search_shell x ++ 39 :: 32 :: x_shell x).
  rewrite !word_first by (reflexivity || discriminate || assumption). cbn [words_from]. change (39 =? 39) with true. cbv iota. cbn [so_far].
  destruct (words_from true (Some []) _); reflexivity.
Qed.
Lemma shell_words : forall s, words_from false None (puts (length s) (filter is_ip (entries s))) = Some (filter is_ip (entries s)).
Proof.
  intro s.
  assert (Q : Forall (fun t => ~ In 39 t) (filter is_ip (entries s))).
  { apply Forall_forall. intros t I. apply filter_In in I as [I _]. apply (entries_nonempty s t I). }
  destruct (Forall_Exists_dec (fun t => (length t < length s)%nat) (fun t => lt_dec (length t) (length s)) (filter is_ip (entries s))) as [F|X].
  - unfold puts. rewrite <- (words_args _ Q). f_equal. f_equal. apply map_ext_in. intros t I. rewrite Forall_forall in F. apply put_full. exact (F t I).
  - apply Exists_exists in X as (t & I & L). apply filter_In in I as [I IP]. pose proof (entries_nonempty s t I) as [NE NQ]. pose proof I as I0. rewrite <- entries_eq in I0.
    apply filter_In in I0 as [I0 SK]. destruct (single s t I0) as [E LL]; [lia|]. rewrite <- entries_eq, E. cbn [filter]. rewrite SK. cbn [filter]. rewrite IP.
    unfold puts. cbn [map concat]. rewrite app_nil_r, <- LL, put_whole. cbn [words_from]. change (39 =? 39) with true. cbv iota. cbn [so_far].
    rewrite words_quoted by exact NQ. reflexivity.
Qed.

(** Without Binder: the command for ndc has the servers as its arguments, whatever characters they consist of; the search domains make one argument if the shell
    leaves their characters alone. *)
Theorem C71_command : forall dnses netid x, 0 <= netid -> Z.of_nat (length dnses) <= 65536 -> dns_parts dnses = Is (Some x) ->
  Forall (fun d => forallb plain_char d = true) (filter (fun t => negb (is_server t)) (entries dnses)) ->
  words (dns_command netid x) = Some ([str "ndc"; str "resolver"; str "setnetdns"; print_dec netid;
    concat (map (fun d => d ++ str " ") (filter (fun t => negb (is_server t)) (entries dnses)))] ++ filter is_server (entries dnses)).
Proof.
  intros s netid x N L P F. destruct (servers_eq s) as [E1 E2]. destruct (parts_spec s L) as [[P0 _]|[NE (fn & sf & P0)]]; [congruence|].
  rewrite P in P0. assert (x = mk_texts (filter is_ip (entries s)) (filter (fun t => negb (is_ip t)) (entries s))
    (puts (length s) (filter is_ip (entries s))) (puts (length s) (filter (fun t => negb (is_ip t)) (entries s))) fn sf) as -> by congruence. clear P P0.
  rewrite command_words by exact N. cbn [x_shell x_search_shell].
  assert (FULL : puts (length s) (filter (fun t => negb (is_ip t)) (entries s)) = concat (map quoted (filter (fun t => negb (is_ip t)) (entries s)))).
  { unfold puts. f_equal. apply map_ext_in. intros t I. apply filter_In in I as [I NI]. apply put_full.
    destruct (Nat.lt_ge_cases (length t) (length s)) as [H|H]; [exact H|]. exfalso. rewrite <- entries_eq in I. apply filter_In in I as [I SK].
    destruct (single s t I H) as [E _]. apply NE. rewrite <- entries_eq, E. cbn [filter]. rewrite SK. cbn [filter]. apply negb_true_iff in NI. rewrite NI. reflexivity. }
  rewrite FULL, words_twice.
  - cbn [words_from]. change (39 =? 39) with true. change (32 =? 39) with false. change (32 =? 32) with true. cbv iota. rewrite shell_words, E1, E2. reflexivity.
  - rewrite E2. rewrite Forall_forall in *. intros t I. split; [apply F; exact I|]. apply filter_In in I as [I _]. apply (entries_nonempty s t I).
Qed.

(** Addresses: one or two commands for each entry, in order, with exactly these words. *)
Definition iface_name (i : list Z) : Prop := Forall (fun c => name_char c = true) i /\ i <> [].
Lemma name_plain : forall i, iface_name i -> forallb plain_char i = true.
Proof.
  intros i [N _]. apply forallb_forall. rewrite Forall_forall in N. intros c I. apply N in I. unfold name_char in I. unfold plain_char.
  destruct ((97 <=? c) && (c <=? 122)), ((65 <=? c) && (c <=? 90)), ((48 <=? c) && (c <=? 57)); cbn [orb] in *; try reflexivity.
  destruct (Z.eqb_spec c 95) as [E|_]; [rewrite E; reflexivity|]. destruct (Z.eqb_spec c 61) as [E|_]; [rewrite E; reflexivity|]. destruct (Z.eqb_spec c 43) as [E|_]; [rewrite E; reflexivity|].
  destruct (Z.eqb_spec c 46) as [E|_]; [rewrite E; reflexivity|]. destruct (Z.eqb_spec c 45) as [E|_]; [rewrite E; reflexivity|]. discriminate.
Qed.
Lemma six_words : forall iface a, iface_name iface -> ~ In 39 a -> In 58 a ->
  map words (add_addr iface a) = [Some [str "ndc"; str "interface"; str "ipv6"; iface; str "enable"]; Some [str "ip"; str "-6"; str "addr"; str "add"; a; str "dev"; iface]].
Proof.
  intros iface a I Q C. unfold add_addr. replace (has_char 58 a) with true by (symmetry; apply has_char_In; exact C). cbn [map]. pose proof (name_plain iface I) as P. destruct I as [_ NE].
  f_equal; [|f_equal].
  - unfold words. change (str "ndc interface ipv6 " ++ iface ++ str " enable") with (str "ndc" ++ 32 :: str "interface" ++ 32 :: str "ipv6" ++ 32 :: iface ++ 32 :: str "enable").
    rewrite !word_first by (reflexivity || discriminate || assumption). reflexivity.
  - unfold words. change (str "ip -6 addr add '" ++ a ++ str "' dev " ++ iface) with (str "ip" ++ 32 :: str "-6" ++ 32 :: str "addr" ++ 32 :: str "add" ++ 32 :: 39 :: a ++ 39 :: 32 :: str "dev" ++ 32 :: iface).
    rewrite !word_first by (reflexivity || discriminate || assumption). cbn [words_from]. change (39 =? 39) with true. cbv iota. cbn [so_far].
    rewrite words_quoted by exact Q. cbn [app words_from]. change (32 =? 39) with false. change (32 =? 32) with true. cbv iota.
    rewrite word_first by (reflexivity || discriminate). rewrite <- (app_nil_r iface) at 1. rewrite words_plain by assumption. reflexivity.
Qed.
Lemma four_words : forall iface ip m, iface_name iface -> ~ In 39 ip -> 0 <= m ->
  words (str "ndc interface setcfg " ++ iface ++ str " '" ++ ip ++ str "' " ++ print_dec m) = Some [str "ndc"; str "interface"; str "setcfg"; iface; ip; print_dec m].
Proof.
  intros iface ip m I Q M. pose proof (name_plain iface I) as P. destruct I as [_ NE]. destruct (dec_plain m M) as [D1 D2]. unfold words.
  change (str "ndc interface setcfg " ++ iface ++ str " '" ++ ip ++ str "' " ++ print_dec m)
    with (str "ndc" ++ 32 :: str "interface" ++ 32 :: str "setcfg" ++ 32 :: iface ++ 32 :: 39 :: ip ++ 39 :: 32 :: print_dec m).
  rewrite !word_first by (reflexivity || discriminate || assumption). cbn [words_from]. change (39 =? 39) with true. cbv iota. cbn [so_far].
  rewrite words_quoted by exact Q. cbn [app words_from]. change (32 =? 39) with false. change (32 =? 32) with true. cbv iota.
  rewrite <- (app_nil_r (print_dec m)) at 1. rewrite words_plain by assumption. reflexivity.
Qed.
Theorem C71_addresses : forall iface addrs, iface_name iface ->
  exists groups, set_addr iface addrs = concat groups /\
  Forall2 (fun a cs =>
    (In 58 a -> map words cs = [Some [str "ndc"; str "interface"; str "ipv6"; iface; str "enable"]; Some [str "ip"; str "-6"; str "addr"; str "add"; a; str "dev"; iface]]) /\
    (~ In 58 a -> ~ In 47 a -> map words cs = [Some [str "ndc"; str "interface"; str "setcfg"; iface; a; str "32"]]) /\
    (forall ip m n, ~ In 58 a -> a = ip ++ str "/" ++ m -> ~ In 47 ip -> Forall is_byte m -> decimal m n -> n <= 255 ->
       map words cs = [Some [str "ndc"; str "interface"; str "setcfg"; iface; ip; print_dec n]])) (entries addrs) groups.
Proof.
  intros iface addrs I. exists (map (add_addr iface) (entries addrs)). split.
  - unfold set_addr. rewrite <- entries_eq. induction (strtok [] addrs) as [|t ts IH]; [reflexivity|]. cbn [flat_map filter]. rewrite IH. destruct (skipped t); reflexivity.
  - assert (G : Forall (fun a => ~ In 39 a) (entries addrs)) by (apply Forall_forall; intros a IA; apply (entries_nonempty addrs a IA)).
    induction G as [|a l Q G IH]; [constructor|]. cbn [map]. constructor; [|exact IH]. split; [|split].
    + intro C. apply six_words; assumption.
    + intros C S. unfold add_addr. destruct (has_char 58 a) eqn:H; [apply has_char_In in H; contradiction|]. rewrite (proj2 (split_first_none 47 a) S). cbn [map].
      rewrite four_words by (assumption || lia). reflexivity.
    + intros ip m n C -> S B D N. unfold add_addr. destruct (has_char 58 (ip ++ str "/" ++ m)) eqn:H; [apply has_char_In in H; contradiction|].
      change (ip ++ str "/" ++ m) with (ip ++ 47 :: m). rewrite split_first_app by exact S. cbn [map].
      assert (A : atoi_uchar m = n).
      { unfold atoi_uchar. pose proof (decimal_nonneg _ _ D) as NN. apply decimal_iff in D as [NE NV].
        assert (HD : 48 <= hd 0 m <= 57).
        { destruct m as [|c m]; [congruence|]. cbn [hd]. cbn [num_value] in NV. rewrite digit_in_10 in NV.
          destruct (Z.leb_spec 48 c), (Z.leb_spec c 57); cbn [andb] in NV; try discriminate. lia. }
        pose proof (strtoll_digits m NE B HD) as S1. rewrite NV in S1. destruct S1 as [-> _]. cbn [fst]. rewrite Z.min_l by lia. unfold u8. apply Z.mod_small. lia. }
      rewrite A. rewrite four_words; [reflexivity|assumption| |pose proof (decimal_nonneg _ _ D); lia].
      intro K. apply Q. apply in_or_app. left. exact K.
Qed.

(** ** Cases *)
Lemma C71_dns_case : exists x, dns_parts (str "1.1.1.1,corp.example, fd00::53 it's") = Is (Some x) /\ x_function x = str "1.1.1.1, fd00::53" /\
  dns_command 100 x = str "ndc resolver setnetdns 100 ''corp.example' ' '1.1.1.1' 'fd00::53' " /\
  words (dns_command 100 x) = Some [str "ndc"; str "resolver"; str "setnetdns"; str "100"; str "corp.example "; str "1.1.1.1"; str "fd00::53"].
Proof. eexists. split; [vm_compute; reflexivity|]. repeat split. Qed.
Lemma C71_addr_case : set_addr (str "home") (str "10.0.0.2/24,fd00::2") =
  [str "ndc interface setcfg home '10.0.0.2' 24"; str "ndc interface ipv6 home enable"; str "ip -6 addr add 'fd00::2' dev home"].
Proof. vm_compute. reflexivity. Qed.

(** ** What goes wrong *)
(** The search domains are quoted twice, that is, not at all: a DNS entry without quotes, backslashes and white space is run as a command by root. *)
Theorem C71_injection_refuted : exists x, dns_parts (str "1.1.1.1,;reboot;") = Is (Some x) /\
  dns_command 100 x = str "ndc resolver setnetdns 100 ''" ++ str ";reboot;" ++ str "' ' '1.1.1.1' " /\ words (dns_command 100 x) = None.
Proof. eexists. split; [vm_compute; reflexivity|]. split; reflexivity. Qed.
(** For every such entry that begins with a character that means something to the shell, the command does not consist of words. *)
Theorem C71_bare_refuted : forall c d netid, plain_char c = false -> c <> 39 -> c <> 92 -> c <> 32 -> 0 <= netid -> delim c = false ->
  Forall (fun b => delim b = false /\ b <> 39 /\ b <> 92 /\ b <> 58) (c :: d) -> Z.of_nat (length d) <= 60000 ->
  exists x, dns_parts (str "1.1.1.1," ++ c :: d) = Is (Some x) /\ words (dns_command netid x) = None.
Proof.
  intros c d netid PC C1 C2 C3 N DC F L. set (s := str "1.1.1.1," ++ c :: d).
  assert (K : forall t cur, Forall (fun b => delim b = false) t -> strtok cur t = match cur ++ t with [] => [] | w => [w] end).
  { induction t as [|b t IH]; intros cur FT; [cbn; rewrite app_nil_r; destruct cur; reflexivity|]. inversion FT as [|? ? F1 F2]; subst. cbn [strtok]. rewrite F1, IH by exact F2.
    rewrite <- app_assoc. reflexivity. }
  assert (FD : Forall (fun b => delim b = false) (c :: d)) by (eapply Forall_impl; [|exact F]; cbn; tauto).
  assert (T : strtok [] s = [str "1.1.1.1"; c :: d]).
  { unfold s. cbn [str app]. change (strtok [] (str "1.1.1.1," ++ c :: d)) with (str "1.1.1.1" :: strtok [] (c :: d)). rewrite K by exact FD. reflexivity. }
  assert (NS : skipped (c :: d) = false).
  { unfold skipped. apply orb_false_iff. split; (destruct (has_char _ (c :: d)) eqn:H; [apply has_char_In in H; rewrite Forall_forall in F; apply F in H; tauto|reflexivity]). }
  assert (NI : is_ip (c :: d) = false).
  { unfold is_ip. apply orb_false_iff. split.
    - cbn [forallb]. unfold plain_char in PC. apply orb_false_iff in PC as [PC E]. apply orb_false_iff in PC as [PC _]. apply orb_false_iff in PC as [PC _]. rewrite PC.
      destruct (Z.eqb_spec c 46) as [->|_]; [discriminate E|]. reflexivity.
    - destruct (has_char 58 (c :: d)) eqn:H; [|reflexivity]. apply has_char_In in H. rewrite Forall_forall in F. apply F in H. tauto. }
  assert (EN : entries s = [str "1.1.1.1"; c :: d]).
  { rewrite <- entries_eq, T. cbn [filter]. change (skipped (str "1.1.1.1")) with false. cbn [negb]. rewrite NS. reflexivity. }
  assert (LS : Z.of_nat (length s) <= 65536) by (unfold s; rewrite app_length; cbn [length str]; cbn; lia).
  destruct (parts_spec s LS) as [[_ E]|[_ (fn & sf & P)]].
  { rewrite EN in E. cbn [filter] in E. change (is_ip (str "1.1.1.1")) with true in E. discriminate. }
  eexists. split; [exact P|]. rewrite command_words by exact N. cbn [x_search_shell x_shell].
  rewrite EN. cbn [filter]. change (is_ip (str "1.1.1.1")) with true. rewrite NI. cbn [negb].
  unfold puts. cbn [map concat]. rewrite app_nil_r. rewrite put_full by (unfold s; rewrite app_length; cbn; lia).
  unfold quoted. cbn [app words_from]. change (39 =? 39) with true. cbv iota. cbn [words_from].
  destruct (Z.eqb_spec c 39); [congruence|]. destruct (Z.eqb_spec c 32); [congruence|]. rewrite PC. reflexivity.
Qed.
(** "/256" is "/0". *)
Theorem C71_mask_refuted : set_addr (str "home") (str "10.0.0.2/256") = [str "ndc interface setcfg home '10.0.0.2' 0"].
Proof. vm_compute. reflexivity. Qed.

Print Assumptions C71_entries.
Print Assumptions C71_command.
Print Assumptions C71_addresses.
Print Assumptions C71_dns_case.
Print Assumptions C71_addr_case.
Print Assumptions C71_injection_refuted.
Print Assumptions C71_bare_refuted.
Print Assumptions C71_mask_refuted.
