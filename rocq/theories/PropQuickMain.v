(** C62: the command line of wg-quick. *)
From Coq Require Import String ZArith List Bool Lia.
From Verif Require Import Base Ctype Cstr CstrProofs Types Config ConfigSpec ConfigProofs Uapi Bash Quick QuickSpec QuickProofs PropQuick.
From Verif Require Import QuickRun QuickRunSpec QuickRunProofs QuickUpProofs PropQuickUp QuickSave QuickDownSpec PropQuickDown QuickMain QuickMainSpec.
Import ListNotations.
Open Scope Z_scope.

Section C62.
Variable sys : system.
Variable glob : list Z -> list (list Z).
Variable fuel : nat.
Variable amp : bool.
Variable us : list Z.
Variable fs : files.
Variables bash self program : list Z.
Let main uid := main sys glob fuel amp us fs uid bash self program.

Lemma beq_false : forall a b, a <> b -> beq a b = false.
Proof. intros a b H. destruct (beq a b) eqn:E; [apply beq_eq in E; contradiction|reflexivity]. Qed.
Lemma beq_same : forall a, beq a a = true. Proof. intro a. apply beq_eq. reflexivity. Qed.
Lemma iface_name_iff : forall n, is_name n = true <-> iface_name n.
Proof.
  intro n. rewrite is_name_iff. unfold iface_name. split; intros [L F]; (split; [exact L|]); eapply Forall_impl; try exact F; intros c; apply name_char_iff.
Qed.
Lemma stands_for_iff : forall arg path, stands_for arg path <-> path = config_path arg.
Proof.
  intros arg path. unfold stands_for, config_path. destruct (is_name arg) eqn:E.
  - apply iface_name_iff in E. split; [intros [[_ H]|[H _]]; [exact H|contradiction]|intro H; left; auto].
  - assert (N : ~ iface_name arg) by (rewrite <- iface_name_iff; congruence). split; [intros [[H _]|[_ H]]; [contradiction|exact H]|intro H; right; auto].
Qed.
Lemma names_iff : forall path ifc, names path ifc <-> interface_of path = Some ifc.
Proof.
  intros path ifc. rewrite C40_interface_name. unfold names, iface_name. change (str "/") with [47]. cbn [app]. unfold iface_letter, name_letter. tauto.
Qed.

(** *** The command line *)
(** Asking for help shows the usage and succeeds; anything that is not a verb and one argument shows it and fails.  Nothing is run and no file looked at. *)
Theorem C62_help : forall uid args, help args -> main uid args = mk_ran (Ends 0) [] [Usage] [].
Proof. intros uid args [->|[->| ->]]; reflexivity. Qed.
Theorem C62_usage : forall uid args, ~ help args -> (forall v a, ~ taken args v a) -> main uid args = mk_ran (Ends 1) [] [Usage] [].
Proof.
  intros uid args Hh Ht. unfold main, QuickMain.main. destruct args as [|v [|a [|b l]]]; [reflexivity| | |reflexivity].
  - unfold help in Hh. rewrite !beq_false; [reflexivity| | |]; intros ->; apply Hh; auto.
  - assert (N : ~ In v verbs) by (intro H; apply (Ht v a); split; [reflexivity|exact H]).
    rewrite !beq_false; [reflexivity| | | |]; intros ->; apply N; cbn [verbs In]; auto.
Qed.
(** Users other than root: the script starts over under sudo, with exactly the arguments it was given, having done nothing. *)
Theorem C62_sudo : forall uid args v a, uid <> 0 -> taken args v a ->
  exists prompt, main uid args = mk_ran (Becomes ([str "sudo"; str "-p"; prompt; str "--"; bash; str "--"; self] ++ args)) [] [] [].
Proof.
  intros uid args v a Hu [-> Hv]. exists (program ++ str " must be run as root. Please enter the password for %u to continue: "). apply Z.eqb_neq in Hu.
  destruct Hv as [<-|[<-|[<-|[<-|[]]]]]; unfold main, QuickMain.main, as_root; rewrite Hu; reflexivity.
Qed.

(** *** The file *)
(** What a readable, valid file gives: [loads arg ifc conf o]. *)
Inductive loads (arg ifc conf : list Z) (o : options) : Prop :=
| loads_intro : forall path real text err,
    stands_for arg path -> f_exists fs path = true -> names path ifc ->
    f_resolve fs path = Some real -> conf = captured (real ++ [10]) -> f_read fs conf = Some (text, err) -> parse_options glob text = Some o ->
    loads arg ifc conf o.
Definition warnings (conf : list Z) : list said := if world_accessible fs conf then [WorldAccessible conf] else [].
Lemma find_options_loads : forall arg ifc conf o, loads arg ifc conf o -> find_options glob fs arg = (warnings conf, inr (ifc, conf, o)).
Proof.
  intros arg ifc conf o [path real text er Hp He Hn Hr -> Ht Ho]. apply stands_for_iff in Hp as ->. apply names_iff in Hn.
  unfold find_options. rewrite He, Hn, Hr, Ht, Ho. reflexivity.
Qed.
Lemma find_options_inv : forall arg, match find_options glob fs arg with
  | (_, inl st) => st = 1 /\ (forall ifc conf o, ~ loads arg ifc conf o)
  | (_, inr (ifc, conf, o)) => loads arg ifc conf o
  end.
Proof.
  intro arg. unfold find_options.
  destruct (f_exists fs (config_path arg)) eqn:He; cbn [negb]; [|split; [reflexivity|]; intros ifc conf o [path real text er Hp He' Hn Hr Hc Ht Ho]; apply stands_for_iff in Hp; congruence].
  destruct (interface_of (config_path arg)) as [ifc|] eqn:Hn; [|split; [reflexivity|]; intros ifc conf o [path real text er Hp He' Hn' Hr Hc Ht Ho]; apply stands_for_iff in Hp; apply names_iff in Hn'; congruence].
  destruct (f_resolve fs (config_path arg)) as [real|] eqn:Hr; [|split; [reflexivity|]; intros ifc' conf o [path real text er Hp He' Hn' Hr' Hc Ht Ho]; apply stands_for_iff in Hp; congruence].
  cbv zeta. destruct (f_read fs (captured (real ++ [10]))) as [[text er0]|] eqn:Ht; [|split; [reflexivity|]; intros ifc' conf o [path real' text er Hp He' Hn' Hr' Hc Ht' Ho]; apply stands_for_iff in Hp; congruence].
  destruct (parse_options glob text) as [o|] eqn:Ho; [|split; [reflexivity|]; intros ifc' conf o [path real' text' er' Hp He' Hn' Hr' Hc Ht' Ho']; apply stands_for_iff in Hp; congruence].
  econstructor; try eassumption; [apply stands_for_iff; reflexivity|apply names_iff; exact Hn|reflexivity].
Qed.
(** A file determines what it gives. *)
Theorem C62_one_reading : forall arg ifc conf o ifc' conf' o', loads arg ifc conf o -> loads arg ifc' conf' o' -> ifc = ifc' /\ conf = conf' /\ o = o'.
Proof. intros arg ifc conf o ifc' conf' o' H H'. apply find_options_loads in H, H'. rewrite H in H'. injection H' as _ <- <- <-. auto. Qed.
(** Unless there is such a file, the script fails without having run anything or written anything. *)
Theorem C62_no_file : forall args v arg, taken args v arg -> (forall ifc conf o, ~ loads arg ifc conf o) ->
  exists err, main 0 args = mk_ran (Ends 1) [] err [].
Proof.
  intros args v arg [-> Hv] Hn. pose proof (find_options_inv arg) as F. destruct (find_options glob fs arg) as [err [st|[[ifc conf] o]]] eqn:E; [|exfalso; exact (Hn _ _ _ F)].
  destruct F as [-> _]. exists err. destruct Hv as [<-|[<-|[<-|[<-|[]]]]]; unfold main, QuickMain.main, as_root, with_options; cbn [Z.eqb]; rewrite E; reflexivity.
Qed.
(** With one, each verb does its work: on the interface the argument names (whatever a symbolic link points to) and with the file at the end of the links. *)
Definition ends (x : outcome) (r : ran) (conf : list Z) : Prop :=
  r_hist r = snd x /\ r_out r = [] /\ r_err r = warnings conf /\ r_end r = match fst x with Some st => Ends st | None => Endless end.
Theorem C62_up_runs : forall arg ifc conf o, loads arg ifc conf o -> ends (cmd_up sys glob fuel ifc o us) (main 0 [str "up"; arg]) conf.
Proof. intros arg ifc conf o H. apply find_options_loads in H. unfold main, QuickMain.main, as_root, with_options. cbn [Z.eqb]. rewrite H. repeat split. Qed.
Theorem C62_down_runs : forall arg ifc conf o, loads arg ifc conf o -> ends (cmd_down sys glob fuel ifc o conf amp) (main 0 [str "down"; arg]) conf.
Proof. intros arg ifc conf o H. apply find_options_loads in H. unfold main, QuickMain.main, as_root, with_options. cbn [Z.eqb]. rewrite H. repeat split. Qed.
Theorem C62_save_runs : forall arg ifc conf o, loads arg ifc conf o -> ends (cmd_save sys glob ifc o conf amp) (main 0 [str "save"; arg]) conf.
Proof. intros arg ifc conf o H. apply find_options_loads in H. unfold main, QuickMain.main, as_root, with_options. cbn [Z.eqb]. rewrite H. repeat split. Qed.

Definition loads_text (arg ifc conf : list Z) (text : list Z) (o : options) : Prop :=
  loads arg ifc conf o /\ exists err, f_read fs conf = Some (text, err).
Lemma loads_text_parse : forall arg ifc conf text o, loads_text arg ifc conf text o -> parse_options glob text = Some o.
Proof. intros arg ifc conf text o ([path real t er Hp He Hn Hr Hc Ht Ho] & er' & E). congruence. Qed.
(** strip writes the lines that are not wg-quick's own, in order, and runs nothing; wg reads from that what it would read from those lines. *)
Theorem C62_strip : forall arg ifc conf text o lines kept, loads_text arg ifc conf text o -> ~ In 0 text -> file_lines text lines -> others lines kept ->
  let r := main 0 [str "strip"; arg] in
  r_end r = Ends 0 /\ r_hist r = [] /\ r_err r = warnings conf
  /\ (exists ls, Forall2 (trimmed blank) kept ls /\ r_out r = newlines ls ++ [10])
  /\ (forall e append, read_config e append (getlines (r_out r)) = read_config e append kept).
Proof.
  intros arg ifc conf text o lines kept HL H0 Hl Hk. pose proof (loads_text_parse _ _ _ _ _ HL) as Ho. destruct HL as [HL _]. apply find_options_loads in HL.
  cbv zeta. unfold main, QuickMain.main, as_root, with_options. cbn [Z.eqb]. rewrite HL. cbn [beq r_end r_hist r_err r_out].
  change (r_end (mk_ran (Ends 0) (cmd_strip o) (warnings conf) []) = Ends 0 /\ r_hist (mk_ran (Ends 0) (cmd_strip o) (warnings conf) []) = [] /\
    r_err (mk_ran (Ends 0) (cmd_strip o) (warnings conf) []) = warnings conf /\
    (exists ls, Forall2 (trimmed blank) kept ls /\ handed o = newlines ls ++ [10]) /\ (forall e append, read_config e append (getlines (handed o)) = read_config e append kept)).
  repeat split; [|intros e append; eapply C40_wg_reads_the_rest; eassumption].
  destruct (C40_handed glob text lines kept o H0 Hl Hk Ho) as (ls & A & B). exists ls. split; [exact A|]. unfold handed. rewrite B. reflexivity.
Qed.

(** *** From the file to the system *)
(** The options are what the lines of the file say. *)
Record says_lines (lines : list (list Z)) (o : options) : Prop := {
  sl_hooks : values "PreUp" lines (o_preup o) /\ values "PostUp" lines (o_postup o) /\ values "PreDown" lines (o_predown o) /\ values "PostDown" lines (o_postdown o);
  sl_single : forall mtus tables saves, values "MTU" lines mtus -> values "Table" lines tables -> values "SaveConfig" lines saves ->
    o_mtu o = last mtus [] /\ o_table o = last tables [] /\ (o_save o = true <-> ci (last saves (str "false")) (str "true"));
  sl_addresses : glob_plain glob -> forall vs wss, values "Address" lines vs -> Forall2 entries vs wss -> Forall (Forall plain_word) wss -> o_addresses o = concat wss;
  sl_dns : glob_plain glob -> forall vs wss servers domains, values "DNS" lines vs -> Forall2 entries vs wss -> Forall (Forall plain_word) wss ->
    divide server (concat wss) servers domains -> o_dns o = servers /\ o_search o = domains;
  sl_rest : forall kept, others lines kept -> forall e append, read_config e append (getlines (o_config o ++ [10])) = read_config e append kept
}.
Lemma loads_says : forall arg ifc conf text o, loads_text arg ifc conf text o -> ~ In 0 text -> exists lines, file_lines text lines /\ says_lines lines o.
Proof.
  intros arg ifc conf text o HL H0. apply loads_text_parse in HL. exists (lines_of text). assert (Hl : file_lines text (lines_of text)) by (apply lines_of_iff; reflexivity).
  split; [exact Hl|]. constructor.
  - eapply C40_hooks; eassumption.
  - intros. eapply C40_single; eassumption.
  - intros. eapply C40_addresses; eassumption.
  - intros. eapply C40_dns; eassumption.
  - intros. eapply C40_wg_reads_the_rest; eassumption.
Qed.
(** 'wg-quick up' that was not interrupted and reports success has read the file its argument stands for, created the interface the argument names, which did not exist, and applied
    what the lines of the file say in the documented order, every change succeeding; the interface is left in place.  (Or the interface could not be created:
    C42_creation_failure_refuted.) *)
Theorem C62_up : forall arg, known us = false ->
  let r := main 0 [str "up"; arg] in r_end r = Ends 0 -> undisturbed (r_hist r) ->
  (forall conf text err, f_read fs conf = Some (text, err) -> ~ In 0 text) ->
  exists path ifc real conf text err lines o,
    (stands_for arg path /\ f_exists fs path = true /\ names path ifc /\ f_resolve fs path = Some real /\ conf = captured (real ++ [10])
     /\ f_read fs conf = Some (text, err) /\ file_lines text lines /\ says_lines lines o)
    /\ ((exists a cr body, r_hist r = (exists_question ifc, a) :: cr ++ body /\ captured (a_output a) = [] /\ creation us ifc cr /\ all_well body
           /\ documented_order ifc o (changes body) /\ present us ifc (r_hist r) true)
        \/ exists a, In (link_add ifc, a) (r_hist r) /\ a_status a <> 0).
Proof.
  intros arg Hk r. unfold r. clear r. intros He Hu H0. pose proof (find_options_inv arg) as F.
  destruct (find_options glob fs arg) as [err0 [st|[[ifc conf] o]]] eqn:E.
  { unfold main, QuickMain.main, as_root, with_options in He. cbn [Z.eqb] in He. rewrite E in He. destruct F as [-> _]. discriminate He. }
  pose proof (C62_up_runs _ _ _ _ F) as (Rh & _ & _ & Re). rewrite Rh in *. rewrite Re in He.
  assert (FL := F). destruct F as [path real text err Hp Hx Hn Hr Hc Ht Ho].
  destruct (loads_says arg ifc conf text o (conj FL (ex_intro _ err Ht)) (H0 _ _ _ Ht)) as (lines & Hl & Hs).
  exists path, ifc, real, conf, text, err, lines, o. split; [repeat (split; [assumption|]); assumption|].
  destruct (cmd_up sys glob fuel ifc o us) as [[st|] h] eqn:Ec; [|discriminate He]. cbn [fst snd] in *. assert (Est : st = 0) by congruence. subst st. clear He Rh Re.
  destruct (C42_up _ _ _ _ _ _ _ _ Hk Ec Hu) as (a & rest & Eh & [(_ & _ & X)|(Ea & [C|[C|C]])]); [discriminate X| | |].
  - destruct C as (cr & body & -> & C1 & C2 & _ & C3 & _ & C4). left. exists a, cr, body. repeat (split; [assumption|]). assumption.
  - destruct C as (cr & body & ev & st0 & cl & -> & _ & _ & _ & (_ & _ & Hf) & Hun). exfalso. inversion Hun; subst; [apply Hf; reflexivity|].
    match goal with H : failed _ 0 |- _ => destruct H as (_ & _ & H); apply H; reflexivity end.
  - destruct C as (cr & st0 & cl & -> & C1 & _). right.
    assert (X : exists a', In (link_add ifc, a') cr /\ a_status a' <> 0).
    { destruct C1 as [(x & y & -> & C1 & _)|[(x & y & z & -> & C1 & _)|(x & y & z & w & -> & C1 & _)]]; exists x; (split; [left; reflexivity|exact C1]). }
    destruct X as (a' & Hi & Ha). exists a'. split; [|exact Ha]. rewrite Eh. right. apply in_or_app. left. exact Hi.
Qed.
(** A name and the path it stands for do the same. *)
Theorem C62_name_or_path : forall v name, iface_name name -> main 0 [v; name] = main 0 [v; str "/etc/wireguard/" ++ name ++ str ".conf"].
Proof.
  intros v name Hn. assert (E : config_path (str "/etc/wireguard/" ++ name ++ str ".conf") = config_path name).
  { unfold config_path at 2. rewrite (proj2 (iface_name_iff name) Hn). unfold config_path. destruct (is_name (str "/etc/wireguard/" ++ name ++ str ".conf")) eqn:X; [|reflexivity].
    apply iface_name_iff in X as [_ X]. exfalso. inversion X as [|c l Hc _]. subst. unfold iface_letter in Hc. cbn in Hc. lia. }
  assert (F : find_options glob fs (str "/etc/wireguard/" ++ name ++ str ".conf") = find_options glob fs name) by (unfold find_options; rewrite E; reflexivity).
  unfold main, QuickMain.main, as_root, with_options. cbn [Z.eqb]. rewrite F. reflexivity.
Qed.
(** The warning: given exactly if the file and its directory have one of the bits for others in common. *)
Theorem C62_warning : forall conf dir m d, directory conf dir -> f_mode fs conf = Some m -> f_mode fs dir = Some d ->
  (warnings conf = [WorldAccessible conf] <-> exists i, 0 <= i <= 2 /\ Z.testbit m i = true /\ Z.testbit d i = true)
  /\ (warnings conf = [] <-> forall i, 0 <= i <= 2 -> Z.testbit m i && Z.testbit d i = false).
Proof.
  intros conf dir m d (base & E & Nb) Hm Hd. assert (D : dirname conf = dir).
  { unfold dirname. destruct (split_last 47 conf) as [[a b]|] eqn:S.
    - apply split_last_some in S as [S1 S2]. rewrite E in S1. revert S1. clear - Nb S2. revert a. induction dir as [|x dir IH]; intros [|y a] H; cbn [app] in H.
      + reflexivity.
      + exfalso. injection H as _ H. apply Nb. rewrite H. apply in_or_app. right. left. reflexivity.
      + exfalso. injection H as _ H. apply S2. rewrite <- H. apply in_or_app. right. left. reflexivity.
      + injection H as -> H. f_equal. apply IH, H.
    - apply split_last_none in S. exfalso. apply S. rewrite E. apply in_or_app. right. left. reflexivity. }
  unfold warnings, world_accessible. rewrite D, Hm, Hd.
  assert (B : forall i, Z.testbit (Z.land (Z.land m d) 7) i = (Z.testbit m i && Z.testbit d i) && ((0 <=? i) && (i <=? 2))).
  { intro i. rewrite !Z.land_spec. f_equal. change 7 with (Z.ones 3). destruct (Z.leb_spec 0 i); [|rewrite Z.testbit_neg_r by lia; reflexivity].
    rewrite Z.testbit_ones by lia. destruct (Z.leb_spec 0 i); [|lia]. destruct (Z.ltb_spec i 3), (Z.leb_spec i 2); try lia; reflexivity. }
  assert (Z0 : (Z.land (Z.land m d) 7 =? 0) = true <-> forall i, 0 <= i <= 2 -> Z.testbit m i && Z.testbit d i = false).
  { rewrite Z.eqb_eq. split.
    - intros H i Hi. specialize (B i). rewrite H, Z.testbit_0_l in B. destruct (Z.leb_spec 0 i), (Z.leb_spec i 2); try lia. rewrite andb_true_r in B. symmetry. exact B.
    - intro H. apply Z.bits_inj'. intros i Hi. rewrite B, Z.testbit_0_l. destruct (Z.leb_spec i 2); [rewrite H by lia; reflexivity|rewrite andb_false_r, andb_false_r; reflexivity]. }
  destruct (Z.land (Z.land m d) 7 =? 0) eqn:Q; cbn [negb].
  - pose proof (proj1 Z0 eq_refl) as A. split; split; [discriminate| |intros _; exact A|reflexivity]. intros (i & Hi & X & Y). specialize (A i Hi). rewrite X, Y in A. discriminate A.
  - split; split; [|reflexivity|discriminate|intro A; apply Z0 in A; discriminate A]. intros _.
    assert (P : forall i, 0 <= i <= 2 -> Z.testbit m i && Z.testbit d i = true -> exists i, 0 <= i <= 2 /\ Z.testbit m i = true /\ Z.testbit d i = true).
    { intros i Hi X. apply andb_true_iff in X. exists i. tauto. }
    destruct (Z.testbit m 0 && Z.testbit d 0) eqn:B0; [apply (P 0); [lia|exact B0]|]. destruct (Z.testbit m 1 && Z.testbit d 1) eqn:B1; [apply (P 1); [lia|exact B1]|].
    destruct (Z.testbit m 2 && Z.testbit d 2) eqn:B2; [apply (P 2); [lia|exact B2]|]. exfalso.
    assert (A : false = true) by (apply Z0; intros i Hi; assert (I : i = 0 \/ i = 1 \/ i = 2) by lia; destruct I as [->|[->| ->]]; assumption). discriminate A.
Qed.
End C62.

(** *** What is not guaranteed, and examples *)
(** A machine: one file, with its mode, its directory's mode and its contents. *)
Definition one_file (path : list Z) (mode dmode : Z) (text : list Z) (err : bool) : files :=
  mk_files (fun p => beq p path) (fun p => Some p) (fun p => if beq p path then Some mode else Some dmode) (fun p => if beq p path then Some (text, err) else None).
Definition wg0_path : list Z := str "/etc/wireguard/wg0.conf".
Definition wg0_text : list Z := str "[Interface]" ++ [10] ++ str "Address = 10.0.0.2/24" ++ [10] ++ str "PostUp = echo %i" ++ [10] ++ str "ListenPort = 51820" ++ [10].
Definition wq (fs : files) (args : list (list Z)) : ran := main (table_system healthy) no_glob 5 true (str "wireguard-go") fs 0 (str "/bin/bash") (str "/usr/bin/wg-quick") (str "wg-quick") args.
Definition o600 := 6 * 64. Definition o700 := 7 * 64. Definition o644 := 6 * 64 + 4 * 8 + 4. Definition o711 := 7 * 64 + 8 + 1. Definition o755 := 7 * 64 + 5 * 8 + 5.
Definition usual : files := one_file wg0_path o600 o700 wg0_text false.
(** A file everybody can read, in a directory everybody can search but not list: no warning. *)
Theorem C62_warning_refuted : exists fs conf, f_mode fs conf = Some (6 * 64 + 4 * 8 + 4) /\ f_mode fs (str "/etc/wireguard") = Some (7 * 64 + 1 * 8 + 1)
  /\ directory conf (str "/etc/wireguard") /\ warnings fs conf = [].
Proof. exists (one_file wg0_path o644 o711 [] false), wg0_path. repeat split. exists (str "wg0.conf"). split; [reflexivity|]. cbn. intuition discriminate. Qed.
(** A configuration file in the current directory: its name is taken for the name of an interface. *)
Theorem C62_current_directory_refuted : exists fs, f_exists fs (str "wg0.conf") = true /\ f_read fs (str "wg0.conf") = Some (wg0_text, false) /\
  wq fs [str "up"; str "wg0.conf"] = mk_ran (Ends 1) [] [NotThere (str "/etc/wireguard/wg0.conf.conf")] [].
Proof. exists (one_file (str "wg0.conf") o600 o700 wg0_text false). repeat split. Qed.
(** A file that cannot be read (or a directory of that name): the interface is set up without a configuration, and success is reported. *)
Theorem C62_unreadable_refuted : exists fs h, f_read fs wg0_path = Some ([], true) /\ wq fs [str "up"; str "wg0"] = mk_ran (Ends 0) [] [] h /\
  present (str "wireguard-go") wg0 h true /\ In (mk_cmd [str "wg"; str "setconf"; wg0; str "/dev/fd/63"] [10]) (changes h).
Proof.
  set (fs := one_file wg0_path o600 o700 [] true). exists fs, (r_hist (wq fs [str "up"; str "wg0"])). split; [reflexivity|]. split; [vm_compute; reflexivity|].
  assert (R : exists h, cmd_up (table_system healthy) no_glob 5 wg0 options0 (str "wireguard-go") = (Some 0, h) /\ r_hist (wq fs [str "up"; str "wg0"]) = h) by (eexists; split; vm_compute; reflexivity).
  destruct R as (h & R & E). rewrite E.
  assert (U : undisturbed h). { rewrite <- E. intros ev Hi. assert (F : Forall (fun ev => a_signal (snd ev) = None) (r_hist (wq fs [str "up"; str "wg0"]))) by (vm_compute; repeat constructor). rewrite Forall_forall in F. exact (F ev Hi). }
  assert (In (mk_cmd [str "wg"; str "setconf"; wg0; str "/dev/fd/63"] [10]) (changes h)) by (rewrite <- E; vm_compute; tauto).
  split; [|assumption]. destruct (C42_up _ _ _ _ _ _ _ _ (eq_refl : known (str "wireguard-go") = false) R U) as (a & rest & Eh & [(_ & _ & X)|(_ & [C|[C|C]])]); [discriminate X| | |].
  - destruct C as (cr & body & _ & _ & _ & _ & _ & _ & C). exact C.
  - destruct C as (cr & body & ev & st0 & cl & _ & _ & _ & _ & (_ & _ & Hf) & Hun). exfalso. inversion Hun; subst; [apply Hf; reflexivity|].
    match goal with H : failed _ 0 |- _ => destruct H as (_ & _ & H); apply H; reflexivity end.
  - exfalso. destruct C as (cr & st0 & cl & -> & C1 & _). assert (F : forall x, In (link_add wg0, x) h -> a_status x = 0).
    { rewrite <- E. assert (F : Forall (fun ev => a_status (snd ev) = 0 \/ fst ev <> link_add wg0) (r_hist (wq fs [str "up"; str "wg0"]))) by (vm_compute; repeat (constructor; [first [left; reflexivity|right; discriminate]|]); constructor).
      rewrite Forall_forall in F. intros x Hi. destruct (F _ Hi) as [G|G]; [exact G|exfalso; apply G; reflexivity]. }
    rewrite Eh in F. destruct C1 as [(x & y & -> & C1 & _)|[(x & y & z & -> & C1 & _)|(x & y & z & w & -> & C1 & _)]]; apply C1, F; right; left; reflexivity.
Qed.
(** The usual case meets the hypotheses of the theorems; so does a file open to all, which is warned about, and a path that is no interface's. *)
Example C62_example :
  (exists o, loads no_glob usual wg0 wg0 wg0_path o /\ o_addresses o = [str "10.0.0.2/24"] /\ o_postup o = [str "echo %i"]) /\
  r_end (wq usual [str "up"; wg0]) = Ends 0 /\
  In (argv [str "ip"; str "-4"; str "address"; str "add"; str "10.0.0.2/24"; str "dev"; wg0]) (changes (r_hist (wq usual [str "up"; wg0]))) /\
  wq usual [str "strip"; wg0] = mk_ran (Ends 0) (str "[Interface]" ++ [10] ++ str "ListenPort = 51820" ++ [10; 10]) [] [] /\
  warnings (one_file wg0_path o644 o755 wg0_text false) wg0_path = [WorldAccessible wg0_path] /\
  r_end (wq usual [str "up"; str "/tmp/too-long-for-an-interface.conf"]) = Ends 1.
Proof.
  split; [|split; [vm_compute; reflexivity|]; split; [vm_compute; tauto|]; split; [vm_compute; reflexivity|]; split; [reflexivity|vm_compute; reflexivity]].
  eexists. split; [|split].
  - eapply (loads_intro _ _ _ _ _ _ wg0_path wg0_path wg0_text false); [apply stands_for_iff; reflexivity|reflexivity|apply names_iff; reflexivity|reflexivity|reflexivity|reflexivity|vm_compute; reflexivity].
  - reflexivity.
  - reflexivity.
Qed.
Print Assumptions C62_help.
Print Assumptions C62_usage.
Print Assumptions C62_sudo.
Print Assumptions C62_one_reading.
Print Assumptions C62_no_file.
Print Assumptions C62_up_runs.
Print Assumptions C62_down_runs.
Print Assumptions C62_save_runs.
Print Assumptions C62_strip.
Print Assumptions C62_up.
Print Assumptions C62_name_or_path.
Print Assumptions C62_warning.
Print Assumptions C62_warning_refuted.
Print Assumptions C62_current_directory_refuted.
Print Assumptions C62_unreadable_refuted.
