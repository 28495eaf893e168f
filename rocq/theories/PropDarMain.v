(** C68, continued: the command line of wg-quick on macOS. *)
From Coq Require Import String ZArith List Bool Lia.
From Verif Require Import Base Ctype Cstr CstrProofs Types Config ConfigSpec ConfigProofs Uapi Bash Quick QuickSpec QuickProofs PropQuick QuickRun QuickRunSpec QuickUpProofs PropQuickUp QuickSave QuickMain QuickMainSpec PropQuickMain
  QuickReloadSpec QuickRouteSpec PropQuickReload Sh BsdRoutes BsdRoutesSpec DarQuick DarSpec PropDarQuick.
From Verif Require FreeSpec FreeQuick PropFreeMain DarDnsSpec.
Import PropFreeMain (bsd_loads).
Import ListNotations.
Open Scope Z_scope.

(** Before up is anything else, the script asks whether it was started by launchd. *)
Definition ask_launchd (pid : list Z) : command := argv [str "launchctl"; str "procinfo"; pid].
Section Main.
Variables (sys : system) (glob : list Z -> list (list Z)) (order : history -> list (list Z) -> list (list Z)) (us : list Z) (amp : bool) (fs : files) (bash self program pid : list Z).
Hypothesis any_order : DarDnsSpec.some_order order.
Let main uid := DarQuick.main sys glob order us amp fs uid bash self program pid.

(** *** The command line *)
Theorem C68_help : forall uid args, help args -> main uid args = mk_ran (Ends 0) [] [Usage] [].
Proof. intros uid args [->|[->| ->]]; reflexivity. Qed.
Theorem C68_usage : forall uid args, ~ help args -> (forall v a, ~ taken args v a) -> main uid args = mk_ran (Ends 1) [] [Usage] [].
Proof.
  intros uid args Hh Ht. unfold main, DarQuick.main. destruct args as [|v [|a [|b l]]]; [reflexivity| | |reflexivity].
  - unfold help in Hh. rewrite !beq_false; [reflexivity| | |]; intros ->; apply Hh; auto.
  - assert (Nv : ~ In v verbs) by (intro Hi; apply (Ht v a); split; [reflexivity|exact Hi]). rewrite !beq_false; [reflexivity| | | |]; intros ->; apply Nv; cbn [verbs In]; auto.
Qed.
(** Users other than root: the script starts over under sudo with the arguments it was given, having done nothing. *)
Theorem C68_sudo : forall uid args v a, uid <> 0 -> taken args v a ->
  exists prompt, main uid args = mk_ran (Becomes ([str "sudo"; str "-p"; prompt; str "--"; bash; str "--"; self] ++ args)) [] [] [].
Proof.
  intros uid args v a Hu [-> Hv]. exists (program ++ str " must be run as root. Please enter the password for %u to continue: "). apply Z.eqb_neq in Hu.
  destruct Hv as [<-|[<-|[<-|[<-|[]]]]]; unfold main, DarQuick.main, as_root; rewrite Hu; reflexivity.
Qed.
(** *** The file *)
Lemma launchd_cases : let a := sys [] (ask_launchd pid) in
  detect_launchd sys pid (mk_sh [] vars0) = match a_signal a with Some st => Hit st (mk_sh [(ask_launchd pid, a)] vars0) | None => Fin tt (mk_sh [(ask_launchd pid, a)] vars0) end.
Proof. cbv zeta. unfold detect_launchd, feed, thn, call, pure. cbn [s_hist s_vars]. change (argv [!"launchctl"; !"procinfo"; pid]) with (ask_launchd pid). destruct (a_signal (sys [] (ask_launchd pid))); reflexivity. Qed.
Theorem C68_no_file : forall args v arg, taken args v arg -> (forall ifc conf text o, ~ bsd_loads glob fs arg ifc conf text o) ->
  (exists err h, main 0 args = mk_ran (Ends 1) [] err h /\ (v <> str "up" -> h = []) /\ (v = str "up" -> map fst h = [ask_launchd pid])) \/
  (v = str "up" /\ exists a st, main 0 args = mk_ran (Ends st) [] [] [(ask_launchd pid, a)] /\ a_signal a = Some st).
Proof.
  intros args v arg [-> Hv] Hn. pose proof (PropFreeMain.bsd_find_options_inv glob fs arg) as F. destruct (FreeQuick.find_options glob fs arg) as [err [st|[[ifc conf] o]]] eqn:Ef; [|exfalso; destruct F as (text & F); exact (Hn _ _ _ _ F)].
  destruct F as [-> _]. destruct Hv as [<-|[<-|[<-|[<-|[]]]]].
  - pose proof launchd_cases as L. cbv zeta in L. set (a := sys [] (ask_launchd pid)) in *. unfold main, DarQuick.main, as_root. cbn [beq Z.eqb]. cbv zeta. rewrite L. destruct (a_signal a) as [st|] eqn:S.
    + right. split; [reflexivity|]. exists a, st. split; [reflexivity|exact S].
    + left. exists err, [(ask_launchd pid, a)]. unfold parsed. rewrite Ef. split; [reflexivity|]. split; [congruence|reflexivity].
  - left. exists err, []. unfold main, DarQuick.main, as_root, parsed. cbn [Z.eqb]. rewrite Ef. split; [reflexivity|]. split; [reflexivity|discriminate].
  - left. exists err, []. unfold main, DarQuick.main, as_root, parsed. cbn [Z.eqb]. rewrite Ef. split; [reflexivity|]. split; [reflexivity|discriminate].
  - left. exists err, []. unfold main, DarQuick.main, as_root, parsed. cbn [Z.eqb]. rewrite Ef. split; [reflexivity|]. split; [reflexivity|discriminate].
Qed.
Definition ends_as (x : outcome) (r : ran) (conf : list Z) : Prop :=
  r = mk_ran (match fst x with Some st => Ends st | None => Endless end) [] (warnings fs conf) (snd x).
(** With a file, each verb does its work (C68_up, C68_down, C68_save) on the interface the file is named after. *)
Theorem C68_verbs : forall arg ifc conf text o, bsd_loads glob fs arg ifc conf text o ->
  (exists a, (a_signal a = None /\ ends_as (cmd_up sys glob order ifc o us (mk_sh [(ask_launchd pid, a)] vars0)) (main 0 [str "up"; arg]) conf) \/
    (exists st, a_signal a = Some st /\ main 0 [str "up"; arg] = mk_ran (Ends st) [] [] [(ask_launchd pid, a)])) /\
  ends_as (cmd_down sys ifc o conf amp (mk_sh [] vars0)) (main 0 [str "down"; arg]) conf /\
  ends_as (cmd_save sys ifc o conf amp (mk_sh [] vars0)) (main 0 [str "save"; arg]) conf.
Proof.
  intros arg ifc conf text o H. apply PropFreeMain.bsd_find_options in H. split; [|split].
  - pose proof launchd_cases as L. cbv zeta in L. exists (sys [] (ask_launchd pid)). set (a := sys [] (ask_launchd pid)) in *. unfold main, DarQuick.main, as_root. cbn [beq Z.eqb]. cbv zeta. rewrite L. destruct (a_signal a) as [st|] eqn:S.
    + right. exists st. split; reflexivity.
    + left. split; [reflexivity|]. unfold parsed. rewrite H. reflexivity.
  - unfold main, DarQuick.main, as_root, parsed. cbn [Z.eqb]. rewrite H. reflexivity.
  - unfold main, DarQuick.main, as_root, parsed. cbn [Z.eqb]. rewrite H. reflexivity.
Qed.
(** strip writes the lines that are not wg-quick's own, in order, and runs nothing; wg reads from that what it would read from those lines. *)
Theorem C68_strip : forall arg ifc conf text o lines kept, bsd_loads glob fs arg ifc conf text o -> ~ In 0 text -> file_lines text lines -> others lines kept ->
  exists out, main 0 [str "strip"; arg] = mk_ran (Ends 0) out (warnings fs conf) [] /\
    (exists ls, Forall2 (trimmed blank) kept ls /\ out = newlines ls ++ [10]) /\ (forall e append, read_config e append (getlines out) = read_config e append kept).
Proof.
  intros arg ifc conf text o lines kept HL H0 Hl Hk. assert (Ho : parse_options glob text = Some o) by (destruct HL; assumption). apply PropFreeMain.bsd_find_options in HL.
  exists (handed o). split; [unfold main, DarQuick.main, as_root, parsed; cbn [Z.eqb]; rewrite HL; reflexivity|]. split; [|intros e append; eapply C40_wg_reads_the_rest; eassumption].
  destruct (C40_handed glob text lines kept o H0 Hl Hk Ho) as (ls & A & B). exists ls. split; [exact A|]. unfold handed. rewrite B. reflexivity.
Qed.
(** *** Success *)
Lemma trap_nonzero : forall B P st0 cl st, trap B P st0 cl st -> FreeSpec.undisturbed cl -> st0 <> 0 -> st <> 0.
Proof.
  intros B P st0 cl st [(_ & _ & ->)|(c1 & ev & -> & _ & [(_ & _ & N & ->)|S])] U N0; [exact N0|exact N|]. exfalso. apply Forall_app in U as [_ U]. inversion U; subst. congruence.
Qed.
Lemma no_hit : forall (a : history) ev b st, FreeSpec.undisturbed (a ++ ev :: b) -> a_signal (snd ev) = Some st -> False.
Proof. intros a ev b st U S. apply Forall_app in U as [_ U]. inversion U; subst. congruence. Qed.
(** Success is reported only after the interface, which was not up, has been created and what the lines of the file say has been done, in order and without failure; the
    interface is left in place. *)
Theorem C68_up_whole : forall arg, let r := main 0 [str "up"; arg] in r_end r = Ends 0 -> FreeSpec.undisturbed (r_hist r) -> (forall conf text err, f_read fs conf = Some (text, err) -> ~ In 0 text) ->
  exists ifc conf text lines o a l cr ri p rs,
    bsd_loads glob fs arg ifc conf text o /\ file_lines text lines /\ says_lines glob lines o /\
    r_hist r = (ask_launchd pid, a) :: l ++ cr ++ all_steps p /\ lookup ifc l None /\ creation us ifc cr ri /\ in_order glob ri ifc o rs p /\
    Forall (fine bears_at_start) cr /\ Forall (fine bears) (all_steps p).
Proof.
  intros arg r He U H0. pose proof (PropFreeMain.bsd_find_options_inv glob fs arg) as F. pose proof launchd_cases as L. cbv zeta in L. set (a := sys [] (ask_launchd pid)) in *.
  assert (Sa : a_signal a = None).
  { destruct (a_signal a) as [st|] eqn:S; [|reflexivity]. exfalso. unfold r, main, DarQuick.main, as_root in U. cbn [beq Z.eqb] in U. cbv zeta in U. rewrite L in U. cbn [r_hist s_hist] in U. inversion U as [|x l1 S1 _]; subst x l1. cbn [snd] in S1. congruence. }
  rewrite Sa in L.
  assert (Er : r = parsed glob fs arg (mk_sh [(ask_launchd pid, a)] vars0) (fun err ifc conf o => of_outcome err (cmd_up sys glob order ifc o us (mk_sh [(ask_launchd pid, a)] vars0)))).
  { unfold r, main, DarQuick.main, as_root. cbn [beq Z.eqb]. cbv zeta. rewrite L. reflexivity. }
  unfold parsed in Er. destruct (FreeQuick.find_options glob fs arg) as [err [st|[[ifc conf] o]]] eqn:Ef.
  { exfalso. destruct F as [-> _]. rewrite Er in He. discriminate He. }
  destruct F as (text & Lo). assert (Lo' := Lo). destruct Lo as [path real er Hp Hx Hn Hr Hc Ht Ho].
  destruct (PropFreeMain.parse_says glob text o Ho (H0 _ _ _ Ht)) as (lines & Hl & Hs).
  destruct (cmd_up sys glob order ifc o us (mk_sh [(ask_launchd pid, a)] vars0)) as [[st|] h'] eqn:Ec; rewrite Er in He, U; cbn [of_outcome fst snd r_end r_hist] in He, U; [|discriminate He]. assert (st = 0) by congruence. subst st.
  assert (EH : exists h, h' = [(ask_launchd pid, a)] ++ h) by (destruct (up_whole sys glob order ifc o us any_order _ _ _ Ec) as (h & Eh & _); exists h; exact Eh).
  destruct EH as (h & ->). inversion U as [|x l1 _ Uh]; subst x l1.
  destruct (C68_up sys glob order ifc o us any_order _ h 0 Ec) as [(fwd & ev & -> & _ & S)|[(_ & _ & X)|(l & q & -> & Lk & Fl & X)]]; [exfalso; exact (no_hit _ _ _ _ Uh S)|discriminate X|].
  apply Forall_app in Uh as [_ Uq].
  destruct X as [(cr & ri & p & rs & -> & Cr & Fc & IO & Fi & _)|[X|[X|[X|[X|[X|X]]]]]].
  - exists ifc, conf, text, lines, o, a, l, cr, ri, p, rs. split; [exact Lo'|]. split; [exact Hl|]. split; [exact Hs|]. rewrite Er. cbn [of_outcome r_hist snd app]. split; [reflexivity|]. auto 10.
  - exfalso. destruct X as (cr & cl & -> & _ & _ & T). apply Forall_app in Uq as [_ Uq]. exact (trap_nonzero _ _ _ _ _ T Uq ltac:(discriminate) eq_refl).
  - exfalso. destruct X as (cr & ev & st0 & cl & -> & _ & (_ & _ & N & ->) & T). apply Forall_app in Uq as [_ Uq]. inversion Uq; subst. exact (trap_nonzero _ _ _ _ _ T ltac:(assumption) N eq_refl).
  - exfalso. destruct X as (cr & ev & st0 & c1 & st1 & c2 & -> & _ & S & _). exact (no_hit _ _ _ _ Uq S).
  - exfalso. destruct X as (cr & ri & fwd & ev & st0 & cl & -> & _ & _ & _ & (_ & _ & N & ->) & T). apply Forall_app in Uq as [_ Uq]. apply Forall_app in Uq as [_ Uq]. inversion Uq; subst. exact (trap_nonzero _ _ _ _ _ T ltac:(assumption) N eq_refl).
  - exfalso. destruct X as (cr & ri & p & rs & cl & -> & _ & _ & _ & _ & T). apply Forall_app in Uq as [_ Uq]. apply Forall_app in Uq as [_ Uq]. exact (trap_nonzero _ _ _ _ _ T Uq ltac:(discriminate) eq_refl).
  - exfalso. destruct X as (cr & ri & fwd & ev & st0 & c1 & st1 & c2 & -> & _ & _ & _ & S & _). apply Forall_app in Uq as [_ Uq]. exact (no_hit _ _ _ _ Uq S).
Qed.
End Main.

Print Assumptions C68_help.
Print Assumptions C68_usage.
Print Assumptions C68_sudo.
Print Assumptions C68_no_file.
Print Assumptions C68_verbs.
Print Assumptions C68_strip.
Print Assumptions C68_up_whole.
