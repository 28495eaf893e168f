(** C64, continued: the command line of wg-quick on FreeBSD. *)
From Coq Require Import String ZArith List Bool Lia.
From Verif Require Import Base Ctype Cstr CstrProofs Types Config ConfigSpec ConfigProofs Uapi Bash Quick QuickSpec QuickProofs PropQuick QuickRun QuickRunSpec QuickRunProofs QuickUpProofs PropQuickUp QuickSave QuickMain QuickMainSpec PropQuickMain
  QuickReloadSpec QuickRouteSpec Sh BsdRoutes BsdRoutesSpec FreeQuick FreeSpec FreeProofs4 FreeProofs5 FreeProofs6 PropFree.
Import ListNotations.
Open Scope Z_scope.

Section Main.
Variables (sys : system) (glob : list Z -> list (list Z)) (fuel : nat) (amp : bool) (us : list Z) (fs : files) (bash self program : list Z).
(** "test -d" with an empty name fails. *)
Hypothesis nothing : forall h, a_status (sys h (argv [str "test"; str "-d"; []])) <> 0.
Let main uid := FreeQuick.main sys glob fuel amp us fs uid bash self program.
Let dispatch uid := FreeQuick.dispatch sys glob fuel amp us fs uid bash self program.

Ltac stopped k := right; eexists; eexists; split; [reflexivity|]; exists k.
Lemma temp_cases : (exists d h0, make_temp sys start_state = Fin tt (mk_sh h0 (first_vars d)) /\ temp_made d h0 /\ d <> []) \/
  (exists st s, (make_temp sys start_state = Quit st s \/ make_temp sys start_state = Hit st s) /\ temp_not_made (s_hist s) st).
Proof.
  set (b := mk_answer 0 [] None).
  unfold make_temp, start_state, ask, holds, must, must_in, put, quit, pure, thn, call. cbn [s_hist s_vars app].
  set (a := sys [] (argv [!"umask"])). destruct (a_signal a) as [st|] eqn:Sa.
  { right. exists st. eexists. split; [right; reflexivity|]. cbn [s_hist]. exists (captured (a_output b)), [], (argv [!"umask"], a), [(argv [!"umask"; !"077"], b); (argv [!"mktemp"; !"-d"], b); (argv [!"umask"; captured (a_output a)], b); (argv [!"test"; !"-d"; captured (a_output b)], b)].
    split; [exists a, b; repeat split|]. split; [reflexivity|]. split; [constructor|left; exact Sa]. }
  cbn [s_hist s_vars app]. set (h1 := [(argv [!"umask"], a)]). set (x := sys h1 (mk_cmd [!"umask"; !"077"] [])). destruct (a_signal x) as [st|] eqn:Sx.
  { right. exists st. eexists. split; [right; reflexivity|]. cbn [s_hist app h1]. exists (captured (a_output b)), [(argv [!"umask"], a)], (argv [!"umask"; !"077"], x), [(argv [!"mktemp"; !"-d"], b); (argv [!"umask"; captured (a_output a)], b); (argv [!"test"; !"-d"; captured (a_output b)], b)].
    split; [exists a, b; repeat split|]. split; [reflexivity|]. split; [repeat constructor; exact Sa|left; exact Sx]. }
  destruct (Z.eqb_spec (a_status x) 0) as [Ex|Ex]; cbn [s_hist s_vars app h1].
  2: { right. exists (a_status x). eexists. split; [left; reflexivity|]. cbn [s_hist app h1]. exists (captured (a_output b)), [(argv [!"umask"], a)], (argv [!"umask"; !"077"], x), [(argv [!"mktemp"; !"-d"], b); (argv [!"umask"; captured (a_output a)], b); (argv [!"test"; !"-d"; captured (a_output b)], b)].
    split; [exists a, b; repeat split|]. split; [reflexivity|]. split; [repeat constructor; exact Sa|right]. auto. }
  match goal with |- context [sys ?h (argv [!"mktemp"; !"-d"])] => set (c := sys h (argv [!"mktemp"; !"-d"])) end. destruct (a_signal c) as [st|] eqn:Sc.
  { right. exists st. eexists. split; [right; reflexivity|]. cbn [s_hist app]. exists (captured (a_output c)), [(argv [!"umask"], a); (argv [!"umask"; !"077"], x)], (argv [!"mktemp"; !"-d"], c), [(argv [!"umask"; captured (a_output a)], b); (argv [!"test"; !"-d"; captured (a_output c)], b)].
    split; [exists a, c; repeat split|]. split; [reflexivity|]. split; [repeat constructor; assumption|left; exact Sc]. }
  cbn [s_hist s_vars app]. match goal with |- context [sys ?h (mk_cmd [!"umask"; captured (a_output a)] [])] => set (e := sys h (mk_cmd [!"umask"; captured (a_output a)] [])) end. destruct (a_signal e) as [st|] eqn:Se.
  { right. exists st. eexists. split; [right; reflexivity|]. cbn [s_hist app]. exists (captured (a_output c)), [(argv [!"umask"], a); (argv [!"umask"; !"077"], x); (argv [!"mktemp"; !"-d"], c)], (argv [!"umask"; captured (a_output a)], e), [(argv [!"test"; !"-d"; captured (a_output c)], b)].
    split; [exists a, c; repeat split|]. split; [reflexivity|]. split; [repeat constructor; assumption|left; exact Se]. }
  destruct (Z.eqb_spec (a_status e) 0) as [Ee|Ee]; cbn [s_hist s_vars app].
  2: { right. exists (a_status e). eexists. split; [left; reflexivity|]. cbn [s_hist app]. exists (captured (a_output c)), [(argv [!"umask"], a); (argv [!"umask"; !"077"], x); (argv [!"mktemp"; !"-d"], c)], (argv [!"umask"; captured (a_output a)], e), [(argv [!"test"; !"-d"; captured (a_output c)], b)].
    split; [exists a, c; repeat split|]. split; [reflexivity|]. split; [repeat constructor; assumption|right]. auto. }
  match goal with |- context [sys ?h (argv [!"test"; !"-d"; captured (a_output c)])] => set (t := sys h (argv [!"test"; !"-d"; captured (a_output c)])); set (h4 := h) in * end. destruct (a_signal t) as [st|] eqn:St.
  { right. exists st. eexists. split; [right; reflexivity|]. cbn [s_hist app]. exists (captured (a_output c)), h4, (argv [!"test"; !"-d"; captured (a_output c)], t), [].
    split; [exists a, c; repeat split|]. split; [reflexivity|]. split; [repeat constructor; assumption|left; exact St]. }
  destruct (Z.eqb_spec (a_status t) 0) as [Et|Et]; cbn [s_hist s_vars app].
  2: { right. exists 1. eexists. split; [left; reflexivity|]. cbn [s_hist app]. exists (captured (a_output c)), h4, (argv [!"test"; !"-d"; captured (a_output c)], t), [].
    split; [exists a, c; repeat split|]. split; [reflexivity|]. split; [repeat constructor; assumption|right]. auto. }
  left. exists (captured (a_output c)). eexists. split; [reflexivity|]. split.
  - split; [exists a, c; repeat split|]. split; [repeat constructor; assumption|].
    intros i y [<-|[<-|[<-|[]]]]; cbn; intro E; congruence.
  - intro Ed. unfold t in Et. rewrite Ed in Et. exact (nothing _ Et).
Qed.
(** The directory could not be made. *)
Definition never_started (r : ran) : Prop := exists st, r = mk_ran (Ends st) [] [] (r_hist r) /\ temp_not_made (r_hist r) st.
Lemma main_cases : forall uid args, never_started (main uid args) \/ exists d h0, temp_made d h0 /\ d <> [] /\ main uid args = dispatch uid args (mk_sh h0 (first_vars d)).
Proof.
  intros uid args. unfold main, FreeQuick.main. destruct temp_cases as [(d & h0 & E & T & N)|(st & s & [E|E] & T)]; rewrite E; [right; exists d, h0; auto|left|left]; exists st; split; [reflexivity|exact T|reflexivity|exact T].
Qed.
Lemma ends_tidied : forall err out st0 d h0, d <> [] -> undisturbed (r_hist (FreeQuick.ends sys err out st0 (mk_sh h0 (first_vars d)))) ->
  exists st cl, FreeQuick.ends sys err out st0 (mk_sh h0 (first_vars d)) = mk_ran (Ends st) out err (h0 ++ cl) /\ tidied d st0 cl st.
Proof.
  intros err out st0 d h0 N U. unfold FreeQuick.ends, finish in *. destruct (at_exit (clean_temp sys) st0 (mk_sh h0 (first_vars d))) as [o H] eqn:E.
  assert (Es : exists st, o = Some st).
  { unfold at_exit, clean_temp, get, must, must_in, thn, call, pure, quit in E. cbn [s_vars first_vars v_tmp] in E. destruct d as [|x d]; [contradiction|].
    cbn [s_hist s_vars] in E. destruct (a_signal (sys h0 (mk_cmd [!"rm"; !"-rf"; x :: d] []))); [|destruct (a_status (sys h0 (mk_cmd [!"rm"; !"-rf"; x :: d] [])) =? 0)]; eexists; symmetry; exact (f_equal fst E). }
  destruct Es as (st & ->). exists st. cbn [fst snd r_hist] in *.
  destruct (at_exit_goes [] options0 d (clean_temp sys) (Dtidy d) (mk_sh h0 (first_vars d)) st0 st H (goes_tidy_here sys [] options0 d N) eq_refl E) as (cl & -> & T).
  exists cl. split; [reflexivity|]. apply Forall_app in U as [_ U]. destruct T as [T|T]; [eapply (tidied_of (fun _ => []) []), T|destruct (not_cut _ _ _ _ U T)].
Qed.
(** *** The command line *)
Definition prepared_and (r : ran) (f : list Z -> history -> Prop) : Prop := never_started r \/ exists d h0, temp_made d h0 /\ d <> [] /\ f d h0.
Theorem C64_help : forall uid args, help args -> let r := main uid args in undisturbed (r_hist r) ->
  prepared_and r (fun d h0 => exists st cl, r = mk_ran (Ends st) [] [Usage] (h0 ++ cl) /\ tidied d 0 cl st).
Proof.
  intros uid args H r U. destruct (main_cases uid args) as [X|(d & h0 & T & N & E)]; [left; exact X|right]. exists d, h0. split; [exact T|]. split; [exact N|].
  fold r in E. assert (Ed : dispatch uid args (mk_sh h0 (first_vars d)) = FreeQuick.ends sys [Usage] [] 0 (mk_sh h0 (first_vars d))) by (destruct H as [->|[->| ->]]; reflexivity).
  rewrite E, Ed in U |- *. apply ends_tidied; assumption.
Qed.
Theorem C64_usage : forall uid args, ~ help args -> (forall v a, ~ taken args v a) -> let r := main uid args in undisturbed (r_hist r) ->
  prepared_and r (fun d h0 => exists st cl, r = mk_ran (Ends st) [] [Usage] (h0 ++ cl) /\ tidied d 1 cl st).
Proof.
  intros uid args Hh Ht r U. destruct (main_cases uid args) as [X|(d & h0 & T & N & E)]; [left; exact X|right]. exists d, h0. split; [exact T|]. split; [exact N|].
  fold r in E. assert (Ed : dispatch uid args (mk_sh h0 (first_vars d)) = FreeQuick.ends sys [Usage] [] 1 (mk_sh h0 (first_vars d))).
  { unfold dispatch, FreeQuick.dispatch. destruct args as [|v [|a [|b l]]]; [reflexivity| | |reflexivity].
    - unfold help in Hh. rewrite !beq_false; [reflexivity| | |]; intros ->; apply Hh; auto.
    - assert (Nv : ~ In v verbs) by (intro Hi; apply (Ht v a); split; [reflexivity|exact Hi]). rewrite !beq_false; [reflexivity| | | |]; intros ->; apply Nv; cbn [verbs In]; auto. }
  rewrite E, Ed in U |- *. apply ends_tidied; assumption.
Qed.
(** Users other than root: the script starts over under sudo with the arguments it was given; the directory stays. *)
Theorem C64_sudo : forall uid args v a, uid <> 0 -> taken args v a -> let r := main uid args in
  prepared_and r (fun d h0 => exists prompt, r = mk_ran (Becomes ([str "sudo"; str "-p"; prompt; str "--"; bash; str "--"; self] ++ args)) [] [] h0).
Proof.
  intros uid args v a Hu [-> Hv] r. destruct (main_cases uid [v; a]) as [X|(d & h0 & T & N & E)]; [left; exact X|right]. exists d, h0. split; [exact T|]. split; [exact N|]. fold r in E.
  exists (program ++ str " must be run as root. Please enter the password for %u to continue: "). apply Z.eqb_neq in Hu. rewrite E.
  destruct Hv as [<-|[<-|[<-|[<-|[]]]]]; unfold dispatch, FreeQuick.dispatch, FreeQuick.with_options; rewrite Hu; reflexivity.
Qed.

(** *** The file *)
Inductive bsd_loads (arg ifc conf : list Z) (text : list Z) (o : options) : Prop :=
| bsd_loads_intro : forall path real err, bsd_stands_for (f_exists fs) arg path -> f_exists fs path = true -> names path ifc -> f_resolve fs path = Some real ->
    conf = captured (real ++ [10]) -> f_read fs conf = Some (text, err) -> parse_options glob text = Some o -> bsd_loads arg ifc conf text o.
Lemma bsd_stands_for_iff : forall arg path, bsd_stands_for (f_exists fs) arg path <-> path = path_of fs arg.
Proof.
  intros arg path. unfold bsd_stands_for, path_of. cbv zeta. destruct (is_name arg) eqn:E.
  - apply iface_name_iff in E. unfold search_paths, search.
    change (!"/etc/wireguard" ++ [47] ++ arg ++ !".conf") with (str "/etc/wireguard/" ++ arg ++ str ".conf"). change (!"/usr/local/etc/wireguard" ++ [47] ++ arg ++ !".conf") with (str "/usr/local/etc/wireguard/" ++ arg ++ str ".conf").
    destruct (f_exists fs (str "/etc/wireguard/" ++ arg ++ str ".conf")) eqn:X.
    + split; [intros [(_ & _ & H)|[(_ & H & _)|(H & _)]]; [exact H|discriminate H|contradiction]|]. intros ->. left. auto.
    + split; [intros [(_ & H & _)|[(_ & _ & H)|(H & _)]]; [discriminate H| |contradiction]|].
      * rewrite H. destruct (f_exists fs (str "/usr/local/etc/wireguard/" ++ arg ++ str ".conf")); reflexivity.
      * intro H. right. left. split; [exact E|]. split; [reflexivity|]. rewrite H. destruct (f_exists fs (str "/usr/local/etc/wireguard/" ++ arg ++ str ".conf")); reflexivity.
  - assert (N : ~ iface_name arg) by (rewrite <- iface_name_iff; congruence). split; [intros [(H & _)|[(H & _)|(_ & H)]]; [contradiction|contradiction|exact H]|intro H; right; right; auto].
Qed.
Lemma bsd_find_options : forall arg ifc conf text o, bsd_loads arg ifc conf text o -> FreeQuick.find_options glob fs arg = (warnings fs conf, inr (ifc, conf, o)).
Proof.
  intros arg ifc conf text o [path real er Hp He Hn Hr -> Ht Ho]. apply bsd_stands_for_iff in Hp as ->. apply names_iff in Hn.
  unfold FreeQuick.find_options. rewrite He, Hn, Hr, Ht, Ho. reflexivity.
Qed.
Lemma bsd_find_options_inv : forall arg, match FreeQuick.find_options glob fs arg with
  | (_, inl st) => st = 1 /\ (forall ifc conf text o, ~ bsd_loads arg ifc conf text o)
  | (_, inr (ifc, conf, o)) => exists text, bsd_loads arg ifc conf text o
  end.
Proof.
  intro arg. unfold FreeQuick.find_options. cbv zeta.
  destruct (f_exists fs (path_of fs arg)) eqn:He; cbn [negb]; [|split; [reflexivity|]; intros ifc conf text o [path real er Hp He' Hn Hr Hc Ht Ho]; apply bsd_stands_for_iff in Hp; congruence].
  destruct (interface_of (path_of fs arg)) as [ifc|] eqn:Hn; [|split; [reflexivity|]; intros ifc conf text o [path real er Hp He' Hn' Hr Hc Ht Ho]; apply bsd_stands_for_iff in Hp; apply names_iff in Hn'; congruence].
  destruct (f_resolve fs (path_of fs arg)) as [real|] eqn:Hr; [|split; [reflexivity|]; intros ifc' conf text o [path real er Hp He' Hn' Hr' Hc Ht Ho]; apply bsd_stands_for_iff in Hp; congruence].
  destruct (f_read fs (captured (real ++ [10]))) as [[text er0]|] eqn:Ht; [|split; [reflexivity|]; intros ifc' conf text o [path real' er Hp He' Hn' Hr' Hc Ht' Ho]; apply bsd_stands_for_iff in Hp; congruence].
  destruct (parse_options glob text) as [o|] eqn:Ho; [|split; [reflexivity|]; intros ifc' conf text' o [path real' er' Hp He' Hn' Hr' Hc Ht' Ho']; apply bsd_stands_for_iff in Hp; congruence].
  exists text. econstructor; try eassumption; [apply bsd_stands_for_iff; reflexivity|apply names_iff; exact Hn|reflexivity].
Qed.
Theorem C64_no_file : forall args v arg, taken args v arg -> (forall ifc conf text o, ~ bsd_loads arg ifc conf text o) -> let r := main 0 args in undisturbed (r_hist r) ->
  prepared_and r (fun d h0 => exists err st cl, r = mk_ran (Ends st) [] err (h0 ++ cl) /\ tidied d 1 cl st).
Proof.
  intros args v arg [-> Hv] Hn r U. destruct (main_cases 0 [v; arg]) as [X|(d & h0 & T & N & E)]; [left; exact X|right]. exists d, h0. split; [exact T|]. split; [exact N|]. fold r in E.
  pose proof (bsd_find_options_inv arg) as F. destruct (FreeQuick.find_options glob fs arg) as [err [st|[[ifc conf] o]]] eqn:Ef; [|exfalso; destruct F as (text & F); exact (Hn _ _ _ _ F)].
  destruct F as [-> _]. exists err.
  assert (Ed : dispatch 0 [v; arg] (mk_sh h0 (first_vars d)) = FreeQuick.ends sys err [] 1 (mk_sh h0 (first_vars d))).
  { destruct Hv as [<-|[<-|[<-|[<-|[]]]]]; unfold dispatch, FreeQuick.dispatch, FreeQuick.with_options; cbn [Z.eqb]; rewrite Ef; reflexivity. }
  rewrite E, Ed in U |- *. apply ends_tidied; assumption.
Qed.
Definition ends_as (x : outcome) (r : ran) (conf : list Z) : Prop :=
  r = mk_ran (match fst x with Some st => Ends st | None => Endless end) [] (warnings fs conf) (snd x).
(** With a file, each verb does its work (C64_up, C64_down, C64_save) on the interface the file is named after. *)
Theorem C64_verbs : forall arg ifc conf text o, bsd_loads arg ifc conf text o ->
  prepared_and (main 0 [str "up"; arg]) (fun d h0 => ends_as (cmd_up sys glob fuel ifc o us (mk_sh h0 (first_vars d))) (main 0 [str "up"; arg]) conf) /\
  prepared_and (main 0 [str "down"; arg]) (fun d h0 => ends_as (cmd_down sys fuel ifc o conf amp (mk_sh h0 (first_vars d))) (main 0 [str "down"; arg]) conf) /\
  prepared_and (main 0 [str "save"; arg]) (fun d h0 => ends_as (cmd_save sys ifc o conf amp (mk_sh h0 (first_vars d))) (main 0 [str "save"; arg]) conf).
Proof.
  intros arg ifc conf text o H. apply bsd_find_options in H. split; [|split].
  all: match goal with |- prepared_and (main 0 ?l) _ => destruct (main_cases 0 l) as [X|(d & h0 & T & N & E)]; [left; exact X|right]; exists d, h0; split; [exact T|]; split; [exact N|]; rewrite E end;
    unfold dispatch, FreeQuick.dispatch, FreeQuick.with_options; cbn [Z.eqb]; rewrite H; reflexivity.
Qed.
Theorem C64_strip : forall arg ifc conf text o lines kept, bsd_loads arg ifc conf text o -> ~ In 0 text -> file_lines text lines -> others lines kept ->
  let r := main 0 [str "strip"; arg] in undisturbed (r_hist r) ->
  prepared_and r (fun d h0 => exists st out cl, r = mk_ran (Ends st) out (warnings fs conf) (h0 ++ cl) /\ tidied d 0 cl st /\
    (exists ls, Forall2 (trimmed blank) kept ls /\ out = newlines ls ++ [10]) /\ (forall e append, read_config e append (getlines out) = read_config e append kept)).
Proof.
  intros arg ifc conf text o lines kept HL H0 Hl Hk r U. assert (Ho : parse_options glob text = Some o) by (destruct HL; assumption). apply bsd_find_options in HL.
  destruct (main_cases 0 [str "strip"; arg]) as [X|(d & h0 & T & N & E)]; [left; exact X|right]. exists d, h0. split; [exact T|]. split; [exact N|]. fold r in E.
  assert (Ed : dispatch 0 [str "strip"; arg] (mk_sh h0 (first_vars d)) = FreeQuick.ends sys (warnings fs conf) (cmd_strip o) 0 (mk_sh h0 (first_vars d))).
  { unfold dispatch, FreeQuick.dispatch, FreeQuick.with_options. cbn [Z.eqb]. rewrite HL. reflexivity. }
  rewrite E, Ed in U |- *. destruct (ends_tidied _ _ _ _ _ N U) as (st & cl & Er & Td). rewrite Er. exists st, (cmd_strip o), cl. split; [reflexivity|]. split; [exact Td|].
  change (cmd_strip o) with (handed o). split; [|intros e append; eapply C40_wg_reads_the_rest; eassumption].
  destruct (C40_handed glob text lines kept o H0 Hl Hk Ho) as (ls & A & B). exists ls. split; [exact A|]. unfold handed. rewrite B. reflexivity.
Qed.
Lemma parse_says : forall text o, parse_options glob text = Some o -> ~ In 0 text -> exists lines, file_lines text lines /\ says_lines glob lines o.
Proof.
  intros text o HL H0. exists (lines_of text). assert (Hl : file_lines text (lines_of text)) by (apply lines_of_iff; reflexivity).
  split; [exact Hl|]. constructor.
  - eapply C40_hooks; eassumption.
  - intros. eapply C40_single; eassumption.
  - intros. eapply C40_addresses; eassumption.
  - intros. eapply C40_dns; eassumption.
  - intros. eapply C40_wg_reads_the_rest; eassumption.
Qed.
(** Success is reported only after the interface, which did not exist, has been created and what the lines of the file say has been done, in order and without failure; the interface
    is left in place and the temporary directory removed. *)
Lemma broke_nonzero : forall ev st, broke ev st -> st <> 0.
Proof. intros ev st (_ & [(_ & N & [->|[_ ->]])|(f & i & _ & _ & ->)]); congruence. Qed.
Lemma undone_nonzero : forall ifc o d h st0 cl st, undone ifc o d h st0 cl st -> st0 <> 0 -> st <> 0.
Proof. intros ifc o d h st0 cl st [(_ & _ & ->)|(cl1 & ev & cl2 & _ & _ & _ & B)] N; [exact N|eapply broke_nonzero, B]. Qed.
Lemma tidied_nonzero : forall d st0 cl st, tidied d st0 cl st -> st0 <> 0 -> st <> 0.
Proof. intros d st0 cl st (a & _ & [[_ ->]|[X ->]]) N; assumption. Qed.
Theorem C64_up_whole : forall arg, let r := main 0 [str "up"; arg] in r_end r = Ends 0 -> undisturbed (r_hist r) -> (forall conf text err, f_read fs conf = Some (text, err) -> ~ In 0 text) ->
  exists ifc conf text lines o d h0 a cr p rs b,
    bsd_loads arg ifc conf text o /\ file_lines text lines /\ says_lines glob lines o /\ temp_made d h0 /\
    r_hist r = h0 ++ (is_there ifc, a) :: cr ++ all_steps p ++ [(remove_dir d, b)] /\
    captured (a_output a) = [] /\ created us ifc cr /\ in_order glob ifc o rs p /\ Forall fine (all_steps p) /\ a_status b = 0.
Proof.
  intros arg r He U H0. pose proof (bsd_find_options_inv arg) as F.
  destruct (main_cases 0 [str "up"; arg]) as [(st & X & Y)|(d & h0 & T & N & E)].
  { fold r in X, Y. rewrite X in He. cbn [r_end] in He. assert (st = 0) by congruence. subst st. exfalso. destruct Y as (d & fwd & ev & rest & _ & Eh & _ & [S|(_ & S & [S'|[_ S']])]); [|congruence|discriminate S'].
    rewrite Eh in U. apply Forall_app in U as [_ U]. inversion U; subst. congruence. }
  fold r in E. destruct (FreeQuick.find_options glob fs arg) as [err [st|[[ifc conf] o]]] eqn:Ef.
  { assert (Ed : r = FreeQuick.ends sys err [] 1 (mk_sh h0 (first_vars d))) by (rewrite E; destruct F as [-> _]; unfold dispatch, FreeQuick.dispatch, FreeQuick.with_options; cbn [Z.eqb]; rewrite Ef; reflexivity).
    rewrite Ed in U. destruct (ends_tidied _ _ _ _ _ N U) as (st1 & cl & Er & Td). exfalso. apply (tidied_nonzero _ _ _ _ Td); [discriminate|]. rewrite Ed, Er in He. cbn [r_end] in He. congruence. }
  destruct F as (text & L). assert (L' := L). destruct L as [path real er Hp Hx Hn Hr Hc Ht Ho]. destruct (parse_says text o Ho (H0 _ _ _ Ht)) as (lines & Hl & Hs).
  assert (Ed : r = finish err [] (cmd_up sys glob fuel ifc o us (mk_sh h0 (first_vars d)))) by (rewrite E; unfold dispatch, FreeQuick.dispatch, FreeQuick.with_options; cbn [Z.eqb]; rewrite Ef; reflexivity).
  destruct (cmd_up sys glob fuel ifc o us (mk_sh h0 (first_vars d))) as [[st|] H] eqn:Ec; rewrite Ed in He, U; cbn [finish fst snd r_end r_hist] in He, U; [|discriminate He]. assert (st = 0) by congruence. subst st.
  assert (EH : exists h, H = h0 ++ h) by (destruct (up_cases sys glob fuel ifc o us d N (mk_sh h0 (first_vars d)) 0 H eq_refl Ec) as (a & r1 & Eh & _); eexists; exact Eh). destruct EH as (h & ->).
  apply Forall_app in U as [_ U]. destruct (C64_up sys glob fuel ifc o us d N h0 h 0 Ec U) as (a & r1 & -> & [(_ & X)|(Ca & X)]).
  { exfalso. apply (tidied_nonzero _ _ _ _ X); [discriminate|reflexivity]. }
  destruct X as [(cr & p & rs & cl & -> & Cr & IO & Fi & (b & -> & Td) & _)|[(cr & st0 & cl & -> & (x & y & _ & _ & _ & _ & Nz) & X)|(cr & fwd & ev & rest & p & rs & st0 & cl & -> & _ & _ & _ & _ & B & X)]].
  - exists ifc, conf, text, lines, o, d, h0, a, cr, p, rs, b. split; [exact L'|]. split; [exact Hl|]. split; [exact Hs|]. split; [exact T|]. split; [rewrite Ed; reflexivity|]. split; [exact Ca|]. split; [exact Cr|].
    split; [exact IO|]. split; [exact Fi|]. destruct Td as [[Td _]|[Td Td']]; congruence.
  - exfalso. exact (undone_nonzero _ _ _ _ _ _ _ X Nz eq_refl).
  - exfalso. exact (undone_nonzero _ _ _ _ _ _ _ X (broke_nonzero _ _ B) eq_refl).
Qed.
End Main.

Print Assumptions C64_help.
Print Assumptions C64_usage.
Print Assumptions C64_sudo.
Print Assumptions C64_no_file.
Print Assumptions C64_verbs.
Print Assumptions C64_strip.
Print Assumptions C64_up_whole.
