(** C63: the host routes to the endpoints on FreeBSD, OpenBSD and macOS. *)
From Coq Require Import String ZArith List Bool Lia.
From Verif Require Import Base Cstr CstrProofs Types Show ShowSpec Bash Quick QuickSpec QuickRun QuickReloadSpec QuickProofs PropQuick PropQuickFirewall QuickMtuSpec PropQuickMtu PropQuickReload Sh BsdRoutes BsdRoutesSpec
  BsdRoutesProofs BsdRoutesProofs2 BsdRoutesProofs3.
Import ListNotations.
Open Scope Z_scope.

(** ** What is reported is determined by the text *)
Lemma default_fun : forall nl l g g', ~ In 10 l -> default_line nl l g -> default_line nl l g' -> g = g'.
Proof. intros nl l g g' N H H'. rewrite (usable_field nl l g N H), (usable_field nl l g' N H'). reflexivity. Qed.
Lemma reports_gateway_fun : forall nl out g g', reports_gateway nl out g -> reports_gateway nl out g' -> g = g'.
Proof.
  assert (K : forall nl out g, reports_gateway nl out g -> g = gateway nl (read_complete out)).
  { intros nl out g (ls & C & H). pose proof (complete_lines_fun _ _ _ C (read_complete_spec out)) as E. subst ls. pose proof (read_no_newline out) as N. clear C.
    induction (read_complete out) as [|l ls IH].
    - destruct H as [[-> _]|(a & l & b & E & _)]; [reflexivity|]. destruct a; discriminate.
    - inversion N as [|? ? Nl N']; subst. cbn [gateway]. destruct (usable nl l) eqn:U.
      + apply usable_iff in U; [|exact Nl]. destruct U as (g0 & D0). destruct H as [[-> H]|(a & x & b & E & D & H)].
        * exfalso. exact (H l g0 (or_introl eq_refl) D0).
        * destruct a as [|y a]; cbn [app] in E.
          { assert (x = l) by congruence. subst x. apply usable_field in D; assumption. }
          exfalso. apply (H l g0); [|exact D0]. left. congruence.
      + assert (ND : forall g0, ~ default_line nl l g0). { intros g0 D. assert (X : usable nl l = true) by (apply usable_iff; [exact Nl|eauto]). congruence. }
        apply IH; [|exact N']. destruct H as [[-> H]|(a & x & b & E & D & H)].
        * left. split; [reflexivity|]. intros l' g' Hl. apply H. right. exact Hl.
        * right. destruct a as [|y a]; cbn [app] in E; [assert (x = l) by congruence; subst x; destruct (ND g D)|]. exists a, x, b. split; [congruence|]. split; [exact D|]. intros l' g' Hl. apply H. right. exact Hl. }
  intros nl out g g' H H'. rewrite (K _ _ _ H), (K _ _ _ H'). reflexivity.
Qed.
Lemma reports_endpoints_fun : forall out E E', reports_endpoints out E -> reports_endpoints out E' -> E = E'.
Proof.
  intros out E E' (ls & C & P) (ls' & C' & P'). pose proof (complete_lines_fun _ _ _ C (read_complete_spec out)) as X. subst ls. pose proof (complete_lines_fun _ _ _ C' (read_complete_spec out)) as X. subst ls'.
  pose proof (lines_of out) as F. clear C C'. generalize dependent E'. generalize dependent E. generalize (@nil (list Z)). induction F as [|l ls [Nl Tl] F IH]; intros pre E P E' P'.
  - inversion P; inversion P'; subst; reflexivity.
  - inversion P as [|pre0 l0 ls0 v vs H1 H2 X1 X2 X3|pre0 l0 ls0 vs H1 H2 X1 X2 X3]; inversion P' as [|pre1 l1 ls1 v1 vs1 Q1 Q2 Y1 Y2 Y3|pre1 l1 ls1 vs1 Q1 Q2 Y1 Y2 Y3]; subst.
    + f_equal; [|eapply IH; eassumption]. apply endpoint_line_iff in H1, Q1; try assumption. congruence.
    + destruct (Q1 v H1).
    + destruct (H1 v1 Q1).
    + eapply IH; eassumption.
Qed.

(** ** The routes stay right *)
Section Life.
Variables (sys : system) (ifc : list Z) (nl : bool).
Definition quietish (ev : event) : Prop := forall a, ev <> (ask_endpoints ifc, a).
Definition rests_on (h : history) (v : vars) : Prop := exists a4 a6 ae, last_asked ifc h a4 a6 ae /\ v_gw4 v = fresh_gw nl a4 /\ v_gw6 v = fresh_gw nl a6 /\
  (forall e, In e (v_eps v) -> In e (fresh_eps ae)) /\ (forall f e, wanted (v_auto4 v) (v_auto6 v) f e -> In e (fresh_eps ae) -> In e (v_eps v)).
Definition sound (B : table) (v : vars) (T : table) : Prop := held B v T /\ clear_of B (v_eps v).
Lemma routing_quiet : forall h a, routing h -> ~ In (ask_endpoints ifc, a) h.
Proof.
  intros h a Q Hi. unfold routing in Q. rewrite Forall_forall in Q. specialize (Q _ Hi). cbn [fst] in Q.
  destruct Q as [(f & e & t & E)|(f & e & E)]; apply (f_equal c_argv) in E; [unfold adds in E|unfold deletes in E]; cbn [argv c_argv app ask_endpoints] in E; discriminate E.
Qed.
Lemma round_step : forall s s1, set_endpoint_direct_route sys ifc nl s = Fin tt s1 -> Forall host_word (v_eps (s_vars s)) -> exists h, s_hist s1 = s_hist s ++ h /\
  Forall host_word (v_eps (s_vars s1)) /\ v_auto4 (s_vars s1) = v_auto4 (s_vars s) /\ v_auto6 (s_vars s1) = v_auto6 (s_vars s) /\ rests_on h (s_vars s1) /\
  forall B T T', kernel T h T' -> not_occupied B ifc h -> sound B (s_vars s) T -> sound B (s_vars s1) T'.
Proof.
  intros s s1 H W. apply round_held in H as (a4 & a6 & ae & h & E & Q & A4 & A6 & G4 & G6 & W1 & I1 & I2 & K); [|exact W]. exists (asks ifc a4 a6 ae ++ h). split; [exact E|].
  split; [exact W1|]. split; [exact A4|]. split; [exact A6|]. split.
  - exists a4, a6, ae. split; [exists [], h; split; [reflexivity|]; intro a; apply routing_quiet, Q|]. rewrite A4, A6. auto.
  - intros B T T' Kn NO [HT C]. assert (C1 : clear_of B (fresh_eps ae)).
    { intros e f Hi Hf. apply (NO ae (fresh_eps ae) e f); [|apply hosts_spec|exact Hi|exact Hf]. unfold asks. cbn [app In]. auto. }
    split; [eapply K; eassumption|]. intros e f Hi Hf. apply C1; [apply I1, Hi|exact Hf].
Qed.
Lemma rests_more : forall h0 h v, rests_on h v -> rests_on (h0 ++ h) v.
Proof.
  intros h0 h v (a4 & a6 & ae & (p & q & E & N) & R). exists a4, a6, ae. split; [|exact R]. exists (h0 ++ p), q. split; [rewrite E, <- !app_assoc; reflexivity|exact N].
Qed.
Lemma rests_quiet : forall h0 h v, Forall quietish h -> rests_on h0 v -> rests_on (h0 ++ h) v.
Proof.
  intros h0 h v Q (a4 & a6 & ae & (p & q & E & N) & R). exists a4, a6, ae. split; [|exact R]. exists p, (q ++ h). split; [rewrite E, <- !app_assoc; reflexivity|].
  intros a Hi. apply in_app_or in Hi as [Hi|Hi]; [destruct (N a Hi)|]. rewrite Forall_forall in Q. exact (Q _ Hi a eq_refl).
Qed.
Lemma not_occ_app : forall B h1 h2, not_occupied B ifc (h1 ++ h2) -> not_occupied B ifc h1 /\ not_occupied B ifc h2.
Proof. intros B h1 h2 H. split; intros a E e f Hi; apply H; apply in_or_app; auto. Qed.
Lemma monitor_step : forall events s s1, monitor_loop sys ifc nl events s = Fin tt s1 -> Forall host_word (v_eps (s_vars s)) -> exists h, s_hist s1 = s_hist s ++ h /\
  Forall host_word (v_eps (s_vars s1)) /\ v_auto4 (s_vars s1) = v_auto4 (s_vars s) /\ v_auto6 (s_vars s1) = v_auto6 (s_vars s) /\
  (forall h0, rests_on h0 (s_vars s) -> rests_on (h0 ++ h) (s_vars s1)) /\
  forall B T T', kernel T h T' -> not_occupied B ifc h -> sound B (s_vars s) T -> sound B (s_vars s1) T'.
Proof.
  assert (Z0 : forall s : sh vars, Forall host_word (v_eps (s_vars s)) -> exists h, s_hist s = s_hist s ++ h /\ Forall host_word (v_eps (s_vars s)) /\ v_auto4 (s_vars s) = v_auto4 (s_vars s) /\
    v_auto6 (s_vars s) = v_auto6 (s_vars s) /\ (forall h0, rests_on h0 (s_vars s) -> rests_on (h0 ++ h) (s_vars s)) /\
    forall B T T', kernel T h T' -> not_occupied B ifc h -> sound B (s_vars s) T -> sound B (s_vars s) T').
  { intros s W. exists []. rewrite app_nil_r. split; [reflexivity|]. split; [exact W|]. split; [reflexivity|]. split; [reflexivity|]. split; [intros h0 R; rewrite app_nil_r; exact R|].
    intros B T T' K _ [H C]. apply kernel_nil in K. split; [|exact C]. intros f e. rewrite (K f e). apply H. }
  induction events as [|ev events IH]; intros s s1 H W; cbn [monitor_loop] in H.
  - injection H as <-. apply Z0, W.
  - destruct (negb (starts_with !"RTM_" ev)); [apply IH; assumption|]. apply thn_fin in H as (up & s2 & H1 & H). apply effect_holds in H1 as (V2 & h1 & E1 & (a & -> & Eup)).
    set (c := argv [!"ifconfig"; ifc]) in *.
    assert (Qc : quietish (c, a)) by (intros a' X; assert (Y : c_argv c = c_argv (ask_endpoints ifc)) by congruence; discriminate Y).
    assert (Rc : Forall (fun ev => ~ route_command (fst ev)) [(c, a)]).
    { constructor; [|constructor]. cbn [fst]. intros [(f & e & t & E)|(f & e & E)]; apply (f_equal c_argv) in E; [unfold adds in E|unfold deletes in E]; cbn [argv c_argv app] in E; discriminate E. }
    assert (Z1 : exists h, s_hist s2 = s_hist s ++ h /\ Forall host_word (v_eps (s_vars s2)) /\ v_auto4 (s_vars s2) = v_auto4 (s_vars s) /\
      v_auto6 (s_vars s2) = v_auto6 (s_vars s) /\ (forall h0, rests_on h0 (s_vars s) -> rests_on (h0 ++ h) (s_vars s2)) /\
      forall B T T', kernel T h T' -> not_occupied B ifc h -> sound B (s_vars s) T -> sound B (s_vars s2) T').
    { exists [(c, a)]. rewrite V2. split; [exact E1|]. split; [exact W|]. split; [reflexivity|]. split; [reflexivity|]. split; [intros h0 R; apply rests_quiet; [constructor; [exact Qc|constructor]|exact R]|].
      intros B T T' K _ [HT C]. pose proof (kernel_others _ _ _ K Rc) as S. split; [|exact C]. intros f e. rewrite (S f e). apply HT. }
    assert (Seq : forall s3 s4 : sh vars, (exists h, s_hist s3 = s_hist s ++ h /\ Forall host_word (v_eps (s_vars s3)) /\ v_auto4 (s_vars s3) = v_auto4 (s_vars s) /\
        v_auto6 (s_vars s3) = v_auto6 (s_vars s) /\ (forall h0, rests_on h0 (s_vars s) -> rests_on (h0 ++ h) (s_vars s3)) /\
        forall B T T', kernel T h T' -> not_occupied B ifc h -> sound B (s_vars s) T -> sound B (s_vars s3) T') ->
      (exists h, s_hist s4 = s_hist s3 ++ h /\ Forall host_word (v_eps (s_vars s4)) /\ v_auto4 (s_vars s4) = v_auto4 (s_vars s3) /\
        v_auto6 (s_vars s4) = v_auto6 (s_vars s3) /\ (forall h0, rests_on h0 (s_vars s3) -> rests_on (h0 ++ h) (s_vars s4)) /\
        forall B T T', kernel T h T' -> not_occupied B ifc h -> sound B (s_vars s3) T -> sound B (s_vars s4) T') ->
      exists h, s_hist s4 = s_hist s ++ h /\ Forall host_word (v_eps (s_vars s4)) /\ v_auto4 (s_vars s4) = v_auto4 (s_vars s) /\
        v_auto6 (s_vars s4) = v_auto6 (s_vars s) /\ (forall h0, rests_on h0 (s_vars s) -> rests_on (h0 ++ h) (s_vars s4)) /\
        forall B T T', kernel T h T' -> not_occupied B ifc h -> sound B (s_vars s) T -> sound B (s_vars s4) T').
    { intros s3 s4 (h & E3 & W3 & A3 & B3 & R3 & K3) (k & E4 & W4 & A4 & B4 & R4 & K4). exists (h ++ k). split; [rewrite E4, E3, app_assoc; reflexivity|]. split; [exact W4|].
      split; [congruence|]. split; [congruence|]. split; [intros h0 R; rewrite app_assoc; apply R4, R3, R|]. intros B T T' K N S. apply kernel_app in K as (T1 & Ka & Kb).
      apply not_occ_app in N as [Na Nb]. eapply K4; [exact Kb|exact Nb|]. eapply K3; eassumption. }
    destruct up; cbn [negb] in H; [|injection H as <-; exact Z1]. apply thn_fin in H as ([] & s3 & H2 & H). unfold get in H2.
    assert (Z3 : exists h, s_hist s3 = s_hist s ++ h /\ Forall host_word (v_eps (s_vars s3)) /\ v_auto4 (s_vars s3) = v_auto4 (s_vars s) /\
        v_auto6 (s_vars s3) = v_auto6 (s_vars s) /\ (forall h0, rests_on h0 (s_vars s) -> rests_on (h0 ++ h) (s_vars s3)) /\
        forall B T T', kernel T h T' -> not_occupied B ifc h -> sound B (s_vars s) T -> sound B (s_vars s3) T').
    { destruct (v_auto4 (s_vars s2) || v_auto6 (s_vars s2)); [|injection H2 as <-; exact Z1]. eapply Seq; [exact Z1|].
      apply round_step in H2 as (h & E3 & W3 & A3 & B3 & R3 & K3); [|rewrite V2; exact W]. exists h. split; [exact E3|]. split; [exact W3|]. split; [exact A3|]. split; [exact B3|].
      split; [intros h0 _; apply rests_more, R3|exact K3]. }
    eapply Seq; [exact Z3|]. destruct Z3 as (h & _ & W3 & _). apply IH; assumption.
Qed.

(** After the first call and any number of route events, the host routes in the kernel are exactly those of before and one for each endpoint reported last whose
    family is routed automatically, by the gateway reported last, or into a black hole when there is none. *)
Lemma rests_routed : forall h v B T, rests_on h v -> held B v T -> exists a4 a6 ae g4 g6 E, last_asked ifc h a4 a6 ae /\ reports_gateway nl (a_output a4) g4 /\ reports_gateway nl (a_output a6) g6 /\
  reports_endpoints (a_output ae) E /\ routed_to B (v_auto4 v) (v_auto6 v) g4 g6 E T.
Proof.
  intros h v B T (a4 & a6 & ae & L & G4 & G6 & I1 & I2) H. exists a4, a6, ae, (v_gw4 v), (v_gw6 v), (fresh_eps ae). split; [exact L|].
  split; [rewrite G4; apply gateway_spec|]. split; [rewrite G6; apply gateway_spec|]. split; [apply hosts_spec|]. intros f e. destruct (H f e) as [H1 H2]. split.
  - intros [Hi Hw]. apply H1. split; [eapply I2; eassumption|exact Hw].
  - intro N. apply H2. intros [Hi Hw]. apply N. split; [apply I1, Hi|exact Hw].
Qed.
Lemma start_sound : forall dns a4 a6 tmp B, sound B (mk_vars dns a4 a6 [] [] [] tmp) B.
Proof. intros. split; [|intros e f []]. intros f e. cbn [v_eps]. split; [intros [[] _]|reflexivity]. Qed.
Theorem C63_kept : forall h0 dns auto4 auto6 tmp events s1 s2 h B T,
  set_endpoint_direct_route sys ifc nl (mk_sh h0 (mk_vars dns auto4 auto6 [] [] [] tmp)) = Fin tt s1 ->
  monitor_loop sys ifc nl events s1 = Fin tt s2 -> s_hist s2 = h0 ++ h ->
  kernel B h T -> not_occupied B ifc h ->
  exists a4 a6 ae g4 g6 E, last_asked ifc h a4 a6 ae /\ reports_gateway nl (a_output a4) g4 /\ reports_gateway nl (a_output a6) g6 /\
    reports_endpoints (a_output ae) E /\ routed_to B auto4 auto6 g4 g6 E T.
Proof.
  intros h0 dns auto4 auto6 tmp events s1 s2 h B T H1 H2 Eh K N. apply round_step in H1 as (h1 & E1 & W1 & A1 & B1 & R1 & K1); [|constructor].
  apply monitor_step in H2 as (h2 & E2 & W2 & A2 & B2 & R2 & K2); [|exact W1]. cbn [s_hist s_vars v_auto4 v_auto6] in *.
  assert (Ex : h = h1 ++ h2) by (apply (app_inv_head h0); rewrite <- Eh, E2, E1, <- app_assoc; reflexivity). subst h. apply kernel_app in K as (T1 & Ka & Kb). apply not_occ_app in N as [Na Nb].
  pose proof (K2 B T1 T Kb Nb (K1 B B T1 Ka Na (start_sound dns auto4 auto6 tmp B))) as [HT _]. specialize (R2 h1 R1).
  destruct (rests_routed _ _ B T R2 HT) as (a4 & a6 & ae & g4 & g6 & E & R). rewrite B2, A2, B1, A1 in R. exists a4, a6, ae, g4, g6, E. exact R.
Qed.

(** When the interface is gone or the monitor is told to end, the host routes are those of before, except that routes netstat says go by the interface are deleted
    too. *)
Theorem C63_removed : forall h0 dns auto4 auto6 tmp events s1 s2 s3 h B T, device_word ifc ->
  set_endpoint_direct_route sys ifc nl (mk_sh h0 (mk_vars dns auto4 auto6 [] [] [] tmp)) = Fin tt s1 ->
  monitor_loop sys ifc nl events s1 = Fin tt s2 -> del_routes sys ifc s2 = Fin tt s3 -> s_hist s3 = h0 ++ h ->
  kernel B h T -> not_occupied B ifc h ->
  exists a4 h4 a6 h6, s_hist s3 = s_hist s2 ++ [(ask_routes F4, a4)] ++ h4 ++ [(ask_routes F6, a6)] ++ h6 /\
    forall f e, (fits f e /\ names_route f ifc (a_output (match f with F4 => a4 | F6 => a6 end)) e -> T f e = None) /\
                (~ (fits f e /\ names_route f ifc (a_output (match f with F4 => a4 | F6 => a6 end)) e) -> T f e = B f e).
Proof.
  intros h0 dns auto4 auto6 tmp events s1 s2 s3 h B T D H1 H2 H3 Eh K N. apply round_step in H1 as (h1 & E1 & W1 & A1 & B1 & R1 & K1); [|constructor].
  apply monitor_step in H2 as (h2 & E2 & W2 & A2 & B2 & R2 & K2); [|exact W1]. apply del_routes_runs in H3 as (a4 & h4 & a6 & h6 & E3 & V3 & _ & _ & G); [|exact D]. cbn [s_hist s_vars v_auto4 v_auto6] in *.
  exists a4, h4, a6, h6. split; [exact E3|]. set (k := [(ask_routes F4, a4)] ++ h4 ++ [(ask_routes F6, a6)] ++ h6) in *.
  assert (Ex : h = h1 ++ h2 ++ k) by (apply (app_inv_head h0); rewrite <- Eh, E3, E2, E1, <- !app_assoc; reflexivity). subst h. clearbody k.
  apply kernel_app in K as (T1 & Ka & K). apply kernel_app in K as (T2 & Kb & Kc). apply not_occ_app in N as [Na N]. apply not_occ_app in N as [Nb _].
  pose proof (K2 B T1 T2 Kb Nb (K1 B B T1 Ka Na (start_sound dns auto4 auto6 tmp B))) as [HT C]. intros f e. destruct (G T2 T Kc f e) as [G1 G2]. destruct (HT f e) as [I1 I2]. split.
  - intros [Hf Hn]. apply G1. auto.
  - intro Nn. destruct (in_dec (list_eq_dec Z.eq_dec) e (v_eps (s_vars s2))) as [Hi|Hi].
    + destruct (fits_dec f e) as [Hf|Hf]; [rewrite G1 by auto; symmetry; apply C; assumption|]. rewrite G2 by tauto. apply I2. intros [_ [X _]]. contradiction.
    + rewrite G2 by tauto. apply I2. tauto.
Qed.

(** A round that is told nothing new runs no route command: the routes it sets itself, which are events too, do not make it run again and again. *)
Theorem C63_stable : forall s s1 s2, Forall host_word (v_eps (s_vars s)) ->
  set_endpoint_direct_route sys ifc nl s = Fin tt s1 -> set_endpoint_direct_route sys ifc nl s1 = Fin tt s2 ->
  exists a4 a6 ae h b4 b6 be k,
    s_hist s1 = s_hist s ++ [(ask_routes F4, a4); (ask_routes F6, a6); (ask_endpoints ifc, ae)] ++ h /\
    s_hist s2 = s_hist s1 ++ [(ask_routes F4, b4); (ask_routes F6, b6); (ask_endpoints ifc, be)] ++ k /\
    (forall g4 g6 E, reports_gateway nl (a_output a4) g4 -> reports_gateway nl (a_output b4) g4 -> reports_gateway nl (a_output a6) g6 -> reports_gateway nl (a_output b6) g6 ->
       reports_endpoints (a_output ae) E -> reports_endpoints (a_output be) E -> k = [] /\ s_vars s2 = s_vars s1).
Proof.
  intros s s1 s2 W H1 H2. apply round_runs in H1 as (a4 & a6 & ae & h1 & h2 & E1 & _ & _ & H1). apply round_runs in H2 as (b4 & b6 & be & k1 & k2 & E2 & _ & _ & H2).
  exists a4, a6, ae, (h1 ++ h2), b4, b6, be, (k1 ++ k2). split; [exact E1|]. split; [exact E2|]. intros g4 g6 E Ra4 Rb4 Ra6 Rb6 Rae Rbe. cbn zeta in H1, H2. destruct H1 as (V1 & _). destruct H2 as (V2 & _ & N1 & _ & N2).
  assert (F4a : fresh_gw nl a4 = g4) by (eapply reports_gateway_fun; [apply gateway_spec|exact Ra4]). assert (F4b : fresh_gw nl b4 = g4) by (eapply reports_gateway_fun; [apply gateway_spec|exact Rb4]).
  assert (F6a : fresh_gw nl a6 = g6) by (eapply reports_gateway_fun; [apply gateway_spec|exact Ra6]). assert (F6b : fresh_gw nl b6 = g6) by (eapply reports_gateway_fun; [apply gateway_spec|exact Rb6]).
  assert (Fea : fresh_eps ae = E) by (eapply reports_endpoints_fun; [apply hosts_spec|exact Rae]). assert (Feb : fresh_eps be = E) by (eapply reports_endpoints_fun; [apply hosts_spec|exact Rbe]).
  assert (WE : Forall host_word E) by (rewrite <- Fea; apply hosts_words).
  unfold seen in *. rewrite F4a, F6a, Fea in V1. rewrite F4b, F6b, Feb in *. set (v0 := s_vars s) in *. cbn [v_eps with_eps v_auto4 v_auto6] in *.
  set (v := with_eps E (with_gw6 g6 (with_gw4 g4 v0))) in *. set (F := filter _ E) in V1. set (w := s_vars s1) in *.
  assert (Ev : with_eps E (with_gw6 g6 (with_gw4 g4 w)) = v) by (rewrite V1; reflexivity). rewrite Ev in *.
  assert (Ch : changed w v = false) by (rewrite V1; unfold changed; cbn [v_gw4 v_gw6 v with_eps with_gw4 with_gw6]; rewrite !beq_refl; reflexivity).
  assert (Ol : olds w v = F) by (unfold olds; rewrite Ch, V1; reflexivity). rewrite Ch, Ol in *. cbn [orb negb andb] in *.
  assert (WF : Forall host_word F) by (apply Forall_forall; intros e Hi; apply filter_In in Hi as [Hi _]; rewrite Forall_forall in WE; apply WE, Hi).
  assert (LF : forall e, In e E -> (listed_in e F = true <-> In e F)) by (intros e Hi; apply listed_iff; [rewrite Forall_forall in WE; apply WE, Hi|exact WF]).
  assert (Cv : forall e, In e E -> (listed_in e F || counted v e) = listed_in e F).
  { intros e Hi. destruct (counted v e) eqn:Ct; [|apply orb_false_r]. rewrite orb_true_r. symmetry. apply LF; [exact Hi|]. apply filter_In. split; [exact Hi|]. change (counted v e) with (counted v e). rewrite Ct. apply orb_true_r. }
  split.
  - rewrite N1, N2; [reflexivity| |].
    + apply forallb_forall. intros e Hi. specialize (Cv e Hi). destruct (counted v e); [|apply orb_true_r]. rewrite orb_true_r in Cv. rewrite <- Cv. reflexivity.
    + assert (X : forall l, (forall e, In e l -> In e E) -> filter (fun e => negb (listed_in e E)) l = []).
      { induction l as [|e l IH]; intro I; [reflexivity|]. cbn [filter]. assert (Le : listed_in e E = true) by (apply listed_iff; [rewrite Forall_forall in WE; apply WE, I; left; reflexivity|exact WE|apply I; left; reflexivity]).
        rewrite Le. cbn [negb]. apply IH. intros x Hx. apply I. right. exact Hx. }
      apply X. intros e Hi. apply filter_In in Hi. apply Hi.
  - rewrite V2, V1. f_equal. unfold F. apply filter_ext_in. intros e Hi. rewrite Cv by exact Hi. destruct (listed_in e F) eqn:Lf.
    + apply LF in Lf; [|exact Hi]. apply filter_In in Lf. symmetry. apply Lf.
    + apply not_true_iff_false in Lf. rewrite (LF e Hi) in Lf. symmetry. apply not_true_iff_false. intro X. apply Lf. apply filter_In. split; [exact Hi|exact X].
Qed.
End Life.

(** The endpoints the script sees are those of the peers, where "wg show" prints them. *)
Theorem C63_endpoints : forall E d out, wf_device d -> (forall a s, visible (se_scope E a s)) -> ugly_print E d (str "endpoints") false = Some out ->
  exists hosts, reports_endpoints out hosts /\ Forall2 names_host hosts (filter scopeless (map p_endpoint (d_peers d))).
Proof. intros E d out W S H. exists (BsdRoutes.hosts (read_complete out)). split; [apply hosts_spec|]. exact (hosts_device E d out W S H). Qed.

(** ** Runs against a kernel *)
(** An executable kernel, for examples. *)
Definition family (w : list Z) : option fam := if beq w (str "-inet") then Some F4 else if beq w (str "-inet6") then Some F6 else None.
Definition hole (f : fam) : list Z := match f with F4 => str "127.0.0.1" | F6 => str "::1" end.
Definition parse (c : command) : option (fam * list Z * option target) :=
  match c_input c, c_argv c with
  | [], [r; q; n; op; fl; e] =>
      if beq r (str "route") && beq q (str "-q") && beq n (str "-n") && beq op (str "delete")
      then match family fl with Some f => Some (f, e, None) | None => None end else None
  | [], [r; q; n; op; fl; e; x; y] =>
      if beq r (str "route") && beq q (str "-q") && beq n (str "-n") && beq op (str "add")
      then match family fl with
           | Some f => if beq x (str "-gateway") then Some (f, e, Some (Via y)) else if beq x (hole f) && beq y (str "-blackhole") then Some (f, e, Some Blackhole) else None
           | None => None
           end
      else None
  | _, _ => None
  end.
Lemma family_flag : forall w f, family w = Some f -> w = flag f.
Proof.
  intros w f H. unfold family in H. destruct (beq w (str "-inet")) eqn:E1; [injection H as <-; apply beq_eq; exact E1|]. destruct (beq w (str "-inet6")) eqn:E2; [|discriminate]. injection H as <-. apply beq_eq. exact E2.
Qed.
Lemma parse_sound : forall c f e r, parse c = Some (f, e, r) -> c = match r with Some t => adds f e t | None => deletes f e end.
Proof.
  intros [ws i] f e r H. unfold parse in H. cbn [c_argv c_input] in H. destruct i as [|? ?]; [|destruct ws as [|? [|? [|? [|? [|? [|? [|? [|? ?]]]]]]]]; discriminate].
  destruct ws as [|w1 [|w2 [|w3 [|w4 [|w5 [|w6 ws]]]]]]; try discriminate. destruct ws as [|w7 [|w8 [|w9 ws]]]; try discriminate.
  - destruct (_ && _) eqn:C; [|discriminate]. apply andb_true_iff in C as [C C4]. apply andb_true_iff in C as [C C3]. apply andb_true_iff in C as [C1 C2]. apply beq_eq in C1, C2, C3, C4.
    destruct (family w5) as [f0|] eqn:Ef; [|discriminate]. apply family_flag in Ef. assert (f0 = f) by congruence. assert (w6 = e) by congruence. assert (r = None) by congruence. subst. reflexivity.
  - destruct (_ && _) eqn:C; [|discriminate]. apply andb_true_iff in C as [C C4]. apply andb_true_iff in C as [C C3]. apply andb_true_iff in C as [C1 C2]. apply beq_eq in C1, C2, C3, C4.
    destruct (family w5) as [f0|] eqn:Ef; [|discriminate]. apply family_flag in Ef. destruct (beq w7 (str "-gateway")) eqn:E7.
    + apply beq_eq in E7. assert (f0 = f) by congruence. assert (w6 = e) by congruence. assert (Er : r = Some (Via w8)) by congruence. subst. reflexivity.
    + destruct (beq w7 (hole f0) && beq w8 (str "-blackhole")) eqn:E8; [|discriminate]. apply andb_true_iff in E8 as [E8 E9]. apply beq_eq in E8, E9.
      assert (f0 = f) by congruence. assert (w6 = e) by congruence. assert (Er : r = Some Blackhole) by congruence. subst. destruct f; reflexivity.
Qed.
Lemma parse_adds : forall f e t, parse (adds f e t) = Some (f, e, Some t).
Proof. intros [] e [g|]; reflexivity. Qed.
Lemma parse_deletes : forall f e, parse (deletes f e) = Some (f, e, None).
Proof. intros [] e; reflexivity. Qed.
Definition fitsb (f : fam) (e : list Z) : bool := match f with F4 => negb (has_char 58 e) | F6 => has_char 58 e end.
Lemma fitsb_iff : forall f e, fitsb f e = true <-> fits f e.
Proof. intros [] e; cbn [fitsb fits]; [rewrite negb_true_iff, <- not_true_iff_false, has_colon; tauto|apply has_colon]. Qed.
Definition is_fam (f g : fam) : bool := match f, g with F4, F4 | F6, F6 => true | _, _ => false end.
Definition upd (T : table) (f : fam) (e : list Z) (r : option target) : table := fun f1 e1 => if is_fam f1 f && beq e1 e then r else T f1 e1.
Lemma upd_set : forall T f e r, set_route T f e r (upd T f e r).
Proof.
  intros T f e r. unfold upd. split; [rewrite beq_refl; destruct f; reflexivity|]. intros f1 e1 N. destruct (is_fam f1 f && beq e1 e) eqn:C; [|reflexivity]. exfalso. apply N.
  apply andb_true_iff in C as [C1 C2]. apply beq_eq in C2. subst. destruct f1, f; try discriminate; reflexivity.
Qed.
Definition full (x : option target) : bool := match x with Some _ => true | None => false end.
(** Whether the command succeeds. *)
Definition works (T : table) (f : fam) (e : list Z) (r : option target) : bool := fitsb f e && (match r with Some _ => negb (full (T f e)) | None => full (T f e) end).
Definition once (T : table) (ev : event) : table := match parse (fst ev) with Some (f, e, r) => if works T f e r then upd T f e r else T | None => T end.
Definition after (T : table) (h : history) : table := fold_left once h T.
Definition okay1 (T : table) (ev : event) : bool := match parse (fst ev) with Some (f, e, r) => Bool.eqb (a_status (snd ev) =? 0) (works T f e r) | None => true end.
Fixpoint okay (T : table) (h : history) : bool := match h with [] => true | ev :: h' => okay1 T ev && okay (once T ev) h' end.
Lemma once_step : forall T ev, okay1 T ev = true -> kernel_step T ev (once T ev).
Proof.
  intros T [c a] H. unfold okay1, once in *. cbn [fst snd] in *. destruct (parse c) as [[[f e] r]|] eqn:P.
  - pose proof (parse_sound c f e r P) as Ec. unfold works in *. apply eqb_prop in H. destruct r as [t|]; subst c.
    + destruct (fitsb f e) eqn:Ff; cbn [andb] in *.
      * apply fitsb_iff in Ff. destruct (T f e) as [t'|] eqn:Et; cbn [full negb] in *.
        { apply ks_add_fails; [left; congruence|apply Z.eqb_neq; exact H|apply same_refl]. }
        apply ks_add; [exact Et|exact Ff|apply Z.eqb_eq; exact H|apply upd_set].
      * apply ks_add_fails; [right; rewrite <- fitsb_iff, Ff; discriminate|apply Z.eqb_neq; exact H|apply same_refl].
    + destruct (fitsb f e) eqn:Ff; cbn [andb] in *.
      * apply fitsb_iff in Ff. destruct (T f e) as [t'|] eqn:Et; cbn [full negb] in *.
        { apply ks_delete; [congruence|exact Ff|apply Z.eqb_eq; exact H|apply upd_set]. }
        apply ks_delete_fails; [left; exact Et|apply Z.eqb_neq; exact H|apply same_refl].
      * apply ks_delete_fails; [right; rewrite <- fitsb_iff, Ff; discriminate|apply Z.eqb_neq; exact H|apply same_refl].
  - apply ks_other; [| |apply same_refl].
    + intros f e t ->. rewrite parse_adds in P. discriminate.
    + intros f e ->. rewrite parse_deletes in P. discriminate.
Qed.
Lemma okay_kernel : forall h T, okay T h = true -> kernel T h (after T h).
Proof.
  induction h as [|ev h IH]; intros T H; cbn [okay] in H; [constructor; apply same_refl|]. apply andb_true_iff in H as [H1 H2]. unfold after. cbn [fold_left]. econstructor; [apply once_step, H1|apply IH, H2].
Qed.
(** A system with such a kernel.  The outputs of netstat and wg depend on how often they have been run. *)
Fixpoint same_words (a b : list (list Z)) : bool :=
  match a, b with [], [] => true | x :: a', y :: b' => beq x y && same_words a' b' | _, _ => false end.
Definition is (c d : command) : bool := same_words (c_argv c) (c_argv d).
Definition times (c : command) (h : history) : nat := List.length (filter (fun ev => is (fst ev) c) h).
Definition wg0 : list Z := str "wg0".
Definition sim (B : table) (gw eps : nat -> list Z) (hit : history -> command -> bool) : system := fun h c =>
  let sg := if hit h c then Some 143 else None in
  match parse c with
  | Some (f, e, r) => mk_answer (if works (after B h) f e r then 0 else 1) [] sg
  | None => mk_answer 0 (if is c (ask_routes F4) then gw (times c h) else if is c (ask_endpoints wg0) then eps (times c h) else []) sg
  end.
Definition netstat (g : list Z) : list Z := str "Destination Gateway Flags Netif" ++ [10] ++ str "default " ++ g ++ str " UGS em0" ++ [10].
Definition show_line (e : list Z) : list Z := str "xTIBA5rboUvnH4htodjb6e697QjLERt1NAB4mZqp8Dg=" ++ [9] ++ e ++ [10].
Definition never : history -> command -> bool := fun _ _ => false.
Definition empty : table := fun _ _ => None.
Definition start (a4 a6 : bool) : sh vars := mk_sh [] (mk_vars false a4 a6 [] [] [] []).
Definition state_of {A} (r : fin vars A) : sh vars := match r with Fin _ s | Quit _ s | Hit _ s | Spin s => s end.

(** Two endpoints; then one of them changes; then the gateway changes; then the interface goes down. *)
Definition ex_gw (n : nat) : list Z := netstat (match n with O | 1%nat => str "198.51.100.1" | _ => str "198.51.100.254" end).
Definition ex_eps (n : nat) : list Z := match n with O => show_line (str "192.0.2.1:51820") ++ show_line (str "[2001:db8::1]:51820") | _ => show_line (str "192.0.2.9:51820") ++ show_line (str "[2001:db8::1]:51820") end.
Definition ex_sys : system := sim empty ex_gw ex_eps never.
Definition ex_events : list (list Z) := [str "RTM_ADD: Add Route: len 200"; str "locks: inits:"; str "RTM_CHANGE: Change Metrics"].
Definition ex_s1 : sh vars := Eval vm_compute in state_of (set_endpoint_direct_route ex_sys wg0 false (start true true)).
Definition ex_s2 : sh vars := Eval vm_compute in state_of (monitor_loop ex_sys wg0 false ex_events ex_s1).
Definition ex_s3 : sh vars := Eval vm_compute in state_of (del_routes ex_sys wg0 ex_s2).
Example C63_run :
  set_endpoint_direct_route ex_sys wg0 false (start true true) = Fin tt ex_s1 /\ monitor_loop ex_sys wg0 false ex_events ex_s1 = Fin tt ex_s2 /\ del_routes ex_sys wg0 ex_s2 = Fin tt ex_s3 /\
  kernel empty (s_hist ex_s2) (after empty (s_hist ex_s2)) /\ not_occupied empty wg0 (s_hist ex_s3) /\
  after empty (s_hist ex_s1) F4 (str "192.0.2.1") = Some (Via (str "198.51.100.1")) /\ after empty (s_hist ex_s1) F6 (str "2001:db8::1") = Some Blackhole /\
  after empty (s_hist ex_s2) F4 (str "192.0.2.1") = None /\ after empty (s_hist ex_s2) F4 (str "192.0.2.9") = Some (Via (str "198.51.100.254")) /\
  kernel empty (s_hist ex_s3) (after empty (s_hist ex_s3)) /\ after empty (s_hist ex_s3) F4 (str "192.0.2.9") = None /\ device_word wg0.
Proof.
  split; [vm_compute; reflexivity|]. split; [vm_compute; reflexivity|]. split; [vm_compute; reflexivity|]. split; [apply okay_kernel; vm_compute; reflexivity|].
  split; [intros a E e f _ _ _ _; reflexivity|]. split; [vm_compute; reflexivity|]. split; [vm_compute; reflexivity|]. split; [vm_compute; reflexivity|]. split; [vm_compute; reflexivity|].
  split; [apply okay_kernel; vm_compute; reflexivity|]. split; [vm_compute; reflexivity|]. split; [discriminate|]. vm_compute. repeat constructor; (intros [X|X]; discriminate X) || discriminate.
Qed.

(** ** Where it goes wrong *)
(** When only IPv4 is routed automatically, an IPv6 endpoint is handed to "route add -inet" with the IPv4 gateway. *)
Theorem C63_family_refuted : ~ (forall sys ifc nl a4 a6 s1 f e t a,
  set_endpoint_direct_route sys ifc nl (start a4 a6) = Fin tt s1 -> In (adds f e t, a) (s_hist s1) -> fits f e).
Proof.
  intro H. set (S := set_endpoint_direct_route ex_sys wg0 false (start true false)).
  assert (X : S = Fin tt (state_of S) /\ In (adds F4 (str "2001:db8::1") (Via (str "198.51.100.1")), mk_answer 1 [] None) (s_hist (state_of S))).
  { split; [vm_compute; reflexivity|]. vm_compute. intuition. }
  destruct X as [X1 X2]. specialize (H ex_sys wg0 false true false _ _ _ _ _ X1 X2). cbn [fits] in H. apply H. vm_compute. tauto.
Qed.

(** A host route the user has to an endpoint is replaced when the interface comes up and gone when it goes down. *)
Definition users : table := upd empty F4 (str "192.0.2.1") (Some (Via (str "10.0.0.1"))).
Theorem C63_foreign_refuted : exists sys s1 s2 T1 T2,
  set_endpoint_direct_route sys wg0 false (start true true) = Fin tt s1 /\ del_routes sys wg0 s1 = Fin tt s2 /\
  kernel users (s_hist s1) T1 /\ kernel users (s_hist s2) T2 /\
  users F4 (str "192.0.2.1") = Some (Via (str "10.0.0.1")) /\ T1 F4 (str "192.0.2.1") = Some (Via (str "198.51.100.1")) /\ T2 F4 (str "192.0.2.1") = None.
Proof.
  set (sys := sim users ex_gw ex_eps never). set (S1 := set_endpoint_direct_route sys wg0 false (start true true)). set (S2 := del_routes sys wg0 (state_of S1)).
  exists sys, (state_of S1), (state_of S2), (after users (s_hist (state_of S1))), (after users (s_hist (state_of S2))).
  split; [vm_compute; reflexivity|]. split; [vm_compute; reflexivity|]. split; [apply okay_kernel; vm_compute; reflexivity|]. split; [apply okay_kernel; vm_compute; reflexivity|].
  split; [reflexivity|]. split; vm_compute; reflexivity.
Qed.

(** A signal that arrives after the endpoints have been read and before the old routes are deleted leaves a route behind. *)
Definition sg_eps (n : nat) : list Z := match n with O => show_line (str "192.0.2.1:51820") ++ show_line (str "192.0.2.2:51820") | _ => show_line (str "192.0.2.9:51820") end.
Definition sg_hit (h : history) (c : command) : bool := is c (deletes F4 (str "192.0.2.1")) && Nat.eqb (times (ask_endpoints wg0) h) 2.
Theorem C63_signal_refuted : exists sys s1 st s2 s3 T,
  set_endpoint_direct_route sys wg0 false (start true true) = Fin tt s1 /\
  set_endpoint_direct_route sys wg0 false s1 = Hit st s2 /\ del_routes sys wg0 s2 = Fin tt s3 /\
  kernel empty (s_hist s3) T /\ T F4 (str "192.0.2.2") = Some (Via (str "198.51.100.1")).
Proof.
  set (sys := sim empty ex_gw sg_eps sg_hit). set (S1 := set_endpoint_direct_route sys wg0 false (start true true)). set (S2 := set_endpoint_direct_route sys wg0 false (state_of S1)).
  set (S3 := del_routes sys wg0 (state_of S2)).
  exists sys, (state_of S1), 143, (state_of S2), (state_of S3), (after empty (s_hist (state_of S3))).
  split; [vm_compute; reflexivity|]. split; [vm_compute; reflexivity|]. split; [vm_compute; reflexivity|]. split; [apply okay_kernel; vm_compute; reflexivity|]. vm_compute; reflexivity.
Qed.

(** A route that could not be added is not tried again at the next event. *)
Definition failing : system := fun h c => match parse c with Some _ => mk_answer 1 [] None | None => sim empty (fun _ => ex_gw 0) (fun _ => ex_eps 0) never h c end.
Theorem C63_retry_refuted : exists sys s1 s2,
  set_endpoint_direct_route sys wg0 false (start true true) = Fin tt s1 /\ monitor_loop sys wg0 false [str "RTM_ADD"] s1 = Fin tt s2 /\
  (forall f e t a, In (adds f e t, a) (s_hist s1) -> a_status a <> 0) /\
  (exists t a, In (adds F4 (str "192.0.2.1") t, a) (s_hist s1)) /\
  (exists h, s_hist s2 = s_hist s1 ++ h /\ forall f e t a, ~ In (adds f e t, a) h).
Proof.
  set (S1 := set_endpoint_direct_route failing wg0 false (start true true)). set (S2 := monitor_loop failing wg0 false [str "RTM_ADD"] (state_of S1)).
  exists failing, (state_of S1), (state_of S2). split; [vm_compute; reflexivity|]. split; [vm_compute; reflexivity|].
  assert (L : forall l : history, forallb (fun ev => match parse (fst ev) with Some (_, _, Some _) => negb (a_status (snd ev) =? 0) | _ => true end) l = true -> forall f e t a, In (adds f e t, a) l -> a_status a <> 0).
  { intros l H f e t a Hi. rewrite forallb_forall in H. specialize (H _ Hi). cbn [fst snd] in H. rewrite parse_adds in H. apply negb_true_iff in H. apply Z.eqb_neq, H. }
  assert (L0 : forall l : history, forallb (fun ev => match parse (fst ev) with Some (_, _, Some _) => false | _ => true end) l = true -> forall f e t a, ~ In (adds f e t, a) l).
  { intros l H f e t a Hi. rewrite forallb_forall in H. specialize (H _ Hi). cbn [fst snd] in H. rewrite parse_adds in H. discriminate. }
  split; [apply L; vm_compute; reflexivity|]. split; [exists (Via (str "198.51.100.1")), (mk_answer 1 [] None); vm_compute; intuition|].
  exists (skipn (List.length (s_hist (state_of S1))) (s_hist (state_of S2))). split; [vm_compute; reflexivity|]. apply L0. vm_compute. reflexivity.
Qed.

Print Assumptions C63_kept.
Print Assumptions C63_removed.
Print Assumptions C63_stable.
Print Assumptions C63_endpoints.
Print Assumptions C63_family_refuted.
Print Assumptions C63_foreign_refuted.
Print Assumptions C63_signal_refuted.
Print Assumptions C63_retry_refuted.
