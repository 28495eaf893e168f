(** Proofs about wg-quick on OpenBSD: bringing the interface up, and taking that back. *)
From Coq Require Import String ZArith List Bool Lia.
From Verif Require Import Base Cstr CstrProofs Bash Quick QuickRun QuickSpec QuickRunSpec QuickReloadSpec QuickRouteSpec QuickMain Sh ShGoes BsdRoutes BsdRoutesSpec
  BsdRoutesProofs BsdRoutesProofs2 BsdRoutesProofs3 PropQuickReload FreeQuick OpenQuick OpenSpec OpenProofs OpenProofs2.
From Verif Require FreeSpec FreeProofs FreeProofs2 FreeProofs3 FreeProofs5 PropFree QuickUpProofs PropQuickFirewall.
Import FreeSpec (steps, mk_steps, p_pre, p_conf, p_addr, p_mtu, p_up, p_dns, p_list, p_routes, p_hosts, p_mon, p_post, all_steps, routes_all_of).
Import ListNotations.
Open Scope Z_scope.

Ltac asks := apply excused_bears; left; FreeProofs.asking_word.
Section Pieces.
Variables (as_1 : command -> Prop) (sys : system) (glob : list Z -> list (list Z)) (fuel : nat) (ifc : list Z) (o : options).
Notation goes := (ShGoes.goes bears as_1).
Notation go := (ShGoes.go bears as_1).

Lemma goes_go : forall A (m : act vars A) D G, goes m D -> go m D G.
Proof. intros A m D G H. eapply go_conseq; [exact H|auto|intros v h st v1 []]. Qed.
Lemma go_get_real : goes (get_real_interface sys ifc) (fun v r h v1 => exists a, h = [(list_all, a)] /\ r = scan ifc (fst (raw_lines (a_output a))) [] /\ v1 = v).
Proof.
  unfold get_real_interface. eapply goes_conseq; [apply goes_thn; [apply go_feed; right; left; reflexivity|intro a; apply go_pure]|].
  cbv beta. intros v a h v1 (r & h1 & v2 & h2 & -> & (b & -> & -> & ->) & -> & -> & ->). exists b. auto.
Qed.
(** ** Creating *)
Lemma taken_iff : forall out, contains exists_text (captured out) = true <-> number_taken out.
Proof. intro out. unfold number_taken. apply PropQuickFirewall.contains_iff. Qed.
Definition created (v : vars) (real : list Z) (h : history) (v1 : vars) : Prop := creation ifc h real /\ (device_word real /\ FreeSpec.literal real /\ real <> []) /\ v1 = v.
Definition not_created (v : vars) (h : history) (st : Z) (v1 : vars) : Prop := no_creation ifc h /\ st = 1 /\ v1 = v.
Definition sample : answer := mk_answer 0 [] None.
Lemma go_add_if : forall n, go (add_if sys ifc n) created not_created.
Proof.
  induction n as [|n IH]; cbn [add_if].
  - split; [|intro s; exact I]. intro v. eexists. left. exists (free_name (words (captured (a_output sample)))), v. split; [apply (cr_done ifc sample sample); [apply free_name_first|reflexivity]|]. split; [apply free_name_word|reflexivity].
  - set (Dk := fun (names : list Z) (a : answer) (v : vars) (r : list Z) (h : history) (v1 : vars) =>
      (a_status a = 0 /\ r = free_name (words names) /\ h = [] /\ v1 = v) \/ (a_status a <> 0 /\ contains exists_text (captured (a_output a)) = true /\ created v r h v1)).
    set (Gk := fun (a : answer) (v : vars) (h : history) (st : Z) (v1 : vars) =>
      a_status a <> 0 /\ ((contains exists_text (captured (a_output a)) = true /\ not_created v h st v1) \/ (contains exists_text (captured (a_output a)) = false /\ h = [] /\ st = 1 /\ v1 = v))).
    eapply go_conseq; [apply go_thn; [apply go_ask; asks|intro names; cbv zeta; apply (go_thn vars bears as_1 _ _ _ _ (fun v a h v1 => h = [(create (free_name (words names)) ifc, a)] /\ v1 = v) no_G (Dk names) Gk);
      [apply go_call; right; right; right; exists (free_name (words names)), ifc; reflexivity|intro a]]| |].
    + unfold Dk, Gk.
      cbv beta. destruct (Z.eqb_spec (a_status a) 0) as [E|E].
      * eapply go_conseq; [apply go_pure| |intros v h st v1 []]. cbv beta. intros v r h v1 (-> & -> & ->). auto.
      * destruct (contains exists_text (captured (a_output a))).
        -- eapply go_conseq; [exact IH| |]; cbv beta; [intros v r h v1 X; right; auto|intros v h st v1 X; split; [exact E|left; auto]].
        -- eapply go_conseq; [apply go_quit| |]; cbv beta; [intros v r h v1 []|]. intros v h st v1 (-> & -> & ->). split; [exact E|right; auto].
    + unfold Dk. cbv beta. intros v r h v1 (names & h1 & v2 & h2 & -> & (a & -> & -> & ->) & b & h3 & v3 & h4 & -> & (-> & ->) & [(E & -> & -> & ->)|(E & T & C & W & ->)]).
      * split; [apply (cr_done ifc a b); [apply free_name_first|exact E]|]. split; [apply free_name_word|reflexivity].
      * split; [|auto]. apply (cr_again ifc a b); [apply free_name_first|exact E|apply taken_iff, T|exact C].
    + unfold Gk. cbv beta. intros v h st v1 [[]|(names & h1 & v2 & h2 & -> & (a & -> & -> & ->) & [[]|(b & h3 & v3 & h4 & -> & (-> & ->) & E & [(T & C & -> & ->)|(T & -> & -> & ->)])])].
      * split; [|auto]. apply (nc_again ifc a b); [apply free_name_first|exact E|apply taken_iff, T|exact C].
      * split; [|auto]. apply (nc_fails ifc a b); [apply free_name_first|exact E|]. intro X. apply taken_iff in X. congruence.
Qed.
(** ** DNS *)
Lemma bears_runs : forall d, bears (argv [!"pgrep"; !"-qx"; str d]).
Proof. intro d. right. right. left. exists d. reflexivity. Qed.
Lemma join_is : forall ws, join_sp ws = glue [32] ws.
Proof. exact QuickUpProofs.join_glue. Qed.
Variable real : list Z.
Lemma go_dns : goes (set_dns sys glob ifc o real) (fun v _ h v1 => dns_steps glob real ifc o h /\ v1 = v).
Proof.
  unfold set_dns, dns_steps. destruct (o_dns o) as [|x l]; [eapply goes_conseq; [apply go_pure|]; cbv beta; intros v a h v1 (_ & -> & ->); auto|].
  assert (Nd : x :: l <> []) by discriminate. revert Nd. generalize (x :: l). intros ds Nd.
  eapply goes_conseq; [apply (goes_thn _ _ _ _ _ _ _ (fun v b h v1 => exists a, h = [(runs "unwind", a)] /\ b = (a_status a =? 0) /\ v1 = v)
    (fun uw v _ h v1 => (exists q h', h = q ++ h' /\ (if uw then q = [] else exists b, q = [(runs "resolvd", b)] /\ a_status b = 0) /\
        map fst h' = take_copy ifc :: (match o_search o with [] => [] | ds => [write_search ds] end) ++ [nameservers real (flat_map (expand glob) ds)]) /\ v1 = v \/
      (uw = false /\ (exists b, h = [(runs "resolvd", b)] /\ a_status b <> 0) /\ v1 = v)))|].
  - apply go_holds, bears_runs.
  - intro uw. eapply goes_conseq; [apply (goes_thn _ _ _ _ _ _ _ (fun v b h v1 => (if uw then h = [] /\ b = true else exists a, h = [(runs "resolvd", a)] /\ b = (a_status a =? 0)) /\ v1 = v)
      (fun rd v _ h v1 => (if rd : bool then map fst h = take_copy ifc :: (match o_search o with [] => [] | ds => [write_search ds] end) ++ [nameservers real (flat_map (expand glob) ds)] else h = []) /\ v1 = v))|].
    + destruct uw; [eapply goes_conseq; [apply go_pure|]; cbv beta; intros v a h v1 (-> & -> & ->); auto|]. eapply goes_conseq; [apply go_holds, bears_runs|]. cbv beta. intros v a h v1 (b & -> & -> & ->). split; [exists b; auto|reflexivity].
    + intro rd. destruct rd; [|eapply goes_conseq; [apply go_pure|]; cbv beta; intros v a h v1 (_ & -> & ->); auto].
      eapply goes_conseq; [apply goes_thn; [apply go_must; nb|intro u1; apply (goes_thn _ _ _ _ _ _ _ (fun v (_ : unit) h v1 => map fst h = (match o_search o with [] => [] | ds => [write_search ds] end) /\ v1 = v));
        [|intro u2; apply go_must; apply not_bears_nameserver]]|].
      * destruct (o_search o) as [|y m]; [eapply goes_conseq; [apply go_pure|]; cbv beta; intros v a h v1 (_ & -> & ->); auto|].
        eapply goes_conseq; [apply go_must_in; nb|]. cbv beta. intros v a h v1 (b & -> & ->). split; [|reflexivity]. unfold write_search. rewrite <- join_is. reflexivity.
      * cbv beta. intros v a h v1 (u & h1 & v2 & h2 & -> & (b & -> & ->) & u2 & h3 & v3 & h4 & -> & (M & ->) & c & -> & ->). split; [|reflexivity]. rewrite !map_app. exact (f_equal (fun l => take_copy ifc :: l ++ [nameservers real (flat_map (expand glob) ds)]) M).
    + cbv beta. intros v a h v1 (rd & h1 & v2 & h2 & -> & (H1 & ->) & H2 & ->). destruct uw.
      * destruct H1 as [-> ->]. left. split; [|reflexivity]. exists [], h2. auto.
      * destruct H1 as (b & -> & ->). destruct (Z.eqb_spec (a_status b) 0) as [E|E].
        -- left. split; [|reflexivity]. exists [(runs "resolvd", b)], h2. split; [reflexivity|]. split; [exists b; auto|exact H2].
        -- right. subst h2. split; [reflexivity|]. split; [|reflexivity]. exists b. auto.
  - cbv beta. intros v a h v1 (uw & h1 & v2 & h2 & -> & (r & -> & -> & ->) & H). destruct H as [((q & h' & -> & Hq & M) & ->)|(E & (b & -> & Eb) & ->)].
    + split; [|reflexivity]. right. right. split; [exact Nd|]. exists ((runs "unwind", r) :: q), h'. split; [reflexivity|]. split; [|exact M]. destruct (Z.eqb_spec (a_status r) 0) as [E|E].
      * subst q. left. exists r. auto.
      * destruct Hq as (b & -> & Eb). right. exists r, b. auto.
    + split; [|reflexivity]. right. left. split; [exact Nd|]. exists r, b. apply Z.eqb_neq in E. auto.
Qed.
(** ** Routes *)
Hypothesis lit : FreeSpec.literal real.
Definition refused (r : list Z) (v : vars) (h : history) (st : Z) (v1 : vars) : Prop := refuses o r /\ h = [] /\ st = 1 /\ v1 = v.
Lemma go_route : forall r, go (add_route sys o real r) (fun v _ h v1 => route_steps real o r h /\ FreeProofs2.flags o [r] v v1) (refused r).
Proof.
  intro r. unfold add_route. destruct (FreeProofs2.fits_inet r) as (f & F & _ & Ef).
  destruct (beq (o_table o) !"off") eqn:Eo.
  { apply beq_eq in Eo. eapply go_conseq; [apply go_pure| |intros v h st v1 []]. cbv beta. intros v a h v1 (_ & -> & ->). split; [apply ro_off, Eo|]. apply FreeProofs2.flags_same; [exact no_glob|exact []|].
    intros g ([A|A] & _); rewrite A in Eo; discriminate. }
  assert (No : o_table o <> str "off") by (intro K; rewrite K in Eo; discriminate Eo). rewrite (fits_has f r F). pose proof (first_addr_spec f o) as Fa.
  destruct (first_addr _ (o_addresses o)) as [|l0 l1].
  { eapply go_conseq; [apply go_quit|intros v a h v1 []|]. cbv beta. intros v h st v1 (-> & -> & ->). split; [|auto]. split; [exact No|]. exists f. auto. }
  revert Fa. generalize (l0 :: l1). clear l0 l1. intros loc Fa.
  destruct (auto_table o) eqn:Ea; cbn [negb].
  2:{ assert (Na : ~ FreeSpec.automatic o) by (rewrite <- FreeProofs2.automatic_iff; congruence).
      rewrite Ef. eapply go_conseq; [apply go_must; apply not_bears_table| |intros v h st v1 []]. cbv beta. intros v a h v1 (b & -> & ->).
      split; [apply ro_table; assumption|]. apply FreeProofs2.flags_same; [exact no_glob|exact []|]. intros g (A & _). exact (Na A). }
  apply FreeProofs2.automatic_iff in Ea. destruct (ends_with !"/0" r) eqn:Ed.
  - apply FreeProofs2.default_iff in Ed. apply goes_go. destruct f.
    + eapply goes_conseq; [apply goes_thn; [apply go_put|intro u1; apply goes_thn; [apply go_must; apply not_bears_route|intro u2; apply go_must; apply not_bears_route]]|].
      cbv beta. intros v a h v1 (x1 & h1 & v2 & h2 & -> & (-> & ->) & x2 & h3 & v3 & h4 & -> & (b & -> & ->) & b2 & -> & ->). split.
      { apply (ro_default real o r F4 loc b b2 (str "0.0.0.0/1") (str "128.0.0.0/1")); [exact Ea|exact F|exact Fa|exact Ed|reflexivity]. }
      assert (Y : routes_all_of o F4 [r]) by (split; [exact Ea|]; exists r; split; [left; reflexivity|auto]).
      assert (N : ~ routes_all_of o F6 [r]). { intros (_ & x & [<-|[]] & _ & K). exact (F K). }
      unfold FreeProofs2.flags, with_auto4. cbn [v_dns v_auto4 v_auto6 v_gw4 v_gw6 v_eps v_tmp]. repeat split; try tauto.
    + eapply goes_conseq; [apply goes_thn; [apply go_put|intro u1; apply goes_thn; [apply go_must; apply not_bears_route|intro u2; apply go_must; apply not_bears_route]]|].
      cbv beta. intros v a h v1 (x1 & h1 & v2 & h2 & -> & (-> & ->) & x2 & h3 & v3 & h4 & -> & (b & -> & ->) & b2 & -> & ->). split.
      { apply (ro_default real o r F6 loc b b2 (str "::/1") (str "8000::/1")); [exact Ea|exact F|exact Fa|exact Ed|reflexivity]. }
      assert (Y : routes_all_of o F6 [r]) by (split; [exact Ea|]; exists r; split; [left; reflexivity|auto]).
      assert (N : ~ routes_all_of o F4 [r]). { intros (_ & x & [<-|[]] & _ & K). exact (K F). }
      unfold FreeProofs2.flags, with_auto6. cbn [v_dns v_auto4 v_auto6 v_gw4 v_gw6 v_eps v_tmp]. repeat split; try tauto.
  - assert (Nd : ~ is_default r) by (rewrite <- FreeProofs2.default_iff; congruence). rewrite Ef. apply goes_go.
    assert (Fl : forall v, FreeProofs2.flags o [r] v v) by (intro v; apply FreeProofs2.flags_same; [exact no_glob|exact []|]; intros g (_ & D & _); exact (Nd D)).
    set (D2 := fun (out : list Z) (v : vars) (_ : unit) (h : history) (v1 : vars) => (somewhere (named_pattern real) out = true /\ h = [] \/ somewhere (named_pattern real) out = false /\ exists b, h = [(via_local f r loc, b)]) /\ v1 = v).
    eapply goes_conseq; [eapply (goes_thn _ _ _ _ _ _ _ _ D2); [apply go_ask; asks|]|].
    + intro out. unfold D2. destruct (somewhere (named_pattern real) out).
      * eapply goes_conseq; [apply go_pure|]. cbv beta. intros v a h v1 (_ & -> & ->). auto.
      * eapply goes_conseq; [apply go_must; apply not_bears_route|]. cbv beta. intros v a h v1 (b & -> & ->). split; [right; split; [reflexivity|exists b; reflexivity]|reflexivity].
    + cbv beta. unfold D2. intros v a h v1 (out & h1 & v2 & h2 & -> & (b & -> & -> & ->) & [(Em & ->)|(Em & c & ->)] & ->); (split; [|apply Fl]).
      * apply (ro_there real o r f loc); [exact Ea|exact F|exact Fa|exact Nd|]. apply FreeProofs2.named_literal; assumption.
      * apply (ro_add real o r f loc); [exact Ea|exact F|exact Fa|exact Nd|]. intro K. apply FreeProofs2.named_literal in K; [congruence|exact lit].
Qed.
Lemma all_routes : forall rs v h v1, Deach (fun r v h v1 => route_steps real o r h /\ FreeProofs2.flags o [r] v v1) rs v h v1 -> route_all real o rs h /\ FreeProofs2.flags o rs v v1.
Proof.
  intros rs v h v1 H. induction H as [v|r rs v v1 v2 h h' [R F] _ [R2 F2]].
  - split; [constructor|]. assert (X : forall f, ~ routes_all_of o f []) by (intros f (_ & x & [] & _)). pose proof (X F4). pose proof (X F6). unfold FreeProofs2.flags. repeat split; tauto.
  - split; [constructor; assumption|]. eapply FreeProofs2.flags_cons; [exact no_glob|exact []|exact F|exact F2].
Qed.
Definition listing (rs : list (list Z)) (h : history) : Prop := exists a b,
  h = [(show_aips real, a); (sort_command (unlines (route_lines glob (read_complete (a_output a)))), b)] /\ rs = expand glob (captured (a_output b)).
Lemma go_routes : go (add_routes sys glob o real) (fun v _ h v1 => exists rs h1 h2, h = h1 ++ h2 /\ listing rs h1 /\ route_all real o rs h2 /\ FreeProofs2.flags o rs v v1)
  (fun v h st v1 => st = 1 /\ exists rs h1 h2 rs1 r rs2, h = h1 ++ h2 /\ listing rs h1 /\ rs = rs1 ++ r :: rs2 /\ route_all real o rs1 h2 /\ refuses o r).
Proof.
  unfold add_routes. eapply go_conseq; [apply go_thn; [apply go_feed; asks|intro out; apply go_thn; [apply go_call; asks|intro b; apply (go_each _ _ _ _ _ (fun r v h v1 => route_steps real o r h /\ FreeProofs2.flags o [r] v v1) refused); intros x _; apply go_route]]| |].
  - cbv beta. intros v a h v1 (out & h1 & v2 & h2 & -> & (r & -> & -> & ->) & b & h3 & v3 & h4 & -> & (-> & ->) & D). apply all_routes in D as [R Fl].
    eexists _, _, h4. split; [cbn [app]; apply (app_comm_cons [_] h4 _)|]. split; [|split; [exact R|exact Fl]]. exists r, b. split; reflexivity.
  - cbv beta. intros v h st v1 [[]|(out & h1 & v2 & h2 & -> & (r & -> & -> & ->) & [[]|(b & h3 & v3 & h4 & -> & (-> & ->) & (l1 & x & l2 & k1 & v4 & k2 & El & -> & D & (Rf & -> & -> & ->)))])].
    split; [reflexivity|]. apply all_routes in D as [R _]. eexists _, _, k1, l1, x, l2. split; [cbn [app]; rewrite app_nil_r; apply (app_comm_cons [_] k1 _)|]. split; [exists r, b; split; [reflexivity|reflexivity]|]. split; [exact El|]. auto.
Qed.
(** ** All of it *)
Definition up_done (v : vars) (h : history) (v1 : vars) : Prop := v_auto4 v = false -> v_auto6 v = false -> exists p rs, h = all_steps p /\ in_order glob real ifc o rs p /\
  (Forall fine h -> FreeProofs5.up_complete real o v p rs v1).
Definition up_refused (v : vars) (h : history) (st : Z) (v1 : vars) : Prop := st = 1 /\ exists p rs, h = all_steps p /\ in_order_refused glob real ifc o rs p.
Lemma go_after : go (after_add_if sys glob ifc o real) (fun v _ h v1 => up_done v h v1) up_refused.
Proof.
  unfold after_add_if.
  eapply go_conseq; [apply go_thn; [apply go_hooks|intro u1; apply go_thn; [apply go_must_in; apply not_bears_wg; discriminate|intro u2; apply go_thn; [apply go_addresses|
    intro u3; apply go_thn; [apply go_mtu|intro u4; apply go_thn; [apply go_must; apply not_bears_ifconfig; discriminate|intro u5; apply go_thn; [apply go_dns|intro u6;
    apply go_thn; [apply go_routes|intro u7; eapply goes_thn; [apply go_direct|intro u8; apply goes_thn; [apply go_try; left; right; right; right; reflexivity|intro u9; apply go_hooks]]]]]]]]]| |]; cbv beta.
  all: try exact o.
  - intros v a h v1 (x1 & g1 & w1 & r1 & -> & (H1 & ->) & x2 & g2 & w2 & r2 & -> & (a2 & -> & ->) & x3 & g3 & w3 & r3 & -> & (H3 & ->) & x4 & g4 & w4 & r4 & -> & (H4 & ->) & x5 & g5 & w5 & r5 & -> & (a5 & -> & ->) &
      x6 & g6 & w6 & r6 & -> & (H6 & ->) & x7 & g7 & w7 & r7 & -> & (rs & ga & gb & -> & Hl & Hr & Fl) & x8 & g8 & w8 & r8 & -> & (H8 & N8) & x9 & g9 & w9 & r9 & -> & (a9 & -> & ->) & H10 & ->).
    intros A4 A6. destruct Fl as (_ & G4 & G6 & Ge & _ & F4' & F6'). rewrite A4 in F4'. rewrite A6 in F6'.
    assert (I4 : v_auto4 w7 = true <-> routes_all_of o F4 rs) by (rewrite F4'; split; [intros [X|X]; [discriminate X|exact X]|auto]).
    assert (I6 : v_auto6 w7 = true <-> routes_all_of o F6 rs) by (rewrite F6'; split; [intros [X|X]; [discriminate X|exact X]|auto]).
    assert (J : v_auto4 w7 = true \/ v_auto6 w7 = true <-> routes_all_of o F4 rs \/ routes_all_of o F6 rs) by (rewrite I4, I6; reflexivity).
    eexists (mk_steps g1 _ g3 g4 _ g6 ga gb g8 _ r9), rs. split; [unfold all_steps; cbn [p_pre p_conf p_addr p_mtu p_up p_dns p_list p_routes p_hosts p_mon p_post]; rewrite <- !app_assoc; reflexivity|].
    split.
    + unfold in_order, in_order_so_far. cbn [p_pre p_conf p_addr p_mtu p_up p_dns p_list p_routes p_hosts p_mon p_post].
      split; [split; [exact H1|]; split; [reflexivity|]; split; [exact H3|]; split; [exact H4|]; split; [reflexivity|]; split; [exact H6|]; exact Hl|]. split; [exact Hr|].
      split; [intro X; apply H8, J, X|]. split; [intro N; apply N8; rewrite J; exact N|]. split; [reflexivity|exact H10].
    + intro Fi. exists w7. split; [auto|]. cbn [p_hosts].
      split; [intro X; apply H8; [apply J, X|]|intro N; apply N8; rewrite J; exact N].
      rewrite !Forall_app in Fi. tauto.
  - unfold up_refused. intros v h st v1 H. repeat (destruct H as [H|H]; [destruct H|]; destruct H as (?u & ?g & ?w & ?r & -> & ?X & H)).
    destruct X as [Y1 ->]. destruct X0 as (a2 & -> & ->). destruct X1 as [Y2 ->]. destruct X2 as [Y3 ->]. destruct X3 as (a5 & -> & ->). destruct X4 as [Y5 ->].
    destruct H as [(-> & rs & h1 & h2 & rs1 & x & rs2 & -> & Hl & E & R & Rf)|(u7 & g7 & w7 & r7 & _ & _ & [])].
    split; [reflexivity|]. eexists (mk_steps g _ g1 g2 _ g4 h1 h2 [] [] []), rs. split; [unfold all_steps; cbn [p_pre p_conf p_addr p_mtu p_up p_dns p_list p_routes p_hosts p_mon p_post]; rewrite !app_nil_r; reflexivity|].
    unfold in_order_refused, in_order_so_far. cbn [p_pre p_conf p_addr p_mtu p_up p_dns p_list p_routes p_hosts p_mon p_post].
    split; [split; [exact Y1|]; split; [reflexivity|]; split; [exact Y2|]; split; [exact Y3|]; split; [reflexivity|]; split; [exact Y5|]; exact Hl|]. split; [eauto 6|auto].
Qed.
End Pieces.

(** ** Taking it back *)
Section Undo.
Variables (as_1 : command -> Prop) (sys : system) (ifc : list Z) (o : options).
Notation goes := (ShGoes.goes bears as_1).
Notation go := (ShGoes.go bears as_1).
Lemma go_unset : forall ri, goes (unset_dns sys ifc ri) (fun v _ h v1 => restoring ifc ri h /\ v1 = v).
Proof.
  intro ri. unfold unset_dns, restoring. eapply goes_conseq; [apply (goes_thn _ _ _ _ _ _ _ (fun v b h v1 => exists a, h = [(has_copy ifc, a)] /\ b = (a_status a =? 0) /\ v1 = v)
    (fun there v (_ : unit) h v1 => (if there : bool then exists b c, h = [(no_servers ri, b); (put_back ifc, c)] else h = []) /\ v1 = v))|].
  - apply go_holds. asks.
  - intro there. destruct there; [|eapply goes_conseq; [apply go_pure|]; cbv beta; intros v a h v1 (_ & -> & ->); auto].
    eapply goes_conseq; [apply goes_thn; [apply go_must; cbn [app]; apply not_bears_nameserver|intro u; apply go_must; nb]|].
    cbv beta. intros v a h v1 (u & h1 & v2 & h2 & -> & (b & -> & ->) & c & -> & ->). split; [|reflexivity]. exists b, c. destruct ri; reflexivity.
  - cbv beta. intros v a h v1 (there & h1 & v2 & h2 & -> & (r & -> & -> & ->) & H & ->). split; [|reflexivity]. destruct (Z.eqb_spec (a_status r) 0) as [E|E].
    + destruct H as (b & c & ->). right. exists r, b, c. auto.
    + subst h2. left. exists r. auto.
Qed.
Lemma go_undo : forall ri, ri <> [] -> device_word ri -> goes (undo sys ifc ri) (fun v _ h v1 => undoing ifc ri h /\ v1 = v).
Proof.
  intros ri N W. unfold undo, del_if, del_routes_of. destruct ri as [|r0 r1]; [congruence|]. revert W. generalize (r0 :: r1). intros ri W.
  eapply goes_conseq; [apply goes_thn; [apply goes_thn; [apply go_unset|intro; apply go_must; apply not_bears_ifconfig; discriminate]|intro; apply go_del_routes, W]|].
  1: exact o.
  cbv beta. intros v a h v1 (u & h1 & v2 & h2 & -> & (u2 & h3 & v3 & h4 & -> & (R & ->) & b & -> & ->) & D & ->). split; [|reflexivity]. exists h3, b, h2. rewrite <- app_assoc. auto.
Qed.
Lemma go_undo_early : go (undo sys ifc []) (fun _ _ _ _ => False) (fun v h st v1 => restoring ifc [] h /\ st = 1 /\ v1 = v).
Proof.
  unfold undo, del_if. eapply go_conseq; [apply go_thn; [apply go_thn; [apply go_unset|intro; apply go_quit]|intro; apply go_pure]| |].
  - cbv beta. intros v a h v1 (u & h1 & v2 & h2 & -> & (u2 & h3 & v3 & h4 & _ & _ & []) & _).
  - cbv beta. intros v h st v1 [[[]|(u & h1 & v2 & h2 & -> & (R & ->) & -> & -> & ->)]|(u & h1 & v2 & h2 & _ & _ & [])]. rewrite app_nil_r. auto.
Qed.
End Undo.
