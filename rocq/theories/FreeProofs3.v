(** Proofs about wg-quick on FreeBSD: host routes, and taking things back. *)
From Coq Require Import String ZArith List Bool Lia.
From Verif Require Import Base Cstr CstrProofs Bash Quick QuickRun QuickSpec QuickRunSpec QuickReloadSpec QuickRouteSpec QuickUndoSpec QuickUpProofs PropQuickFirewall PropQuickUndo QuickSave
  QuickRouteProofs Sh BsdRoutes BsdRoutesSpec BsdRoutesProofs BsdRoutesProofs2 BsdRoutesProofs3 PropBsdRoutes FreeQuick FreeSpec FreeProofs FreeProofs2.
Import ListNotations.
Open Scope Z_scope.

Section More.
Variables (sys : system) (glob : list Z -> list (list Z)) (fuel : nat) (ifc : list Z) (o : options) (us d : list Z).
Notation goes := (goes ifc o d).
Ltac ne := solve [apply not_excused; vm_compute; intuition discriminate].

(** A fact about normal ends. *)
Lemma goes_when : forall A (m : act vars A) (D R : vars -> A -> history -> vars -> Prop), goes m D ->
  (forall s st s1, m s <> Quit st s1) ->
  (forall v, v_tmp v = d -> exists a h v1, D v a h v1 /\ ~ Forall fine h) ->
  (forall s a s1 h, m s = Fin a s1 -> s_hist s1 = s_hist s ++ h -> R (s_vars s) a h (s_vars s1)) ->
  goes m (fun v a h v1 => D v a h v1 /\ (Forall fine h -> R v a h v1)).
Proof.
  intros A m D R [T H] NQ T2 HR. split.
  - intros v Hv. destruct (T2 v Hv) as (a & h & v1 & X & N). exists a, h, v1. split; [exact X|]. intro F. destruct (N F).
  - intros s Hs. specialize (H s Hs). specialize (HR s). specialize (NQ s). destruct (m s) as [a s1|st s1|st s1|s1].
    + destruct H as (h & E & F & K & X). exists h. split; [exact E|]. split; [exact F|]. split; [exact K|]. split; [exact X|]. intros _. exact (HR a s1 h eq_refl E).
    + destruct (NQ st s1 eq_refl).
    + destruct H as (h & ev & E & F & K & Hb & a & h' & v' & X). exists h, ev. split; [exact E|]. split; [exact F|]. split; [exact K|]. split; [exact Hb|]. exists a, h', v'. split; [exact X|].
      intro F'. exfalso. apply Forall_app in F' as [_ F']. inversion F' as [|? ? [S _] _]; subst. rewrite Hb in S. discriminate S.
    + exact H.
Qed.
Definition never {A} (m : act vars A) : Prop := forall s st s1, m s <> Quit st s1.
Lemma never_thn : forall A B (m : act vars A) (f : A -> act vars B), never m -> (forall a, never (f a)) -> never (thn m f).
Proof. intros A B m f H1 H2 s st s1. unfold thn. specialize (H1 s). destruct (m s) as [a s2|x s2|x s2|s2]; [apply H2|intro E; destruct (H1 x s2 eq_refl)|discriminate|discriminate]. Qed.
Lemma never_call : forall c, never (call sys c).
Proof. intros c s st s1. unfold call. destruct (a_signal _); discriminate. Qed.
Lemma never_pure : forall A (a : A), never (pure a).
Proof. intros A a s st s1. discriminate. Qed.
Lemma never_feed : forall ws, never (feed sys ws).
Proof. intro ws. apply never_thn; [apply never_call|intro; apply never_pure]. Qed.
Lemma never_try : forall ws, never (try sys ws).
Proof. intro ws. apply never_thn; [apply never_call|intro; apply never_pure]. Qed.
Lemma never_put : forall g, never (put g).
Proof. intros g s st s1. discriminate. Qed.
Lemma never_get : forall A (f : vars -> act vars A), (forall v, never (f v)) -> never (get f).
Proof. intros A f H s st s1. apply H. Qed.
Lemma never_each : forall A (f : A -> act vars unit) l, (forall x, never (f x)) -> never (each f l).
Proof. intros A f l H. induction l as [|x l IH]; [apply never_pure|]. apply never_thn; [apply H|intro; exact IH]. Qed.

(** ** Host routes *)
Lemma excused_deletes : forall f e, excused (deletes f e).
Proof. intros f e. right. right. left. eauto. Qed.
Lemma excused_adds : forall f e t, excused (adds f e t).
Proof. intros f e t. right. left. eauto. Qed.
Lemma goes_drop : forall v0 e, goes (drop_route sys v0 e) (fun v _ h v1 => routing h /\ v1 = v).
Proof.
  intros v0 e. unfold drop_route.
  assert (K : forall f, goes (try sys [!"route"; !"-q"; !"-n"; !"delete"; flag f; e]) (fun v _ h v1 => routing h /\ v1 = v)).
  { intro f. eapply goes_conseq; [apply goes_try; [apply (excused_deletes f e)|reflexivity]|]. cbv beta. intros v _ h v1 _ (a & -> & ->). split; [|reflexivity].
    constructor; [right; exists f, e; reflexivity|constructor]. }
  destruct (has_char 58 e && v_auto6 v0); [exact (K F6)|]. destruct (v_auto4 v0); [exact (K F4)|]. eapply goes_conseq; [apply goes_pure|]. cbv beta. intros v a h v1 _ (_ & -> & ->). split; [constructor|reflexivity].
Qed.
Lemma Deach_routing : forall A (l : list A) h, Deach (fun _ h => routing h) l h -> routing h.
Proof. intros A l h H. induction H; [constructor|apply routing_app; assumption]. Qed.
Lemma goes_drops : forall v0 all old, goes (each (drop_old sys v0 all) old) (fun v _ h v1 => routing h /\ v1 = v).
Proof.
  intros v0 all old. eapply goes_conseq; [apply (goes_each _ _ _ _ _ (fun _ h => routing h))|].
  - intros x _. unfold drop_old. destruct (_ && _); [|apply goes_drop]. eapply goes_conseq; [apply goes_pure|]. cbv beta. intros v a h v1 _ (_ & -> & ->). split; [constructor|reflexivity].
  - cbv beta. intros v _ h v1 _ [H ->]. split; [eapply Deach_routing, H|reflexivity].
Qed.
Lemma goes_add_direct : forall v0 e, goes (add_direct sys v0 e) (fun v _ h v1 => routing h /\ v1 = v).
Proof.
  intros v0 e. unfold add_direct.
  assert (K : forall f t, goes (try sys (c_argv (adds f e t))) (fun v _ h v1 => routing h /\ v1 = v)).
  { intros f t. eapply goes_conseq; [apply goes_try; [apply (excused_adds f e t)|reflexivity]|]. cbv beta. intros v _ h v1 _ (a & -> & ->). split; [|reflexivity].
    constructor; [left; exists f, e, t; reflexivity|constructor]. }
  assert (K2 : forall f t, goes (try sys (c_argv (adds f e t)) ;~ pure [e]) (fun v _ h v1 => routing h /\ v1 = v)).
  { intros f t. eapply goes_conseq; [apply goes_thn; [apply K|intro; apply goes_pure|]|]; cbv beta; [intros v a h v1 Hv (_ & ->); exact Hv|].
    intros v a h v1 _ (x & h1 & v2 & h2 & -> & (R & ->) & _ & -> & ->). rewrite app_nil_r. auto. }
  destruct (has_char 58 e && v_auto6 v0); [destruct (v_gw6 v0) as [|x g]; [exact (K2 F6 Blackhole)|exact (K2 F6 (Via (x :: g)))]|].
  destruct (v_auto4 v0); [destruct (v_gw4 v0) as [|x g]; [exact (K2 F4 Blackhole)|exact (K2 F4 (Via (x :: g)))]|].
  eapply goes_conseq; [apply goes_pure|]. cbv beta. intros v a h v1 _ (_ & -> & ->). split; [constructor|reflexivity].
Qed.
Lemma goes_add_new : forall v0 all old eps, goes (add_new sys v0 all old eps) (fun v _ h v1 => routing h /\ v1 = v).
Proof.
  intros v0 all old eps. induction eps as [|e eps IH]; cbn [add_new].
  - eapply goes_conseq; [apply goes_pure|]. cbv beta. intros v a h v1 _ (_ & -> & ->). split; [constructor|reflexivity].
  - eapply goes_conseq; [apply (goes_thn _ _ _ _ _ _ _ (fun v _ h v1 => routing h /\ v1 = v)); [|intro a; apply goes_thn; [apply IH|intro b; apply goes_pure|]|]|]; cbv beta.
    + destruct (_ && _); [|apply goes_add_direct]. eapply goes_conseq; [apply goes_pure|]. cbv beta. intros v a h v1 _ (_ & -> & ->). split; [constructor|reflexivity].
    + intros v b h v1 Hv (_ & ->). exact Hv.
    + intros v b h v1 Hv (_ & ->). exact Hv.
    + intros v a h v1 _ (x & h1 & v2 & h2 & -> & (R1 & ->) & y & h3 & v3 & h4 & -> & (R2 & ->) & _ & -> & ->). rewrite app_nil_r. split; [apply routing_app; assumption|reflexivity].
Qed.
(** What a complete round achieves (C63). *)
Definition round_fact_nl (no_link : bool) (v : vars) (h : history) (v1 : vars) : Prop := Forall host_word (v_eps v) ->
  Forall host_word (v_eps v1) /\ v_auto4 v1 = v_auto4 v /\ v_auto6 v1 = v_auto6 v /\ rests_on ifc no_link h v1 /\
  forall B T T', kernel T h T' -> not_occupied B ifc h -> sound B v T -> sound B v1 T'.
Definition round_fact : vars -> history -> vars -> Prop := round_fact_nl false.
Lemma goes_round_nl : forall no_link, goes (set_endpoint_direct_route sys ifc no_link) (fun v _ h v1 => (host_routes ifc h /\ v_tmp v1 = v_tmp v) /\ (Forall fine h -> round_fact_nl no_link v h v1)).
Proof.
  intro no_link. apply (goes_when _ _ (fun v (_ : unit) h v1 => host_routes ifc h /\ v_tmp v1 = v_tmp v) (fun v _ h v1 => round_fact_nl no_link v h v1)).
  - unfold set_endpoint_direct_route. eapply goes_conseq; [apply (goes_get _ _ _ _ _ (fun _ v _ h v1 => host_routes ifc h /\ v_tmp v1 = v_tmp v))|cbv beta; intros v a h v1 _ H; exact H]. intro v0.
    set (Dg := fun (v : vars) (_ : unit) (h : history) (v1 : vars) => (exists a4 a6, h = [(ask_routes F4, a4); (ask_routes F6, a6)]) /\ v_tmp v1 = v_tmp v).
    set (De := fun (v : vars) (_ : unit) (h : history) (v1 : vars) => (exists ae, h = [(ask_endpoints ifc, ae)]) /\ v_tmp v1 = v_tmp v).
    eapply goes_conseq; [apply (goes_thn _ _ _ _ _ _ _ Dg); [|intro u1; apply (goes_thn _ _ _ _ _ _ _ De); [|intro u2;
      apply (goes_get _ _ _ _ _ (fun _ v _ h v1 => routing h /\ v_tmp v1 = v_tmp v))|]|]|]; cbv beta.
    + unfold collect_gateways, Dg. eapply goes_conseq; [apply goes_thn; [apply goes_feed; [asks|reflexivity]|intro t4; apply goes_thn; [apply goes_put; split; reflexivity|intro u; apply goes_thn;
        [apply goes_feed; [asks|reflexivity]|intro t6; apply goes_put; split; reflexivity|]|]|]|]; cbv beta.
      * intros v a h v1 Hv (r & _ & _ & ->). exact Hv.
      * intros v a h v1 Hv (_ & ->). exact Hv.
      * intros v a h v1 Hv (r & _ & _ & ->). exact Hv.
      * intros v a h v1 _ (x & h1 & v2 & h2 & -> & (a4 & -> & _ & ->) & y & h3 & v3 & h4 & -> & (-> & ->) & z & h5 & v5 & h6 & -> & (a6 & -> & _ & ->) & -> & ->).
        split; [exists a4, a6; reflexivity|reflexivity].
    + unfold collect_endpoints, De. eapply goes_conseq; [apply goes_thn; [apply goes_feed; [asks|reflexivity]|intro t; apply goes_put; split; reflexivity|]|]; cbv beta.
      * intros v a h v1 Hv (r & _ & _ & ->). exact Hv.
      * intros v a h v1 _ (x & h1 & v2 & h2 & -> & (ae & -> & _ & ->) & -> & ->). split; [exists ae; reflexivity|reflexivity].
    + intro v. eapply goes_conseq; [apply goes_thn; [apply goes_drops|intro u3; apply goes_thn; [apply goes_add_new|intro added; apply goes_put; split; reflexivity|]|]|]; cbv beta.
      * intros w a h v1 Hv (_ & ->). exact Hv.
      * intros w a h v1 Hv (_ & ->). exact Hv.
      * intros w a h v1 _ (x & h1 & v2 & h2 & -> & (R1 & ->) & y & h3 & v3 & h4 & -> & (R2 & ->) & -> & ->). rewrite app_nil_r. split; [apply routing_app; assumption|reflexivity].
    + unfold De. intros v a h v1 Hv (_ & E). congruence.
    + unfold Dg. intros v a h v1 Hv (_ & E). congruence.
    + unfold Dg, De. intros v a h v1 _ (x & h1 & v2 & h2 & -> & ((a4 & a6 & ->) & E1) & y & h3 & v3 & h4 & -> & ((ae & ->) & E2) & R & E3).
      split; [|congruence]. exists a4, a6, ae, h4. split; [reflexivity|]. exact R.
  - unfold set_endpoint_direct_route. apply never_get. intro v0. apply never_thn; [unfold collect_gateways; repeat (apply never_thn; [first [apply never_feed|apply never_put]|intro]); apply never_put|]. intros _.
    apply never_thn; [apply never_thn; [apply never_feed|intro; apply never_put]|]. intros _. apply never_get. intro v. cbv zeta.
    assert (Nd : forall v e, never (drop_route sys v e)) by (intros v' e; unfold drop_route; destruct (_ && _); [apply never_try|]; destruct (v_auto4 v'); [apply never_try|apply never_pure]).
    apply never_thn; [apply never_each; intro e; unfold drop_old; destruct (_ && _); [apply never_pure|apply Nd]|]. intros _. apply never_thn; [|intro; apply never_put].
    generalize (negb (beq (v_gw4 v0) (v_gw4 v)) || negb (beq (v_gw6 v0) (v_gw6 v))). intro all. generalize (if all then merge (v_eps v0) (v_eps v) else v_eps v0). intro old.
    induction (v_eps v) as [|e eps IH]; cbn [add_new]; [apply never_pure|]. apply never_thn; [|intro; apply never_thn; [exact IH|intro; apply never_pure]].
    destruct (_ && _); [apply never_pure|]. unfold add_direct. destruct (_ && _); [destruct (v_gw6 v); (apply never_thn; [apply never_try|intro; apply never_pure])|].
    destruct (v_auto4 v); [destruct (v_gw4 v); (apply never_thn; [apply never_try|intro; apply never_pure])|apply never_pure].
  - intros v Hv. set (b := mk_answer 0 [] (Some 1)). exists tt, [(ask_routes F4, b); (ask_routes F6, b); (ask_endpoints ifc, b)], v. split.
    + split; [|reflexivity]. exists b, b, b, []. split; [reflexivity|constructor].
    + intro F. inversion F as [|? ? [S _] _]; subst. discriminate S.
  - intros s a s1 h H E W. destruct a. apply round_step in H as (h' & E' & X); [|exact W]. assert (h = h') by (eapply app_inv_head; rewrite <- E; exact E'). subst h'. destruct X as (X1 & X2 & X3 & X4 & X5). auto.
Qed.
Lemma goes_round : goes (set_endpoint_direct_route sys ifc false) (fun v _ h v1 => (host_routes ifc h /\ v_tmp v1 = v_tmp v) /\ (Forall fine h -> round_fact v h v1)).
Proof. exact (goes_round_nl false). Qed.
Lemma goes_direct : goes (direct_routes sys ifc) (fun v _ h v1 => v_tmp v1 = v_tmp v /\
  (v_auto4 v = true \/ v_auto6 v = true -> host_routes ifc h /\ (Forall fine h -> round_fact v h v1)) /\
  (~ (v_auto4 v = true \/ v_auto6 v = true) -> h = [] /\ v1 = v)).
Proof.
  unfold direct_routes. eapply goes_conseq; [apply (goes_get _ _ _ _ _ (fun w v _ h v1 => v_tmp v1 = v_tmp v /\
    (v_auto4 w = true \/ v_auto6 w = true -> host_routes ifc h /\ (Forall fine h -> round_fact v h v1)) /\ (~ (v_auto4 w = true \/ v_auto6 w = true) -> h = [] /\ v1 = v)))|].
  - intro w. destruct (v_auto4 w || v_auto6 w) eqn:E.
    + apply orb_true_iff in E. eapply goes_conseq; [apply goes_round|]. cbv beta. intros v a h v1 _ [[H1 H2] H3]. split; [exact H2|]. split; [auto|]. intro N. destruct (N E).
    + apply orb_false_iff in E as [E1 E2]. eapply goes_conseq; [apply goes_pure|]. cbv beta. intros v a h v1 _ (_ & -> & ->). split; [reflexivity|]. split; [intros [X|X]; congruence|auto].
  - cbv beta. auto.
Qed.

(** ** Taking things back *)
Lemma goes_unset : goes (unset_dns sys ifc o) (fun v _ h v1 => v1 = v /\ (o_dns o = [] -> h = []) /\ (o_dns o <> [] -> exists a, h = [(unregister ifc, a)])).
Proof.
  unfold unset_dns. destruct (o_dns o) as [|x l].
  - eapply goes_conseq; [apply goes_pure|]. cbv beta. intros v a h v1 _ (_ & -> & ->). split; [reflexivity|]. split; [auto|]. intro N. contradiction.
  - eapply goes_conseq; [apply goes_must; [apply not_excused_resolvconf; discriminate|reflexivity]|]. cbv beta. intros v a h v1 _ (b & -> & ->). split; [reflexivity|]. split; [discriminate|]. intros _. exists b. reflexivity.
Qed.
Lemma goes_wait : forall n, goes (wait_gone sys ifc n) (fun v _ h v1 => until_gone ifc h /\ v1 = v).
Proof.
  assert (T : forall v : vars, exists (a : unit) h v1, until_gone ifc h /\ v1 = v).
  { intro v. exists tt, [(is_there ifc, mk_answer 1 [] None)], v. split; [constructor; discriminate|reflexivity]. }
  induction n as [|n IH].
  - split; [intros v _; apply T|]. intros s _. cbn. exists []. rewrite app_nil_r. reflexivity.
  - cbn [wait_gone]. set (D2 := fun (b : bool) (v : vars) (_ : unit) (h : history) (v1 : vars) =>
        (if b then exists a h', h = (wait, a) :: h' /\ until_gone ifc h' else h = []) /\ v1 = v).
    eapply goes_conseq; [eapply (goes_thn _ _ _ _ _ _ _ _ D2); [apply goes_holds; [left; right; left; exists ifc; reflexivity|reflexivity]| |]|].
    + intro b. unfold D2. destruct b.
      * eapply goes_conseq; [apply goes_thn; [apply goes_must; [ne|reflexivity]|intro u; apply IH|]|]; cbv beta.
        { intros v a h v1 Hv (r & _ & ->). exact Hv. }
        intros v a h v1 _ (x & h1 & v2 & h2 & -> & (r & -> & ->) & U & ->). split; [exists r, h2; split; [reflexivity|exact U]|reflexivity].
      * eapply goes_conseq; [apply goes_pure|]. cbv beta. intros v a h v1 _ (_ & -> & ->). auto.
    + cbv beta. intros v a h v1 Hv (r & _ & _ & ->). exact Hv.
    + cbv beta. unfold D2. intros v a h v1 _ (b & h1 & v2 & h2 & -> & (r & -> & -> & ->) & H & ->). split; [|reflexivity].
      destruct (Z.eqb_spec (a_status r) 0) as [E|E].
      * destruct H as (c & h' & -> & U). exact (ug_wait ifc r c h' E U).
      * rewrite H. exact (ug_gone ifc r E).
Qed.
Definition if_gone (h : history) (known : bool) : Prop := exists dns down, h = dns ++ down /\
  (known = true -> o_dns o <> [] -> exists b, dns = [(unregister ifc, b)]) /\ (known = false -> dns = []) /\ takes_down ifc down.
Lemma goes_del_if : goes (del_if sys fuel ifc o) (fun v _ h v1 => if_gone h (v_dns v) /\ v1 = v).
Proof.
  unfold del_if. set (D1 := fun (v : vars) (_ : unit) (h : history) (v1 : vars) => v1 = v /\ (v_dns v = true -> o_dns o <> [] -> exists b, h = [(unregister ifc, b)]) /\ (v_dns v = false -> h = [])).
  set (D2 := fun (b : bool) (v : vars) (_ : unit) (h : history) (v1 : vars) => (exists a, h = [(if b then remove_socket ifc else destroy ifc, a)]) /\ v1 = v).
  eapply goes_conseq; [eapply (goes_thn _ _ _ _ _ _ _ D1); [|intro u; apply goes_thn; [apply goes_holds; [asks|reflexivity]|intro b; eapply (goes_thn _ _ _ _ _ _ _ (D2 b)); [|intro u2; apply goes_wait|]|]|]|].
  - unfold D1. eapply goes_conseq; [apply (goes_get _ _ _ _ _ (fun w v _ h v1 => v1 = v /\ (v_dns w = true -> o_dns o <> [] -> exists b, h = [(unregister ifc, b)]) /\ (v_dns w = false -> h = [])))|cbv beta; auto].
    intro w. destruct (v_dns w).
    + eapply goes_conseq; [apply goes_unset|]. cbv beta. intros v a h v1 _ (-> & _ & H). split; [reflexivity|]. split; [auto|discriminate].
    + eapply goes_conseq; [apply goes_pure|]. cbv beta. intros v a h v1 _ (_ & -> & ->). split; [reflexivity|]. split; [discriminate|auto].
  - unfold D2. destruct b; (eapply goes_conseq; [apply goes_must; [first [ne|apply not_excused_ifconfig]|reflexivity]|]); cbv beta; intros v a h v1 _ (r & -> & ->); (split; [exists r; reflexivity|reflexivity]).
  - unfold D2. intros v a h v1 Hv (_ & ->). exact Hv.
  - cbv beta. intros v a h v1 Hv (r & _ & _ & ->). exact Hv.
  - unfold D1. intros v a h v1 Hv (-> & _). exact Hv.
  - unfold D1, D2. cbv beta. intros v a h v1 _ (x & h1 & v2 & h2 & -> & (-> & K1 & K2) & b & h3 & v3 & h4 & -> & (r & -> & Eb & ->) & y & h5 & v5 & h6 & -> & ((c & ->) & ->) & U & ->).
    split; [|reflexivity]. eexists h1, _. split; [reflexivity|]. split; [exact K1|]. split; [exact K2|].
    exists r, c, h6. split; [exact U|]. subst b. destruct (Z.eqb_spec (a_status r) 0) as [E|E]; [left|right]; (split; [exact E|reflexivity]).
Qed.
Definition deleting (h : history) : Prop := Forall (fun ev => only_asks (fst ev) \/ exists f e, fst ev = deletes f e) h.
(** What the complete removal of routes achieves. *)
Definition clear_fact (v : vars) (h : history) : Prop := device_word ifc -> exists a4 a6,
  In (ask_routes F4, a4) h /\ In (ask_routes F6, a6) h /\
  gone (fun f e => names_route f ifc (a_output (match f with F4 => a4 | F6 => a6 end)) e \/ In e (v_eps v)) h.
Lemma goes_del_routes : goes (del_routes sys ifc) (fun v _ h v1 => (deleting h /\ v1 = v) /\ (Forall fine h -> clear_fact v h)).
Proof.
  assert (Try : forall f e, goes (try sys [!"route"; !"-q"; !"-n"; !"delete"; flag f; e]) (fun v _ h v1 => deleting h /\ v1 = v)).
  { intros f e. eapply goes_conseq; [apply goes_try; [apply (excused_deletes f e)|reflexivity]|]. cbv beta. intros v _ h v1 _ (a & -> & ->). split; [|reflexivity].
    constructor; [right; exists f, e; reflexivity|constructor]. }
  assert (Dd : forall A (l : list A) h, Deach (fun _ h => deleting h) l h -> deleting h) by (intros A l h H; induction H; [constructor|apply Forall_app; auto]).
  assert (Loop : forall (f : list Z -> act vars unit) l, (forall e, goes (f e) (fun v _ h v1 => deleting h /\ v1 = v)) -> goes (each f l) (fun v _ h v1 => deleting h /\ v1 = v)).
  { intros f l H. eapply goes_conseq; [apply (goes_each _ _ _ _ _ (fun _ h => deleting h)); intros x _; apply H|]. cbv beta. intros v _ h v1 _ [X ->]. split; [eapply Dd, X|reflexivity]. }
  apply (goes_when _ _ (fun v (_ : unit) h v1 => deleting h /\ v1 = v) (fun v _ h v1 => clear_fact v h)).
  - unfold del_routes. eapply goes_conseq; [apply goes_thn; [apply goes_feed; [asks|reflexivity]|intro t4; apply goes_thn; [apply Loop; intro e; apply (Try F4)|intro u; apply goes_thn;
      [apply goes_feed; [asks|reflexivity]|intro t6; apply goes_thn; [apply Loop; intro e; apply (Try F6)|intro u2; apply (goes_get _ _ _ _ _ (fun _ v _ h v1 => deleting h /\ v1 = v)); intro w; apply Loop; intro e;
        unfold del_endpoint; destruct (has_char 58 e); [apply (Try F6)|apply (Try F4)]|]|]|]|]|]; cbv beta.
    1,3: intros v a h v1 Hv (_ & ->); exact Hv.
    1,2: intros v a h v1 Hv (r & _ & _ & ->); exact Hv.
    intros v a h v1 _ (x1 & h1 & v2 & h2 & -> & (a4 & -> & _ & ->) & x3 & h3 & v3 & h4 & -> & (D3 & ->) & x5 & h5 & v5 & h6 & -> & (a6 & -> & _ & ->) & x7 & h7 & v7 & h8 & -> & (D7 & ->) & D8 & ->).
    split; [|reflexivity]. assert (A : forall t b, asking [(argv [!"netstat"; !"-nr"; !"-f"; t], b)]) by (intros t b; constructor; [asking_word|constructor]).
    assert (A' : forall h, asking h -> deleting h) by (intros h F; eapply Forall_impl; [|exact F]; auto).
    apply Forall_app. split; [apply A', A|]. apply Forall_app. split; [exact D3|]. apply Forall_app. split; [apply A', A|]. apply Forall_app. auto.
  - unfold del_routes. apply never_thn; [apply never_feed|intro]. apply never_thn; [apply never_each; intro; apply never_try|intro]. apply never_thn; [apply never_feed|intro].
    apply never_thn; [apply never_each; intro; apply never_try|intro]. apply never_get. intro. apply never_each. intro. unfold del_endpoint. destruct (has_char 58 _); apply never_try.
  - intros v Hv. set (b := mk_answer 0 [] (Some 1)). exists tt, [(ask_routes F4, b)], v. split.
    + split; [|reflexivity]. constructor; [left; asking_word|constructor].
    + intro F. inversion F as [|? ? [S _] _]; subst. discriminate S.
  - intros s a s1 h H E W. destruct a. apply del_routes_runs in H as (a4 & h4 & a6 & h6 & E' & _ & _ & _ & G); [|exact W]. assert (h = [(ask_routes F4, a4)] ++ h4 ++ [(ask_routes F6, a6)] ++ h6) by (eapply app_inv_head; rewrite <- E; exact E').
    subst h. exists a4, a6. split; [left; reflexivity|]. split; [|exact G]. rewrite !in_app_iff. right. right. left. left. reflexivity.
Qed.
Hypothesis d_ne : d <> [].
Lemma goes_clean : goes (clean_temp sys) (fun v _ h v1 => (exists a, h = [(remove_dir d, a)]) /\ v1 = v).
Proof.
  split; [intros v _; exists tt, [(remove_dir d, mk_answer 0 [] None)], v; split; [exists (mk_answer 0 [] None); reflexivity|reflexivity]|].
  intros s Hs. assert (E : clean_temp sys s = must sys [!"rm"; !"-rf"; d] s). { unfold clean_temp, get. rewrite Hs. generalize d_ne; clear; generalize d; intros [|x l] N; [contradiction|reflexivity]. } rewrite E.
  assert (G : goes (must sys [!"rm"; !"-rf"; d]) (fun v _ h v1 => (exists a, h = [(remove_dir d, a)]) /\ v1 = v)).
  { eapply goes_conseq; [apply goes_must; [ne|reflexivity]|]. cbv beta. intros v a h v1 _ (r & -> & ->). split; [exists r; reflexivity|reflexivity]. }
  exact (proj2 G s Hs).
Qed.
(** The trap of cmd_up. *)
Definition undo_steps (known : bool) (eps : list (list Z)) (h : history) : Prop := exists h1 h2 a,
  h = h1 ++ h2 ++ [(remove_dir d, a)] /\ if_gone h1 known /\ deleting h2 /\ (Forall fine h2 -> device_word ifc -> exists a4 a6,
  In (ask_routes F4, a4) h2 /\ In (ask_routes F6, a6) h2 /\ gone (fun f e => names_route f ifc (a_output (match f with F4 => a4 | F6 => a6 end)) e \/ In e eps) h2).
Lemma goes_undo : goes (undo sys fuel ifc o) (fun v _ h v1 => undo_steps (v_dns v) (v_eps v) h /\ v1 = v).
Proof.
  unfold undo. eapply goes_conseq; [apply goes_thn; [apply goes_del_if|intro u; apply goes_thn; [apply goes_del_routes|intro u2; apply goes_clean|]|]|]; cbv beta.
  - intros v a h v1 Hv ((_ & ->) & _). exact Hv.
  - intros v a h v1 Hv (_ & ->). exact Hv.
  - intros v a h v1 _ (x & h1 & v2 & h2 & -> & (G & ->) & y & h3 & v3 & h4 & -> & ((D & ->) & C) & (b & ->) & ->). split; [|reflexivity].
    exists h1, h3, b. split; [reflexivity|]. split; [exact G|]. split; [exact D|]. exact C.
Qed.
End More.
