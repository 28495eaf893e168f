(** Proofs about the host routes to the endpoints: the routing table. *)
From Coq Require Import String ZArith List Bool Lia.
From Verif Require Import Base Cstr CstrProofs Bash Quick QuickSpec QuickRun QuickReloadSpec QuickProofs PropQuick PropQuickFirewall Sh BsdRoutes BsdRoutesSpec BsdRoutesProofs.
Import ListNotations.
Open Scope Z_scope.

(** ** Membership by text *)
Lemma host_no_space : forall e, host_word e -> ~ In 32 e.
Proof. intros e [_ H] Hi. rewrite Forall_forall in H. specialize (H _ Hi). lia. Qed.
Definition spaced (l : list (list Z)) : list Z := concat (map (cons 32) l) ++ [32].
Lemma spaced_join : forall l, l <> [] -> 32 :: join_sp l ++ [32] = spaced l.
Proof.
  induction l as [|w l IH]; intro N; [contradiction|]. destruct l as [|x l]; [unfold spaced; cbn [map concat join_sp app]; rewrite app_nil_r; reflexivity|]. unfold spaced in *. cbn [join_sp map concat app] in *.
  rewrite <- !app_assoc. f_equal. f_equal. cbn [app]. apply IH. discriminate.
Qed.
Lemma sep_split : forall w e x y : list Z, ~ In 32 w -> ~ In 32 e -> w ++ 32 :: x = e ++ 32 :: y -> w = e /\ x = y.
Proof.
  induction w as [|c w IH]; intros e x y Hw He E; destruct e as [|d e]; cbn [app] in E.
  - split; [reflexivity|congruence].
  - exfalso. apply He. left. congruence.
  - exfalso. apply Hw. left. congruence.
  - assert (Ed : c = d) by congruence. assert (E' : w ++ 32 :: x = e ++ 32 :: y) by congruence. cbn [In] in *. destruct (IH e x y) as [A B]; [tauto|tauto|exact E'|]. subst. auto.
Qed.
Lemma spaced_in : forall e l, host_word e -> Forall host_word l -> ((exists a b, spaced l = a ++ (32 :: e ++ [32]) ++ b) <-> In e l).
Proof.
  intros e l He Hl. pose proof (host_no_space e He) as Ne. induction Hl as [|w l Hw Hl IH].
  - split; [|intros []]. intros (a & b & E). exfalso. apply (f_equal (@length Z)) in E. unfold spaced in E.
    repeat (cbn [map concat app length] in E; rewrite ?app_length in E). lia.
  - pose proof (host_no_space w Hw) as Nw. assert (S : spaced (w :: l) = 32 :: w ++ spaced l) by (unfold spaced; cbn [map concat app]; rewrite <- app_assoc; reflexivity).
    assert (S1 : exists r, spaced l = 32 :: r) by (destruct l; eexists; reflexivity). destruct S1 as (r & S1).
    cbn [In]. rewrite <- IH, S. clear IH. split.
    + intros (a & b & E). destruct a as [|c a].
      * left. cbn [app] in E. rewrite S1 in E. assert (E' : w ++ 32 :: r = e ++ 32 :: b) by (rewrite <- app_assoc in E; cbn [app] in E; congruence).
        destruct (sep_split w e r b Nw Ne E') as [-> _]. reflexivity.
      * right. cbn [app] in E. assert (E' : w ++ spaced l = a ++ 32 :: (e ++ [32]) ++ b) by congruence. clear E.
        revert a E'. clear - Nw. induction w as [|x w IH]; intros a E; [exists a, b; exact E|]. destruct a as [|y a]; cbn [app] in E.
        { exfalso. apply Nw. left. congruence. }
        apply (IH (fun H => Nw (or_intror H)) a). congruence.
    + intros [->|(a & b & E)].
      * exists [], (match r with _ => r end). cbn [app]. rewrite S1, <- app_assoc. reflexivity.
      * exists (32 :: w ++ a), b. rewrite E. cbn [app]. rewrite <- !app_assoc. reflexivity.
Qed.
Lemma listed_iff : forall e l, host_word e -> Forall host_word l -> (listed_in e l = true <-> In e l).
Proof.
  intros e l He Hl. unfold listed_in. rewrite contains_iff. destruct l as [|w l].
  - split; [|intros []]. intros (a & b & E). exfalso. apply (f_equal (@length Z)) in E. repeat (cbn [join_sp app length] in E; rewrite ?app_length in E).
    destruct He as [Hn _]. destruct e; [contradiction|]. cbn [length] in E. lia.
  - rewrite spaced_join by discriminate. apply spaced_in; assumption.
Qed.

(** ** The kernel *)
Lemma flag_inj : forall f g, flag f = flag g -> f = g.
Proof. intros [] []; intro H; try reflexivity; discriminate H. Qed.
Lemma adds_inj : forall f e t f' e' t', adds f e t = adds f' e' t' -> f = f' /\ e = e' /\ t = t'.
Proof.
  intros f e t f' e' t' H. assert (H1 : c_argv (adds f e t) = c_argv (adds f' e' t')) by (rewrite H; reflexivity). unfold adds, argv in H1. cbn [c_argv app] in H1.
  assert (Hf : flag f = flag f') by congruence. apply flag_inj in Hf as <-. assert (He : e = e') by congruence. subst e'. split; [reflexivity|]. split; [reflexivity|].
  destruct t as [g|], t' as [g'|]; [congruence| | |reflexivity]; destruct f; discriminate H1.
Qed.
Lemma deletes_inj : forall f e f' e', deletes f e = deletes f' e' -> f = f' /\ e = e'.
Proof.
  intros f e f' e' H. assert (H1 : c_argv (deletes f e) = c_argv (deletes f' e')) by (rewrite H; reflexivity). unfold deletes, argv in H1. cbn [c_argv] in H1.
  assert (Hf : flag f = flag f') by congruence. apply flag_inj in Hf as <-. split; congruence.
Qed.
Lemma adds_deletes : forall f e t f' e', adds f e t <> deletes f' e'.
Proof. intros f e t f' e' H. apply (f_equal c_argv) in H. unfold adds, deletes, argv in H. cbn [c_argv app] in H. discriminate H. Qed.

Lemma same_refl : forall T, same T T.
Proof. intros T f e. reflexivity. Qed.
Lemma step_adds : forall T f e t a T', kernel_step T (adds f e t, a) T' ->
  (fits f e /\ T f e = None /\ set_route T f e (Some t) T') \/ ((T f e <> None \/ ~ fits f e) /\ same T T').
Proof.
  intros T f e t a T' H. remember (adds f e t, a) as ev eqn:Ev.
  destruct H as [f0 e0 t0 a0 T0 H1 H2 H3 H4|f0 e0 t0 a0 T0 H1 H2 H3|f0 e0 a0 T0 H1 H2 H3 H4|f0 e0 a0 T0 H1 H2 H3|c a0 T0 H1 H2 H3].
  - assert (E : adds f0 e0 t0 = adds f e t) by congruence. apply adds_inj in E as (-> & -> & ->). left. auto.
  - assert (E : adds f0 e0 t0 = adds f e t) by congruence. apply adds_inj in E as (-> & -> & ->). right. auto.
  - assert (E : adds f e t = deletes f0 e0) by congruence. apply adds_deletes in E as [].
  - assert (E : adds f e t = deletes f0 e0) by congruence. apply adds_deletes in E as [].
  - exfalso. apply (H1 f e t). congruence.
Qed.
Lemma step_deletes : forall T f e a T', kernel_step T (deletes f e, a) T' ->
  (fits f e /\ T' f e = None /\ forall f1 e1, (f1, e1) <> (f, e) -> T' f1 e1 = T f1 e1) \/ (~ fits f e /\ same T T').
Proof.
  intros T f e a T' H. remember (deletes f e, a) as ev eqn:Ev.
  destruct H as [f0 e0 t0 a0 T0 H1 H2 H3 H4|f0 e0 t0 a0 T0 H1 H2 H3|f0 e0 a0 T0 H1 H2 H3 H4|f0 e0 a0 T0 H1 H2 H3|c a0 T0 H1 H2 H3].
  - assert (E : adds f0 e0 t0 = deletes f e) by congruence. apply adds_deletes in E as [].
  - assert (E : adds f0 e0 t0 = deletes f e) by congruence. apply adds_deletes in E as [].
  - assert (E : deletes f0 e0 = deletes f e) by congruence. apply deletes_inj in E as (-> & ->). left. destruct H4 as [H4 H5]. auto.
  - assert (E : deletes f0 e0 = deletes f e) by congruence. apply deletes_inj in E as (-> & ->). destruct H1 as [H1|H1]; [|right; auto].
    assert (D : fits f e \/ ~ fits f e) by (destruct f; cbn [fits]; destruct (in_dec Z.eq_dec 58 e); tauto). destruct D as [D|D]; [left|right; auto].
    split; [exact D|]. split; [rewrite H3; exact H1|]. intros f1 e1 _. apply H3.
  - exfalso. apply (H2 f e). congruence.
Qed.
Definition route_command (c : command) : Prop := (exists f e t, c = adds f e t) \/ (exists f e, c = deletes f e).
Lemma step_other : forall T c a T', kernel_step T (c, a) T' -> ~ route_command c -> same T T'.
Proof.
  intros T c a T' H N. remember (c, a) as ev eqn:Ev.
  destruct H as [f0 e0 t0 a0 T0 H1 H2 H3 H4|f0 e0 t0 a0 T0 H1 H2 H3|f0 e0 a0 T0 H1 H2 H3 H4|f0 e0 a0 T0 H1 H2 H3|c0 a0 T0 H1 H2 H3];
    try assumption; exfalso; apply N; [left; exists f0, e0, t0; congruence|right; exists f0, e0; congruence].
Qed.
Lemma kernel_app : forall h1 h2 T T', kernel T (h1 ++ h2) T' -> exists T1, kernel T h1 T1 /\ kernel T1 h2 T'.
Proof.
  induction h1 as [|ev h1 IH]; intros h2 T T' H; cbn [app] in H.
  - exists T. split; [constructor; apply same_refl|exact H].
  - inversion H as [|T0 ev0 T1 h T2 H1 H2]; subst. destruct (IH h2 T1 T' H2) as (T3 & H3 & H4). exists T3. split; [econstructor; eauto|exact H4].
Qed.
Lemma kernel_nil : forall T T', kernel T [] T' -> same T T'.
Proof. intros T T' H. inversion H; subst; assumption. Qed.
Lemma kernel_one : forall T ev T', kernel T [ev] T' -> exists T1, kernel_step T ev T1 /\ same T1 T'.
Proof. intros T ev T' H. inversion H as [|T0 ev0 T1 h T2 H1 H2]; subst. exists T1. split; [exact H1|]. apply kernel_nil, H2. Qed.
Lemma kernel_others : forall h T T', kernel T h T' -> Forall (fun ev => ~ route_command (fst ev)) h -> same T T'.
Proof.
  induction h as [|[c a] h IH]; intros T T' H F; [apply kernel_nil, H|]. inversion F; subst. inversion H as [|T0 ev0 T1 h0 T2 H4 H5]; subst. intros f e.
  rewrite (IH T1 T' H5 H3 f e). exact (step_other _ _ _ _ H4 H2 f e).
Qed.

(** ** Pieces that leave the variables alone *)
Definition effect {A} (m : act vars A) (R : A -> history -> Prop) : Prop := forall s a s1, m s = Fin a s1 ->
  s_vars s1 = s_vars s /\ exists h, s_hist s1 = s_hist s ++ h /\ R a h.
Lemma effect_pure : forall A (a : A) (R : A -> history -> Prop), R a [] -> effect (pure a) R.
Proof. intros A a R H s b s1 E. injection E as <- <-. split; [reflexivity|]. exists []. rewrite app_nil_r. auto. Qed.
Lemma effect_thn : forall A B (m : act vars A) (f : A -> act vars B) (Q : A -> history -> Prop) (R : B -> history -> Prop),
  effect m Q -> (forall a h1, Q a h1 -> effect (f a) (fun b h2 => R b (h1 ++ h2))) -> effect (thn m f) R.
Proof.
  intros A B m f Q R Hm Hf s b s1 E. unfold thn in E. destruct (m s) as [a s2| | |] eqn:Em; try discriminate.
  destruct (Hm s a s2 Em) as (V1 & h1 & E1 & H1). destruct (Hf a h1 H1 s2 b s1 E) as (V2 & h2 & E2 & H2).
  split; [congruence|]. exists (h1 ++ h2). rewrite E2, E1, app_assoc. auto.
Qed.
Lemma effect_conseq : forall A (m : act vars A) (Q R : A -> history -> Prop), effect m Q -> (forall a h, Q a h -> R a h) -> effect m R.
Proof. intros A m Q R H HR s a s1 E. destruct (H s a s1 E) as (V1 & h & E1 & H1). split; [exact V1|]. exists h. auto. Qed.
Section System.
Variable sys : system.
Lemma effect_call : forall c, effect (call sys c) (fun a h => h = [(c, a)]).
Proof. intros c s a s1 E. unfold call in E. destruct (a_signal _); [discriminate|]. injection E as <- <-. split; [reflexivity|]. eexists. split; reflexivity. Qed.
Lemma effect_feed : forall ws, effect (feed sys ws) (fun out h => exists a, h = [(argv ws, a)] /\ out = a_output a).
Proof. intro ws. unfold feed. eapply effect_thn; [apply effect_call|]. cbn beta. intros a h ->. apply effect_pure. exists a. auto. Qed.
Lemma effect_holds : forall ws, effect (holds sys ws) (fun b h => exists a, h = [(argv ws, a)] /\ b = (a_status a =? 0)).
Proof. intro ws. unfold holds. eapply effect_thn; [apply effect_call|]. cbn beta. intros a h ->. apply effect_pure. exists a. auto. Qed.
Lemma effect_try : forall ws, effect (try sys ws) (fun _ h => exists a, h = [(argv ws, a)]).
Proof. intro ws. unfold try. eapply effect_thn; [apply effect_call|]. cbn beta. intros a h ->. apply effect_pure. exists a. reflexivity. Qed.

End System.

(** ** Removing and adding *)
Section Autos.
Variables auto4 auto6 : bool.
Lemma wanted_dec : forall f e, wanted auto4 auto6 f e \/ ~ wanted auto4 auto6 f e.
Proof.
  intros f e. unfold wanted, fits. destruct f, auto4, auto6, (in_dec Z.eq_dec 58 e); first [left; split; (assumption || reflexivity) | right; intros [? ?]; (contradiction || discriminate)].
Qed.
Lemma has_colon : forall e, has_char 58 e = true <-> In 58 e.
Proof. intro e. unfold has_char. rewrite existsb_exists. split; [intros (x & Hx & E); apply Z.eqb_eq in E as ->; exact Hx|]. intro H. exists 58. split; [exact H|reflexivity]. Qed.
(** The endpoints of [D] lose their route. *)
Definition removed (D : list (list Z)) (h : history) : Prop := forall T T', kernel T h T' -> forall f e,
  (In e D /\ wanted auto4 auto6 f e -> T' f e = None) /\ (~ (In e D /\ wanted auto4 auto6 f e) -> T' f e = T f e).
Lemma removed_nil : removed [] [].
Proof. intros T T' H f e. apply kernel_nil in H. split; [intros [[] _]|]. intros _. apply H. Qed.
Lemma removed_cons : forall x D h1 h2, removed [x] h1 -> removed D h2 -> removed (x :: D) (h1 ++ h2).
Proof.
  intros x D h1 h2 H1 H2 T T' H f e. apply kernel_app in H as (T1 & K1 & K2). destruct (H1 _ _ K1 f e) as [A1 A2], (H2 _ _ K2 f e) as [B1 B2].
  assert (Dec : (In e D /\ wanted auto4 auto6 f e) \/ ~ (In e D /\ wanted auto4 auto6 f e)).
  { destruct (in_dec (list_eq_dec Z.eq_dec) e D), (wanted_dec f e); tauto. }
  cbn [In] in *. split.
  - intros [Hi Hw]. destruct Dec as [Dc|Dc]; [auto|]. rewrite B2 by exact Dc. apply A1. split; [|exact Hw]. destruct Hi as [Hi|Hi]; [left; exact Hi|tauto].
  - intro N. rewrite B2 by tauto. apply A2. intros [[<-|[]] Hw]. apply N. auto.
Qed.
End Autos.

Section Loops.
Variable sys : system.
Definition routing (h : history) : Prop := Forall (fun ev => route_command (fst ev)) h.
Lemma drop_route_removed : forall v e, effect (drop_route sys v e) (fun _ h => removed (v_auto4 v) (v_auto6 v) [e] h /\ routing h).
Proof.
  intros v e. unfold drop_route.
  assert (G : forall f0 a, (forall f, wanted (v_auto4 v) (v_auto6 v) f e -> f = f0) -> (fits f0 e -> wanted (v_auto4 v) (v_auto6 v) f0 e) ->
    removed (v_auto4 v) (v_auto6 v) [e] [(deletes f0 e, a)] /\ routing [(deletes f0 e, a)]).
  { intros f0 a Hf Hw. split; [|constructor; [right; exists f0, e; reflexivity|constructor]].
    intros T T' K f e1. apply kernel_one in K as (T1 & K & S). destruct (step_deletes _ _ _ _ _ K) as [(F & D1 & D2)|(F & D)].
    - split.
      + intros [[<-|[]] W]. rewrite (Hf f W). rewrite (S f0 e). exact D1.
      + intro N. rewrite (S f e1). apply D2. intro E. assert (f = f0) by congruence. assert (e1 = e) by congruence. subst. apply N. split; [left; reflexivity|apply Hw, F].
    - split.
      + intros [[<-|[]] W]. exfalso. apply F. rewrite <- (Hf f W). apply W.
      + intros _. rewrite (S f e1). apply D. }
  assert (G0 : (forall f, ~ wanted (v_auto4 v) (v_auto6 v) f e) -> removed (v_auto4 v) (v_auto6 v) [e] [] /\ routing []).
  { intro N. split; [|constructor]. intros T T' K f e1. apply kernel_nil in K. split; [|intros _; apply K]. intros [[<-|[]] W]. destruct (N f W). }
  destruct (has_char 58 e && v_auto6 v) eqn:C6.
  - apply andb_true_iff in C6 as [C A6]. apply has_colon in C. eapply effect_conseq; [apply effect_try|]. cbn beta. intros _ h (a & ->). apply (G F6 a).
    + intros [] [W _]; [contradiction|reflexivity].
    + intro W. split; assumption.
  - assert (N6 : ~ wanted (v_auto4 v) (v_auto6 v) F6 e).
    { intros [W1 W2]. cbn [fits] in W1. apply has_colon in W1. rewrite W1, W2 in C6. discriminate. }
    assert (A4 : v_auto4 v = true \/ v_auto4 v = false) by (destruct (v_auto4 v); auto). destruct A4 as [A4|A4].
    + replace (if v_auto4 v then try sys [!"route"; !"-q"; !"-n"; !"delete"; !"-inet"; e] else pure tt) with (try (V := vars) sys (c_argv (deletes F4 e))) by (rewrite A4; reflexivity).
      eapply effect_conseq; [apply effect_try|]. cbn beta. intros _ h (a & ->). apply (G F4 a).
      * intros [] W; [reflexivity|contradiction].
      * intro W. split; [exact W|]. exact A4.
    + replace (if v_auto4 v then try sys [!"route"; !"-q"; !"-n"; !"delete"; !"-inet"; e] else pure tt) with (pure (V := vars) tt) by (rewrite A4; reflexivity).
      apply effect_pure. apply G0. intros [] W; [|contradiction]. destruct W as [_ W]. congruence.
Qed.

Lemma routing_app : forall h1 h2, routing h1 -> routing h2 -> routing (h1 ++ h2).
Proof. intros h1 h2 H1 H2. apply Forall_app. auto. Qed.
Lemma drop_loop : forall v all old, effect (each (drop_old sys v all) old)
  (fun _ h => removed (v_auto4 v) (v_auto6 v) (filter (fun e => all || negb (listed_in e (v_eps v))) old) h /\ routing h /\
              (filter (fun e => all || negb (listed_in e (v_eps v))) old = [] -> h = [])).
Proof.
  intros v all old. induction old as [|e old IH]; cbn [each filter].
  - apply effect_pure. split; [apply removed_nil|]. split; [constructor|reflexivity].
  - unfold drop_old at 1. replace (negb all && listed_in e (v_eps v)) with (negb (all || negb (listed_in e (v_eps v)))) by (destruct all, (listed_in e (v_eps v)); reflexivity).
    destruct (all || negb (listed_in e (v_eps v))); cbn [negb].
    + eapply effect_thn; [apply drop_route_removed|]. cbn beta. intros _ h1 (R1 & C1). eapply effect_conseq; [exact IH|]. cbn beta. intros _ h2 (R2 & C2 & _).
      split; [apply removed_cons; assumption|]. split; [apply routing_app; assumption|discriminate].
    + eapply effect_thn with (Q := fun _ h => h = []); [apply effect_pure; reflexivity|]. cbn beta. intros _ h1 ->. exact IH.
Qed.

(** The endpoints of [D] get a route where there is none. *)
Definition added_to (a4 a6 : bool) (g4 g6 : list Z) (D : list (list Z)) (h : history) : Prop := forall T T', kernel T h T' -> forall f e,
  (In e D /\ wanted a4 a6 f e -> match T f e with Some t => T' f e = Some t | None => exists t, aim (match f with F4 => g4 | F6 => g6 end) t /\ T' f e = Some t end) /\
  (~ (In e D /\ wanted a4 a6 f e) -> T' f e = T f e).
Lemma added_nil : forall a4 a6 g4 g6, added_to a4 a6 g4 g6 [] [].
Proof. intros a4 a6 g4 g6 T T' H f e. apply kernel_nil in H. split; [intros [[] _]|]. intros _. apply H. Qed.
Lemma added_cons : forall a4 a6 g4 g6 x D h1 h2, added_to a4 a6 g4 g6 [x] h1 -> added_to a4 a6 g4 g6 D h2 -> added_to a4 a6 g4 g6 (x :: D) (h1 ++ h2).
Proof.
  intros a4 a6 g4 g6 x D h1 h2 H1 H2 T T' H f e. apply kernel_app in H as (T1 & K1 & K2). destruct (H1 _ _ K1 f e) as [A1 A2], (H2 _ _ K2 f e) as [B1 B2].
  assert (Dec : (In e D /\ wanted a4 a6 f e) \/ ~ (In e D /\ wanted a4 a6 f e)).
  { destruct (in_dec (list_eq_dec Z.eq_dec) e D), (wanted_dec a4 a6 f e); tauto. }
  assert (Dec1 : (In e [x] /\ wanted a4 a6 f e) \/ ~ (In e [x] /\ wanted a4 a6 f e)).
  { destruct (in_dec (list_eq_dec Z.eq_dec) e [x]), (wanted_dec a4 a6 f e); tauto. }
  cbn [In] in *. split.
  - intros [Hi Hw]. destruct Dec1 as [D1|D1].
    + specialize (A1 D1). destruct (T f e) as [t|].
      * destruct Dec as [D2|D2]; [specialize (B1 D2); rewrite A1 in B1; exact B1|rewrite B2 by exact D2; exact A1].
      * destruct A1 as (t & At & A1). exists t. split; [exact At|]. destruct Dec as [D2|D2]; [specialize (B1 D2); rewrite A1 in B1; exact B1|rewrite B2 by exact D2; exact A1].
    + rewrite A2 in B1 by exact D1. apply B1. split; [|exact Hw]. destruct Hi as [Hi|Hi]; [|exact Hi]. exfalso. apply D1. auto.
  - intro N. rewrite B2 by tauto. apply A2. intros [[<-|[]] Hw]. apply N. auto.
Qed.
(** [v_auto4 v] also counts IPv6 endpoints as added. *)
Definition counted (v : vars) (e : list Z) : bool := (has_char 58 e && v_auto6 v) || v_auto4 v.
Lemma add_direct_added : forall v e, effect (add_direct sys v e)
  (fun r h => r = (if counted v e then [e] else []) /\ added_to (v_auto4 v) (v_auto6 v) (v_gw4 v) (v_gw6 v) [e] h /\ routing h /\ (counted v e = false -> h = [])).
Proof.
  intros v e. unfold add_direct, counted.
  assert (G : forall f0 t a, (forall f, wanted (v_auto4 v) (v_auto6 v) f e -> f = f0) -> (fits f0 e -> wanted (v_auto4 v) (v_auto6 v) f0 e) ->
    aim (match f0 with F4 => v_gw4 v | F6 => v_gw6 v end) t ->
    added_to (v_auto4 v) (v_auto6 v) (v_gw4 v) (v_gw6 v) [e] [(adds f0 e t, a)] /\ routing [(adds f0 e t, a)]).
  { intros f0 t a Hf Hw At. split; [|constructor; [left; exists f0, e, t; reflexivity|constructor]].
    intros T T' K f e1. apply kernel_one in K as (T1 & K & S). destruct (step_adds _ _ _ _ _ _ K) as [(F & N & D1 & D2)|(F & D)].
    - split.
      + intros [[<-|[]] W]. rewrite (Hf f W). rewrite N. exists t. split; [exact At|]. rewrite (S f0 e). exact D1.
      + intro N1. rewrite (S f e1). apply D2. intro E. assert (f = f0) by congruence. assert (e1 = e) by congruence. subst. apply N1. split; [left; reflexivity|apply Hw, F].
    - split.
      + intros [[<-|[]] W]. pose proof (Hf f W) as Ef. subst f. destruct F as [F|F]; [|exfalso; apply F; apply W].
        destruct (T f0 e) as [t1|] eqn:Et; [|contradiction]. rewrite (S f0 e), (D f0 e). exact Et.
      + intros _. rewrite (S f e1). apply D. }
  assert (G0 : (forall f, ~ wanted (v_auto4 v) (v_auto6 v) f e) -> added_to (v_auto4 v) (v_auto6 v) (v_gw4 v) (v_gw6 v) [e] [] /\ routing []).
  { intro N. split; [|constructor]. intros T T' K f e1. apply kernel_nil in K. split; [|intros _; apply K]. intros [[<-|[]] W]. destruct (N f W). }
  destruct (has_char 58 e && v_auto6 v) eqn:C6; cbn [orb].
  - apply andb_true_iff in C6 as [C A6]. apply has_colon in C.
    assert (W1 : forall f, wanted (v_auto4 v) (v_auto6 v) f e -> f = F6) by (intros [] [W _]; [contradiction|reflexivity]).
    assert (W2 : fits F6 e -> wanted (v_auto4 v) (v_auto6 v) F6 e) by (intro W; split; assumption).
    assert (K : forall t, aim (v_gw6 v) t -> effect (try sys (c_argv (adds F6 e t)) ;~ pure [e]) (fun r h => r = [e] /\
              added_to (v_auto4 v) (v_auto6 v) (v_gw4 v) (v_gw6 v) [e] h /\ routing h /\ (true = false -> h = []))).
    { intros t At. eapply effect_thn; [apply effect_try|]. cbn beta. intros _ h1 (a & ->). apply effect_pure. split; [reflexivity|]. rewrite app_nil_r.
      destruct (G F6 t a W1 W2 At) as [G1 G2]. split; [exact G1|]. split; [exact G2|discriminate]. }
    destruct (v_gw6 v) as [|g gs] eqn:Eg.
    + apply (K Blackhole). left. auto.
    + apply (K (Via (g :: gs))). right. split; [discriminate|reflexivity].
  - assert (N6 : ~ wanted (v_auto4 v) (v_auto6 v) F6 e).
    { intros [W1 W2]. cbn [fits] in W1. apply has_colon in W1. rewrite W1, W2 in C6. discriminate. }
    assert (A4 : v_auto4 v = true \/ v_auto4 v = false) by (destruct (v_auto4 v); auto). destruct A4 as [A4|A4].
    + assert (W1 : forall f, wanted (v_auto4 v) (v_auto6 v) f e -> f = F4) by (intros [] W; [reflexivity|contradiction]).
      assert (W2 : fits F4 e -> wanted (v_auto4 v) (v_auto6 v) F4 e) by (intro W; split; assumption).
      assert (K : forall t, aim (v_gw4 v) t -> effect (try sys (c_argv (adds F4 e t)) ;~ pure [e]) (fun r h => r = (if v_auto4 v then [e] else []) /\
                added_to (v_auto4 v) (v_auto6 v) (v_gw4 v) (v_gw6 v) [e] h /\ routing h /\ (v_auto4 v = false -> h = []))).
      { intros t At. eapply effect_thn; [apply effect_try|]. cbn beta. intros _ h1 (a & ->). apply effect_pure. split; [rewrite A4; reflexivity|]. rewrite app_nil_r.
        destruct (G F4 t a W1 W2 At) as [G1 G2]. split; [exact G1|]. split; [exact G2|congruence]. }
      match goal with |- effect (if v_auto4 v then ?X else ?Y) _ => replace (if v_auto4 v then X else Y) with X by (rewrite A4; reflexivity) end.
      destruct (v_gw4 v) as [|g gs] eqn:Eg.
      * apply (K Blackhole). left. auto.
      * apply (K (Via (g :: gs))). right. split; [discriminate|reflexivity].
    + match goal with |- effect (if v_auto4 v then ?X else ?Y) _ => replace (if v_auto4 v then X else Y) with Y by (rewrite A4; reflexivity) end.
      apply effect_pure. split; [rewrite A4; reflexivity|]. destruct G0 as [G1 G2]; [intros [] W; [|contradiction]; destruct W as [_ W]; congruence|]. auto.
Qed.

Lemma add_loop : forall v all old eps, effect (add_new sys v all old eps) (fun r h =>
  r = filter (fun e => (negb all && listed_in e old) || counted v e) eps /\
  added_to (v_auto4 v) (v_auto6 v) (v_gw4 v) (v_gw6 v) (filter (fun e => all || negb (listed_in e old)) eps) h /\ routing h /\
  (forallb (fun e => (negb all && listed_in e old) || negb (counted v e)) eps = true -> h = [])).
Proof.
  intros v all old eps. induction eps as [|e eps IH]; cbn [add_new filter forallb].
  - apply effect_pure. split; [reflexivity|]. split; [apply added_nil|]. split; [constructor|reflexivity].
  - replace (negb all && listed_in e old) with (negb (all || negb (listed_in e old))) by (destruct all, (listed_in e old); reflexivity).
    destruct (all || negb (listed_in e old)); cbn [negb orb].
    + eapply effect_thn; [apply add_direct_added|]. cbn beta. intros r1 h1 (E1 & R1 & C1 & Z1). eapply effect_thn; [exact IH|]. cbn beta. intros r2 h2 (E2 & R2 & C2 & Z2).
      apply effect_pure. rewrite app_nil_r. split; [rewrite E1, E2; destruct (counted v e); reflexivity|]. split; [apply added_cons; assumption|].
      split; [apply routing_app; assumption|]. intro H. apply andb_true_iff in H as [H1 H2]. apply negb_true_iff in H1. rewrite (Z1 H1), (Z2 H2). reflexivity.
    + eapply effect_thn with (Q := fun r h => r = [e] /\ h = []); [apply effect_pure; auto|]. cbn beta. intros r1 h1 (-> & ->). eapply effect_thn; [exact IH|]. cbn beta.
      intros r2 h2 (E2 & R2 & C2 & Z2). apply effect_pure. rewrite app_nil_r. cbn [app andb]. split; [rewrite E2; reflexivity|]. auto.
Qed.

Lemma merge_words : forall eps old, Forall host_word old -> Forall host_word eps -> Forall host_word (merge old eps).
Proof.
  induction eps as [|e eps IH]; intros old Ho He; cbn [merge]; [exact Ho|]. inversion He; subst. apply IH; [|assumption]. destruct (listed_in e old); [exact Ho|].
  apply Forall_app. split; [exact Ho|constructor; [assumption|constructor]].
Qed.
Lemma merge_in : forall eps old e, Forall host_word old -> Forall host_word eps -> (In e (merge old eps) <-> In e old \/ In e eps).
Proof.
  induction eps as [|x eps IH]; intros old e Ho He; cbn [merge In]; [tauto|]. inversion He as [|? ? Hx Hs]; subst.
  rewrite IH; [|destruct (listed_in x old); [exact Ho|apply Forall_app; split; [exact Ho|constructor; [assumption|constructor]]]|exact Hs].
  destruct (listed_in x old) eqn:L.
  - apply listed_iff in L; [|assumption|assumption]. split; [tauto|]. intros [H|[<-|H]]; tauto.
  - rewrite in_app_iff. cbn [In]. tauto.
Qed.
End Loops.
