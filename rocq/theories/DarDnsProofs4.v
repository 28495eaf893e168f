(** Proofs for DNS on macOS: the settings after set_dns. *)
From Coq Require Import String ZArith List Bool Lia Permutation.
From Verif Require Import Base Cstr CstrProofs Bash Quick QuickRun QuickSpec QuickRunSpec QuickRouteSpec QuickReloadSpec PropQuick PropQuickReload BsdRoutesProofs3 Sh DarDns DarDnsSpec DarDnsProofs DarDnsProofs2 DarDnsProofs3.
Import ListNotations.
Open Scope Z_scope.

Lemma look_key : forall k t, look k t <> [] -> In k (keys t).
Proof.
  intros k t. induction t as [|[x v] t IH]; cbn; [contradiction|]. destruct (beq k x) eqn:E; [intros _; left; apply beq_eq in E; congruence|intro H; right; apply IH, H].
Qed.
Lemma listed_other : forall k g ev, fst ev <> list_services -> listed k (g ++ [ev]) <-> listed k g.
Proof.
  intros k g ev H. split; [|apply listed_app]. intros (a & X & L). apply in_app_iff in X. destruct X as [X|[X|[]]]; [exists a; auto|]. subst ev. exfalso. apply H. reflexivity.
Qed.

Section Round.
Variable sys : system.
Variable order : history -> list (list Z) -> list (list Z).
Variables dns search : list (list Z).
Hypothesis ordered : some_order order.
Hypothesis some_dns : dns <> [].
Variable T : settings.
Variable h0 : history.
Variable x : list Z.
Variable names : list (list Z).
Definition any : pred := fun _ _ => True.

(** ** Collecting *)
Definition N1 : pred := fun h v => exists g, h = h0 ++ g /\ (forall k, listed k g <-> In k names) /\ forall T', effects T g T' -> T' x = T x.
Definition P1 (n : list Z) : pred := fun h v => N1 h v /\ exists g, h = h0 ++ g /\ ((exists T', effects T g T') -> In n (keys (d_dns v))).
Lemma shorter : forall g ev, (exists T', effects T (g ++ [ev]) T') -> exists T', effects T g T'.
Proof. intros g ev (T' & E). apply effects_app in E. destruct E as (T1 & E & _). eauto. Qed.
Lemma N1_get : forall o n h v a, o = !"-getdnsservers" \/ o = !"-getsearchdomains" -> N1 h v -> N1 (h ++ [(argv [!"networksetup"; o; n], a)]) v.
Proof.
  intros o n h v a Ho (g & -> & L & H). exists (g ++ [(argv [!"networksetup"; o; n], a)]). split; [rewrite app_assoc; reflexivity|]. split.
  - intro k. rewrite <- L. apply listed_other. destruct Ho as [-> | ->]; discriminate.
  - intros T' E. apply effects_app in E. destruct E as (T1 & E1 & E2). apply effects_1 in E2. destruct E2 as (T2 & E2 & E3). rewrite E3, <- (H _ E1).
    destruct Ho as [-> | ->]; [apply (effect_get_servers T1 n a T2 E2)|apply (effect_get_domains T1 n a T2 E2)].
Qed.
Lemma P1_get : forall m o n h v a, o = !"-getdnsservers" \/ o = !"-getsearchdomains" -> P1 m h v -> P1 m (h ++ [(argv [!"networksetup"; o; n], a)]) v.
Proof.
  intros m o n h v a Ho (H & g & -> & K). split; [apply N1_get; assumption|]. exists (g ++ [(argv [!"networksetup"; o; n], a)]). split; [rewrite app_assoc; reflexivity|]. intro E. apply K. eapply shorter. exact E.
Qed.
Lemma note_keys : forall n r v k, In k (keys (d_dns v)) -> In k (keys (d_dns (note_dns n r v))).
Proof. intros n r v k H. unfold note_dns. destruct r; [exact H|]. cbn [d_dns]. apply keys_store. right. exact H. Qed.
Lemma P1_note : forall m n r h v, P1 m h v -> P1 m h (note_dns n r v).
Proof. intros m n r h v (H & g & E & K). split; [exact H|]. exists g. split; [exact E|]. intro X. apply note_keys, K, X. Qed.
Lemma P1_note2 : forall m n r h v, P1 m h v -> P1 m h (note_search n r v).
Proof. intros m n r h v (H & g & E & K). split; [exact H|]. exists g. split; [exact E|]. intro X. unfold note_search. destruct r; apply K, X. Qed.
Lemma rule_kept : forall l m, rule (collect_one sys (pure tt) l) (P1 m) (fun _ => P1 m) any.
Proof.
  intros l m. unfold collect_one. destruct (service_name l) as [|c0 n0]; [intros s X; exact I|]. set (n := c0 :: n0). apply rule_get. intro d. destruct (look n (d_dns d)).
  2: { intros s (X & _). exact X. }
  apply (rule_thn _ _ _ _ _ (fun _ => P1 m)).
  { eapply rule_conseq; [apply (rule_response sys !"-getdnsservers" n (P1 m))|intros h v (H & _); exact H| |intros; exact I]. intros r h v (h1 & a & -> & _ & _ & H). apply P1_get; auto. }
  intro r. apply (rule_thn _ _ _ _ _ (fun _ => P1 m)); [intros s X; exact X|]. intro u. apply (rule_thn _ _ _ _ _ (fun _ => P1 m)).
  { intros s X. apply P1_note. exact X. }
  intro u2. apply (rule_thn _ _ _ _ _ (fun _ => P1 m)).
  { eapply rule_conseq; [apply (rule_response sys !"-getsearchdomains" n (P1 m))|auto| |intros; exact I]. intros r2 h v (h1 & a & -> & _ & _ & H). apply P1_get; auto. }
  intro r2. intros s X. apply P1_note2. exact X.
Qed.
Lemma rule_noted : forall l, rule (collect_one sys (pure tt) l) N1 (fun _ h v => N1 h v /\ P1 (service_name l) h v) any.
Proof.
  intros l. unfold collect_one. destruct (service_name l) as [|c0 n0]; [intros s X; exact I|]. set (n := c0 :: n0). apply rule_get. intro d. destruct (look n (d_dns d)) as [|z zs] eqn:Ln.
  2: { intros s (X & E). split; [exact X|]. split; [exact X|]. destruct X as (g & Eg & _). exists g. split; [exact Eg|]. intros _. rewrite E. apply look_key. rewrite Ln. discriminate. }
  set (M1 := fun (r : list Z) (h : history) (v : dvars) => N1 h v /\ exists g, h = h0 ++ g /\ ((exists T', effects T g T') -> r <> [])).
  apply (rule_thn _ _ _ _ _ M1).
  { eapply rule_conseq; [apply (rule_response sys !"-getdnsservers" n N1)|intros h v (H & _); exact H| |intros; exact I]. intros r h v (h1 & a & -> & Sa & -> & H). split; [apply N1_get; auto|].
    destruct H as (g & -> & _). exists (g ++ [(argv [!"networksetup"; !"-getdnsservers"; n], a)]). split; [rewrite app_assoc; reflexivity|]. intros (T' & E). apply effects_app in E. destruct E as (T1 & E1 & E2).
    apply effects_1 in E2. destruct E2 as (T2 & E2 & _). destruct (effect_get_servers T1 n a T2 E2) as (_ & Sh). eapply recalls_some, shown_recalls, Sh, Sa. }
  intro r. apply (rule_thn _ _ _ _ _ (fun _ => M1 r)); [intros s X; exact X|]. intro u. apply (rule_thn _ _ _ _ _ (fun _ => P1 n)).
  { intros s (X & g & E & K). split; [exact X|]. exists g. split; [exact E|]. intro Y. specialize (K Y). unfold put. cbn [s_vars]. unfold note_dns. destruct r; [contradiction|]. cbn [d_dns]. apply keys_store. left. reflexivity. }
  intro u2. apply (rule_thn _ _ _ _ _ (fun _ => P1 n)).
  { eapply rule_conseq; [apply (rule_response sys !"-getsearchdomains" n (P1 n))|auto| |intros; exact I]. intros r2 h v (h1 & a & -> & _ & _ & H). apply P1_get; auto. }
  intro r2. intros s X. pose proof (P1_note2 n n r2 _ _ X) as Y. split; [apply Y|exact Y].
Qed.
Definition A1 : pred := fun h v => exists g, h = h0 ++ g /\ (forall k, listed k g <-> In k names) /\ ((exists T', effects T g T') -> forall k, In k (keys (d_dns v)) <-> In k names) /\ forall T', effects T g T' -> T' x = T x.
Lemma collected : forall lines s, names = map service_name lines -> N1 (s_hist s) (s_vars s) ->
  match (each (collect_one sys (pure tt)) lines ;~ put (forget names)) s with Fin _ s1 => A1 (s_hist s1) (s_vars s1) | _ => True end.
Proof.
  intros lines s En X.
  assert (R : rule (each (collect_one sys (pure tt)) lines) N1 (fun _ h v => N1 h v /\ forall l, In l lines -> P1 (service_name l) h v) any).
  { apply (rule_each_done _ (collect_one sys (pure tt)) lines (fun l => P1 (service_name l)) N1 any); intros; [apply rule_noted|apply rule_kept]. }
  specialize (R s X). unfold thn. destruct (each (collect_one sys (pure tt)) lines s) as [u s1| | |]; auto. destruct R as ((g & Eg & L & H) & K). unfold put. cbn [s_hist s_vars]. exists g. split; [exact Eg|]. split; [exact L|].
  split; [|exact H]. intros E k. unfold forget. cbn [d_dns]. unfold keys. split.
  - intro Hk. apply in_map_iff in Hk. destruct Hk as (e & <- & He). apply filter_In in He. destruct He as (He & G). unfold gone in G. rewrite (proj2 (in_keys (fst e) (d_dns (s_vars s1)))) in G by (apply in_map; exact He). cbn [andb] in G.
    rewrite negb_involutive in G. apply existsb_exists in G. destruct G as (y & Hy & Ey). apply beq_eq in Ey. rewrite Ey. exact Hy.
  - intro Hk. assert (Hk2 : In k (keys (d_dns (s_vars s1)))).
    { rewrite En in Hk. apply in_map_iff in Hk. destruct Hk as (l & <- & Hl). destruct (K l Hl) as (_ & g2 & Eg2 & K2). rewrite Eg in Eg2. apply app_inv_head in Eg2. subst g2. apply K2, E. }
    unfold keys in Hk2. apply in_map_iff in Hk2. destruct Hk2 as (e & <- & He). apply in_map. apply filter_In. split; [exact He|]. unfold gone. apply negb_true_iff. apply andb_false_iff. right. apply negb_false_iff. apply existsb_exists. exists (fst e). split; [exact Hk|apply beq_refl].
Qed.

(** ** Setting *)
Definition goal : setting := configured dns search.
Section Set_.
Variable d : dvars.
Definition N2 : pred := fun h v => v = d /\ exists g, h = h0 ++ g /\ (forall k, listed k g <-> In k names) /\ ((exists T', effects T g T') -> forall k, In k (keys (d_dns d)) <-> In k names) /\
  (~ In x names -> forall T', effects T g T' -> T' x = T x).
Definition half2 : pred := fun h v => exists g, h = h0 ++ g /\ (succeeds g -> forall T', effects T g T' -> servers (T' x) = meant dns).
Definition whole2 : pred := fun h v => exists g, h = h0 ++ g /\ (succeeds g -> forall T', effects T g T' -> T' x = goal).
Lemma N2_set : forall y c h v a, In y (keys (d_dns d)) -> (exists ws, c = set_servers y ws \/ c = set_domains y ws) -> N2 h v -> N2 (h ++ [(c, a)]) v.
Proof.
  intros y c h v a Hy (ws & C) (-> & g & -> & L & K & H). split; [reflexivity|]. exists (g ++ [(c, a)]). split; [rewrite app_assoc; reflexivity|]. split; [|split].
  - intro k. rewrite <- L. apply listed_other. destruct C as [-> | ->]; cbn; unfold set_servers, set_domains, list_services, argv; intro E; injection E; discriminate.
  - intro E. apply K. eapply shorter. exact E.
  - intros Nx T' E. assert (Ne : x <> y). { intros ->. apply Nx. apply K; [eapply shorter; eauto|exact Hy]. }
    apply effects_app in E. destruct E as (T1 & E1 & E2). apply effects_1 in E2. destruct E2 as (T2 & E2 & E3). rewrite E3, <- (H Nx _ E1).
    destruct C as [-> | ->]; [apply (effect_set_servers _ _ _ _ _ E2)|apply (effect_set_domains _ _ _ _ _ E2)]; exact Ne.
Qed.
Lemma half2_set : forall h v a, N2 h v -> half2 (h ++ [(set_servers x dns, a)]) v.
Proof.
  intros h v a (-> & g & -> & _). exists (g ++ [(set_servers x dns, a)]). split; [rewrite app_assoc; reflexivity|]. intros Sg T' E. apply succeeds_snoc in Sg. destruct Sg as (_ & Sa).
  apply effects_app in E. destruct E as (T1 & E1 & E2). apply effects_1 in E2. destruct E2 as (T2 & E2 & E3). rewrite E3. apply (effect_set_servers _ _ _ _ _ E2); [exact some_dns|exact Sa].
Qed.
Lemma whole2_set : forall h v a, half2 h v -> whole2 (h ++ [(set_domains x (match search with [] => [!"Empty"] | _ => search end), a)]) v.
Proof.
  intros h v a (g & -> & H). eexists (g ++ [_]). split; [rewrite app_assoc; reflexivity|]. intros Sg T' E. apply succeeds_snoc in Sg. destruct Sg as (Sg & Sa).
  apply effects_app in E. destruct E as (T1 & E1 & E2). apply effects_1 in E2. destruct E2 as (T2 & E2 & E3). rewrite E3. destruct (effect_set_domains _ _ _ _ _ E2) as (_ & D & _ & X).
  specialize (H Sg T1 E1). rewrite <- D in H. assert (Y : domains (T2 x) = meant search).
  { rewrite X; [destruct search; reflexivity|destruct search; discriminate|exact Sa]. }
  unfold goal, configured. destruct (T2 x). cbn in *. congruence.
Qed.
Lemma whole2_other : forall y c h v a, y <> x -> (exists ws, c = set_servers y ws \/ c = set_domains y ws) -> whole2 h v -> whole2 (h ++ [(c, a)]) v.
Proof.
  intros y c h v a Ne (ws & C) (g & -> & H). exists (g ++ [(c, a)]). split; [rewrite app_assoc; reflexivity|]. intros Sg T' E. apply succeeds_snoc in Sg. destruct Sg as (Sg & _).
  apply effects_app in E. destruct E as (T1 & E1 & E2). apply effects_1 in E2. destruct E2 as (T2 & E2 & E3). rewrite E3, <- (H Sg T1 E1).
  destruct C as [-> | ->]; [apply (effect_set_servers _ _ _ _ _ E2)|apply (effect_set_domains _ _ _ _ _ E2)]; congruence.
Qed.
Lemma whole2_fails : forall h v c a, N2 h v -> a_status a <> 0 -> whole2 (h ++ [(c, a)]) v.
Proof. intros h v c a (-> & g & -> & _) Sa. exists (g ++ [(c, a)]). split; [rewrite app_assoc; reflexivity|]. intros Sg. apply succeeds_snoc in Sg. destruct Sg as (_ & X). contradiction. Qed.
Definition done2 (y : list Z) : pred := fun h v => N2 h v /\ (y = x -> whole2 h v).
Lemma rule_set_one : forall y, In y (keys (d_dns d)) -> rule (set_one sys dns search y) N2 (fun _ h v => N2 h v /\ done2 y h v) any.
Proof.
  intros y Hy. unfold set_one. apply (rule_thn _ _ _ _ _ (fun a h v => N2 h v /\ (y = x -> if a_status a =? 0 then half2 h v else whole2 h v))).
  - eapply rule_conseq; [apply rule_call|intros h v H; exact H| |intros; exact I]. cbv beta. intros a h v (h1 & -> & H). split; [eapply N2_set; [exact Hy|eexists; left; reflexivity|exact H]|].
    intros ->. destruct (Z.eqb_spec (a_status a) 0) as [E|E]; [apply (half2_set _ _ a H)|apply whole2_fails; assumption].
  - intro a. destruct (a_status a =? 0).
    + apply (rule_try sys _ (fun h v => N2 h v /\ (y = x -> half2 h v)) (fun h v => N2 h v /\ done2 y h v) any). intros h v b (H & Hh). split; [|exact I].
      assert (Y : N2 (h ++ [(set_domains y (match search with [] => [!"Empty"] | _ => search end), b)]) v) by (eapply N2_set; [exact Hy|eexists; right; reflexivity|exact H]).
      split; [exact Y|]. split; [exact Y|]. intros ->. apply whole2_set. auto.
    + intros s (H & Hw). split; [exact H|]. split; [exact H|exact Hw].
Qed.
Lemma rule_set_kept : forall y z, In y (keys (d_dns d)) -> rule (set_one sys dns search y) (done2 z) (fun _ => done2 z) any.
Proof.
  intros y z Hy. destruct (list_eq_dec Z.eq_dec y x) as [-> |Ne].
  - eapply rule_conseq; [apply (rule_set_one x Hy)|intros h v (H & _); exact H| |auto]. intros u h v (H & _ & Hw). split; [exact H|]. intros _. apply Hw. reflexivity.
  - unfold set_one. apply (rule_thn _ _ _ _ _ (fun _ => done2 z)).
    + eapply rule_conseq; [apply rule_call|intros h v H; exact H| |intros; exact I]. cbv beta. intros a h v (h1 & -> & H & Hw). split; [eapply N2_set; [exact Hy|eexists; left; reflexivity|exact H]|].
      intro e. eapply whole2_other; [exact Ne|eexists; left; reflexivity|exact (Hw e)].
    + intro a. destruct (a_status a =? 0).
      * apply (rule_try sys _ (done2 z) (done2 z) any). intros h v b (H & Hw). split; [|exact I]. split; [eapply N2_set; [exact Hy|eexists; right; reflexivity|exact H]|].
        intro e. eapply whole2_other; [exact Ne|eexists; right; reflexivity|exact (Hw e)].
      * intros s X. exact X.
Qed.
Lemma rule_set_all : forall L, Permutation L (keys (d_dns d)) -> rule (each (set_one sys dns search) L) N2 (fun _ h v => N2 h v /\ (In x L -> whole2 h v)) any.
Proof.
  intros L PL. eapply rule_conseq; [apply (rule_each_done _ (set_one sys dns search) L done2 N2 any)|auto| |auto].
  - intros y Hy. apply rule_set_one. eapply Permutation_in; eassumption.
  - intros y z Hy Hz. apply rule_set_kept. eapply Permutation_in; eassumption.
  - intros u h v (H & K). split; [exact H|]. intro Hx. apply (K x Hx). reflexivity.
Qed.
End Set_.
End Round.

Lemma round : forall sys order dns search, some_order order -> dns <> [] -> forall s u s2 g T T2, set_dns sys order dns search (pure tt) s = Fin u s2 -> s_hist s2 = s_hist s ++ g -> succeeds g -> effects T g T2 ->
  forall x, (listed x g -> T2 x = configured dns search) /\ (~ listed x g -> T2 x = T x).
Proof.
  intros sys order dns search O ND s u s2 g T T2 E Eg Sg Ef x. unfold set_dns, collect, feed in E.
  set (a := sys (s_hist s) (argv [!"networksetup"; !"-listallnetworkservices"])) in *.
  unfold thn at 1 in E. unfold thn at 1 in E. unfold thn at 1 in E. unfold call at 1 in E. fold a in E. destruct (a_signal a); [discriminate E|]. unfold pure at 1 in E. cbv zeta in E.
  set (lines := tl (read_complete (a_output a))) in *. set (names := map service_name lines) in *.
  set (s1 := mk_sh (s_hist s ++ [(argv [!"networksetup"; !"-listallnetworkservices"], a)]) (s_vars s)) in *.
  assert (X1 : N1 T (s_hist s) x names (s_hist s1) (s_vars s1)).
  { exists [(list_services, a)]. split; [reflexivity|]. split.
    - intro k. split; [intros (b & [Hb|[]] & Lb); injection Hb as <-; apply lists_iff; exact Lb|intro Hk; exists a; split; [left; reflexivity|apply lists_iff; exact Hk]].
    - intros T' X. apply effects_1 in X. destruct X as (T1 & X & Y). rewrite Y. eapply effect_list. exact X. }
  pose proof (collected sys T (s_hist s) x names lines s1 eq_refl X1) as C.
  destruct ((each (collect_one sys (pure tt)) lines;~ put (forget names)) s1) as [u1 s3| | |] eqn:E1; try discriminate E.
  destruct C as (g3 & Eg3 & L3 & K3 & H3). unfold each_service in E.
  assert (Y : N2 T (s_hist s) x names (s_vars s3) (s_hist s3) (s_vars s3)) by (split; [reflexivity|]; exists g3; auto).
  pose proof (rule_set_all sys dns search ND T (s_hist s) x names (s_vars s3) _ (O (s_hist s3) (keys (d_dns (s_vars s3)))) s3 Y) as Z. rewrite E in Z.
  destruct Z as ((Ev & g4 & Eg4 & L4 & K4 & H4) & Z). rewrite Eg in Eg4. apply app_inv_head in Eg4. subst g4. split.
  - intro Lx. destruct Z as (g5 & Eg5 & Z).
    + eapply Permutation_in; [apply Permutation_sym, O|]. apply K4; [eauto|]. apply L4. exact Lx.
    + rewrite Eg in Eg5. apply app_inv_head in Eg5. subst g5. apply Z; assumption.
  - intro Nx. apply H4; [|exact Ef]. rewrite <- L4. exact Nx.
Qed.
