(** Proofs for DNS on macOS: the arrays hold what the settings were. *)
From Coq Require Import String ZArith List Bool Lia Permutation.
From Verif Require Import Base Cstr CstrProofs Bash Quick QuickRun QuickSpec QuickRunSpec QuickRouteSpec QuickReloadSpec PropQuick PropQuickReload BsdRoutesProofs3 Sh DarDns DarDnsSpec DarDnsProofs DarDnsProofs2.
Import ListNotations.
Open Scope Z_scope.

Definition changes (s : list Z) (c : command) : Prop := exists ws, c = set_servers s ws \/ c = set_domains s ws.
(** What holds with any system: only services that have been listed are in the array, and no others have been changed. *)
Definition known : pred := fun h v => full (d_dns v) /\ (forall k, In k (keys (d_dns v)) -> listed k h) /\
  (forall h1 ev h2 s, h = h1 ++ ev :: h2 -> changes s (fst ev) -> listed s h1).
Lemma snoc_split : forall A (h : list A) e h1 x h2, h ++ [e] = h1 ++ x :: h2 -> (h2 = [] /\ h1 = h /\ x = e) \/ exists h3, h2 = h3 ++ [e] /\ h = h1 ++ x :: h3.
Proof.
  intros A h e h1 x h2 E. destruct (exists_last (l := x :: h2)) as (l & y & E2); [discriminate|]. rewrite E2, app_assoc in E. apply app_inj_tail in E. destruct E as (-> & ->).
  destruct l as [|z l]; cbn in E2; [left; injection E2 as -> ->; rewrite app_nil_r; auto|]. injection E2 as <- ->. right. exists l. auto.
Qed.
Lemma known_step : forall h v c a, known h v -> (forall s, changes s c -> listed s h) -> known (h ++ [(c, a)]) v.
Proof.
  intros h v c a (F & K & U) H. split; [exact F|]. split; [intros k Hk; apply listed_app, K, Hk|]. intros h1 ev h2 s E X.
  destruct (snoc_split _ _ _ _ _ _ E) as [(-> & -> & ->)|(h3 & -> & ->)]; [apply H, X|]. eapply U; [reflexivity|exact X].
Qed.
Lemma not_changes : forall o s c, c = argv [!"networksetup"; o; s] -> o <> str "-setdnsservers" -> o <> str "-setsearchdomains" -> forall x, changes x c -> False.
Proof. intros o s c -> N1 N2 x (ws & [E|E]); unfold set_servers, set_domains, argv in E; injection E; intros; contradiction. Qed.
Lemma list_changes : forall x, changes x list_services -> False.
Proof. intros x (ws & [E|E]); unfold list_services, set_servers, set_domains, argv in E; injection E; discriminate. Qed.

Section Inv.
Variable sys : system.
Variable glob : list Z -> list (list Z).
Variable order : history -> list (list Z) -> list (list Z).
Variables dns search : list (list Z).
Hypothesis plain : glob_plain glob.
Hypothesis ordered : some_order order.
Variable svc : list Z.
Variable T0 : settings.

Definition settled (v : dvars) (X : setting) : Prop :=
  (look svc (d_dns v) = [] /\ look svc (d_search v) = [] /\ X = T0 svc) \/
  (recalls (servers (T0 svc)) (look svc (d_dns v)) /\ recalls (domains (T0 svc)) (look svc (d_search v))).
Definition loose (v : dvars) (X : setting) : Prop := settled v X \/
  (recalls (servers (T0 svc)) (look svc (d_dns v)) /\ look svc (d_search v) = [] /\ domains X = domains (T0 svc)).
Definition W (S : dvars -> setting -> Prop) : pred := fun h v => known h v /\ forall T, effects T0 h T -> stays svc h -> S v (T svc).
Lemma W_loose : forall h v, W settled h v -> W loose h v.
Proof. intros h v (K & H). split; [exact K|]. intros T E St. left. auto. Qed.
Lemma W_step : forall (S S' : dvars -> setting -> Prop) h v c a, W S h v -> (forall s, changes s c -> listed s h) ->
  (forall T T', effect T (c, a) T' -> S v (T svc) -> S' v (T' svc)) -> W S' (h ++ [(c, a)]) v.
Proof.
  intros S S' h v c a (K & H) L X. split; [apply known_step; assumption|]. intros T E St. apply effects_app in E. destruct E as (T1 & E1 & E2). apply effects_1 in E2. destruct E2 as (T2 & E2 & E3).
  rewrite E3. eapply X; [exact E2|]. apply H; [exact E1|]. eapply stays_app. exact St.
Qed.

(** ** Collecting *)
Lemma rule_response : forall option n (P : pred), rule (response_to sys option n) P
  (fun r h v => exists h0 a, h = h0 ++ [(argv [!"networksetup"; option; n], a)] /\ a_status a = 0 /\ r = response (captured (a_output a)) /\ P h0 v)
  (fun h v => exists h0 a, h = h0 ++ [(argv [!"networksetup"; option; n], a)] /\ P h0 v).
Proof.
  intros option n P. unfold response_to. intros s X. unfold thn, call. destruct (a_signal _); [cbn [s_hist s_vars]; eauto|].
  destruct (Z.eqb_spec (a_status (sys (s_hist s) (argv [!"networksetup"; option; n]))) 0) as [E|E]; unfold pure, quit; cbn [s_hist s_vars]; eauto 8.
Qed.
Section Lines.
Variable lines : list (list Z).
Definition P_lines : pred := fun h v => W settled h v /\ forall l, In l lines -> listed (service_name l) h.
Lemma lines_app : forall h e, (forall l, In l lines -> listed (service_name l) h) -> forall l, In l lines -> listed (service_name l) (h ++ [e]).
Proof. intros h e H l Hl. apply listed_app. auto. Qed.
Lemma rule_collect_one : forall l, In l lines -> rule (collect_one sys (pure tt) l) P_lines (fun _ => P_lines) (W loose).
Proof.
  intros l Hl. unfold collect_one. destruct (service_name l) as [|c0 n0] eqn:En.
  { eapply rule_conseq; [apply (rule_quit unit 1 P_lines (fun _ => P_lines))|auto|auto|intros h v (H & _); apply W_loose, H]. }
  set (n := c0 :: n0) in *. apply rule_get. intro d. destruct (look n (d_dns d)) as [|z zs] eqn:Ln.
  2: { eapply rule_conseq; [apply (rule_pure unit tt P_lines (W loose))|intros h v (H & _); exact H|intros a h v (_ & H); exact H|auto]. }
  (* the first answer *)
  set (M1 := fun (r : list Z) (h : history) (v : dvars) => P_lines h v /\ look n (d_dns v) = [] /\ (n = svc -> forall T, effects T0 h T -> stays svc h -> recalls (servers (T0 svc)) r)).
  set (mid := fun (v : dvars) (X : setting) => (n <> svc /\ settled v X) \/ (n = svc /\ recalls (servers (T0 svc)) (look svc (d_dns v)) /\ look svc (d_search v) = [] /\ X = T0 svc)).
  set (M2 := fun (h : history) (v : dvars) => W mid h v /\ forall l, In l lines -> listed (service_name l) h).
  set (M3 := fun (r : list Z) (h : history) (v : dvars) => M2 h v /\ (n = svc -> forall T, effects T0 h T -> stays svc h -> recalls (domains (T0 svc)) r)).
  apply (rule_thn _ _ _ _ _ M1).
  { eapply rule_conseq; [apply (rule_response !"-getdnsservers" n (fun h v => P_lines h v /\ look n (d_dns v) = []))| | |].
    - intros h v (H & ->). split; [exact H|exact Ln].
    - intros r h v (h0 & a & -> & St & -> & (H & HL) & L0). split; [|split; [exact L0|]].
      + split; [|apply lines_app, HL]. eapply W_step; [exact H| |].
        * intros s X. exfalso. eapply not_changes; [reflexivity| | |exact X]; discriminate.
        * intros T T' E X. destruct (effect_get_servers T n a T' E) as (E1 & _). rewrite E1. exact X.
      + intros -> T E Sy. apply effects_app in E. destruct E as (T1 & E1 & E2). apply effects_1 in E2. destruct E2 as (T2 & E2 & _). destruct (effect_get_servers T1 svc a T2 E2) as (_ & Sh).
        specialize (Sh St). pose proof (proj2 H T1 E1 (stays_app _ _ _ Sy)) as [(_ & _ & X)|(X & _)]; [|exfalso; apply (recalls_some _ _ X), L0]. rewrite X in Sh. apply shown_recalls, Sh.
    - intros h v (h0 & a & -> & (H & HL) & L0). apply W_loose. eapply W_step; [exact H| |].
      + intros s X. exfalso. eapply not_changes; [reflexivity| | |exact X]; discriminate.
      + intros T T' E X. destruct (effect_get_servers T n a T' E) as (E1 & _). rewrite E1. exact X. }
  intro r. apply (rule_thn _ _ _ _ _ (fun _ => M1 r)).
  { eapply rule_conseq; [apply (rule_pure unit tt (M1 r) (W loose))|auto|intros a h v (_ & H); exact H|auto]. }
  intros _. apply (rule_thn _ _ _ _ _ (fun _ => M2)).
  { eapply rule_conseq; [apply (rule_put (note_dns n r) M2 (W loose))| |auto|auto]. intros h v ((((F & K & U) & H) & HL) & L0 & Hr). split; [|exact HL]. split.
    - unfold note_dns. destruct r as [|z zs]; [split; [exact F|split; [exact K|exact U]]|]. split; [apply full_store; [discriminate|exact F]|]. split; [|exact U].
      intros k Hk. cbn [d_dns] in Hk. apply keys_store in Hk. destruct Hk as [-> |Hk]; [rewrite <- En; apply HL, Hl|apply K, Hk].
    - intros T E Sy. specialize (H T E Sy). unfold mid. destruct (list_eq_dec Z.eq_dec n svc) as [e|ne].
      + right. split; [exact e|]. specialize (Hr e T E Sy). rewrite e in L0. destruct H as [(_ & H2 & H3)|(X & _)]; [|exfalso; apply (recalls_some _ _ X), L0].
        unfold note_dns. destruct r as [|z zs]; [exfalso; apply (recalls_some _ _ Hr); reflexivity|]. cbn [d_dns d_search]. rewrite look_store, e, beq_refl. auto.
      + left. split; [exact ne|]. unfold note_dns. destruct r as [|z zs]; [exact H|]. unfold settled. cbn [d_dns d_search]. rewrite look_store, beq_no by congruence. exact H. }
  intros _. apply (rule_thn _ _ _ _ _ M3).
  { eapply rule_conseq; [apply (rule_response !"-getsearchdomains" n M2)|auto| |].
    - intros r2 h v (h0 & a & -> & St & -> & (H & HL)). split.
      + split; [|apply lines_app, HL]. eapply W_step; [exact H| |].
        * intros s X. exfalso. eapply not_changes; [reflexivity| | |exact X]; discriminate.
        * intros T T' E X. destruct (effect_get_domains T n a T' E) as (E1 & _). rewrite E1. exact X.
      + intros e T E Sy. apply effects_app in E. destruct E as (T1 & E1 & E2). apply effects_1 in E2. destruct E2 as (T2 & E2 & _). destruct (effect_get_domains T1 n a T2 E2) as (_ & Sh).
        specialize (Sh St). rewrite e in Sh. pose proof (proj2 H T1 E1 (stays_app _ _ _ Sy)) as [(X & _)|(_ & _ & _ & X)]; [contradiction|]. rewrite X in Sh. apply shown_recalls, Sh.
    - intros h v (h0 & a & -> & (H & HL)). eapply W_step; [exact H| |].
      + intros s X. exfalso. eapply not_changes; [reflexivity| | |exact X]; discriminate.
      + intros T T' E X. destruct (effect_get_domains T n a T' E) as (E1 & _). rewrite E1. destruct X as [(_ & X)|(_ & X1 & X2 & X3)]; [left; exact X|]. right. rewrite X3. auto. }
  intro r2. eapply rule_conseq; [apply (rule_put (note_search n r2) P_lines (W loose))| |auto|auto].
  intros h v (((K & H) & HL) & Hr). split; [|exact HL]. split.
  - unfold note_search. destruct r2; [exact K|exact K].
  - intros T E Sy. specialize (H T E Sy). destruct H as [(ne & H)|(e & H1 & H2 & H3)].
    + unfold note_search. destruct r2 as [|z zs]; [exact H|]. unfold settled. cbn [d_dns d_search]. rewrite look_store, beq_no by congruence. exact H.
    + specialize (Hr e T E Sy). unfold note_search. destruct r2 as [|z zs]; [exfalso; apply (recalls_some _ _ Hr); reflexivity|]. right. cbn [d_dns d_search]. rewrite look_store, e, beq_refl. auto.
Qed.
End Lines.

Lemma gone_false : forall found d, (In svc (keys (d_dns d)) -> In svc found) -> gone found d svc = false.
Proof.
  intros found d H. unfold gone. destruct (existsb (beq svc) (keys (d_dns d))) eqn:E; [|reflexivity]. apply in_keys in E. specialize (H E). cbn [andb]. apply negb_false_iff. apply existsb_exists. exists svc. split; [exact H|apply beq_refl].
Qed.
Lemma rule_collect : rule (collect sys (pure tt)) (W settled) (fun _ => W settled) (W loose).
Proof.
  unfold collect, feed. intros s X. unfold thn at 1. unfold thn at 1. unfold call. set (a := sys (s_hist s) (argv [!"networksetup"; !"-listallnetworkservices"])).
  assert (X1 : W settled (s_hist s ++ [(list_services, a)]) (s_vars s)).
  { eapply W_step; [exact X|intros x Hx; exfalso; exact (list_changes x Hx)|]. intros T T' E Y. rewrite (effect_list T a T' E). exact Y. }
  destruct (a_signal a); [cbn [s_hist s_vars]; apply W_loose, X1|]. unfold pure at 1. cbv zeta. set (lines := tl (read_complete (a_output a))).
  set (s1 := mk_sh (s_hist s ++ [(argv [!"networksetup"; !"-listallnetworkservices"], a)]) (s_vars s)).
  assert (L : forall l, In l lines -> listed (service_name l) (s_hist s1)).
  { intros l Hl. exists a. split; [apply in_app_iff; right; left; reflexivity|]. apply lists_iff. apply in_map. exact Hl. }
  set (N := fun (h : history) (v : dvars) => P_lines lines h v /\ exists g, h = s_hist s ++ (list_services, a) :: g /\ Forall (fun ev => fst ev <> list_services) g).
  assert (RN : rule (each (collect_one sys (pure tt)) lines) N (fun _ => N) (W loose)).
  { apply rule_each. intros l Hl s2 (Y & g & G & FG). pose proof (rule_collect_one lines l Hl s2 Y) as Z.
    assert (Mono : match collect_one sys (pure tt) l s2 with Fin _ s3 => exists g', s_hist s3 = s_hist s2 ++ g' /\ Forall (fun ev => fst ev <> list_services) g' | _ => True end).
    { clear. unfold collect_one. destruct (service_name l); [exact I|]. unfold get. destruct (look _ _); [|cbn; exists []; rewrite app_nil_r; split; [reflexivity|constructor]].
      unfold thn, response_to, call, pure, quit, put. unfold thn. destruct (a_signal _); [exact I|]. destruct (a_status _ =? 0); [|exact I]. cbn [s_hist s_vars]. destruct (a_signal _); [exact I|]. destruct (a_status _ =? 0); [|exact I].
      cbn [s_hist]. rewrite <- app_assoc. eexists. split; [reflexivity|]. repeat constructor; discriminate. }
    destruct (collect_one sys (pure tt) l s2) as [u s3| | |]; auto. split; [exact Z|]. destruct Mono as (g' & -> & FG'). rewrite G, <- app_assoc. exists (g ++ g'). split; [reflexivity|apply Forall_app; auto]. }
  specialize (RN s1). assert (I1 : N (s_hist s1) (s_vars s1)) by (split; [split; [exact X1|exact L]|exists []; split; [reflexivity|constructor]]). specialize (RN I1).
  unfold thn. destruct (each (collect_one sys (pure tt)) lines s1) as [u s2| | |]; auto. destruct RN as ((((F & K & U) & H) & L2) & g & G & FG). unfold put. cbn [s_hist s_vars]. split.
  - split; [apply full_filter, F|]. split; [|exact U]. intros k Hk. apply K. unfold forget, keys in Hk. cbn [d_dns] in Hk. apply in_map_iff in Hk. destruct Hk as (e & <- & Hk). apply filter_In in Hk. apply in_map, Hk.
  - intros T E Sy. specialize (H T E Sy). unfold settled, forget. cbn [d_dns d_search]. rewrite !(look_filter svc (fun k => negb (gone (map service_name lines) (s_vars s2) k))).
    assert (Gs : gone (map service_name lines) (s_vars s2) svc = false).
    { apply gone_false. intro Hk. apply K in Hk. destruct Hk as (b & Hb & Lb). apply lists_iff.
      rewrite G in Hb, Sy. apply in_app_iff in Hb. destruct Hb as [Hb|[Hb|Hb]].
      - apply in_split in Hb. destruct Hb as (h1 & h2 & Eh). apply (Sy h1 b h2 a g); [rewrite Eh, <- app_assoc; reflexivity|exact Lb].
      - injection Hb as <-. exact Lb.
      - exfalso. rewrite Forall_forall in FG. apply (FG _ Hb). reflexivity. }
    rewrite Gs. exact H.
Qed.

(** ** Setting and putting back *)
Lemma rule_each_service : forall f (P : pred) (Q : pred) (R : pred), (forall d L, Permutation L (keys (d_dns d)) -> rule (each (f d) L) (fun h v => P h v /\ v = d) (fun _ => Q) R) -> rule (each_service order f) P (fun _ => Q) R.
Proof. intros f P Q R H s X. unfold each_service. apply (H (s_vars s) _ (ordered _ _) s). auto. Qed.
Lemma settled_key : forall v X, full (d_dns v) -> In svc (keys (d_dns v)) -> settled v X -> forall Y, settled v Y.
Proof. intros v X F Hk [(H & _)|H] Y; [exfalso; apply (proj1 (full_look (d_dns v) svc F) Hk); exact H|right; exact H]. Qed.
Lemma settled_servers : forall v x ws a T T', full (d_dns v) -> In x (keys (d_dns v)) -> effect T (set_servers x ws, a) T' -> settled v (T svc) -> settled v (T' svc).
Proof.
  intros v x ws a T T' F Hx E H. destruct (effect_set_servers T x ws a T' E) as (B & _). destruct (list_eq_dec Z.eq_dec svc x) as [<- |N]; [eapply settled_key; eassumption|]. rewrite (B svc N). exact H.
Qed.
Lemma settled_domains : forall v x ws a T T', full (d_dns v) -> In x (keys (d_dns v)) -> effect T (set_domains x ws, a) T' -> settled v (T svc) -> settled v (T' svc).
Proof.
  intros v x ws a T T' F Hx E H. destruct (effect_set_domains T x ws a T' E) as (B & _). destruct (list_eq_dec Z.eq_dec svc x) as [<- |N]; [eapply settled_key; eassumption|]. rewrite (B svc N). exact H.
Qed.
Lemma changes_known : forall h v x c, known h v -> In x (keys (d_dns v)) -> (exists ws, c = set_servers x ws \/ c = set_domains x ws) -> forall s, changes s c -> listed s h.
Proof.
  intros h v x c (_ & K & _) Hx (ws & Ec) s (ws' & Es). assert (s = x); [|subst; apply K, Hx].
  destruct Ec as [-> | ->], Es as [E|E]; unfold set_servers, set_domains, argv in E; injection E; intros; subst; try reflexivity; discriminate.
Qed.
Lemma rule_set : rule (set_dns sys order dns search (pure tt)) (W settled) (fun _ => W settled) (W loose).
Proof.
  unfold set_dns. eapply rule_thn; [apply rule_collect|]. intro u. apply (rule_each_service (fun _ => set_one sys dns search)). intros d L PL.
  eapply rule_conseq; [apply (rule_each _ (set_one sys dns search) L (fun h v => W settled h v /\ v = d) (W loose))|auto|intros a h v (H & _); exact H|auto].
  intros x Hx. assert (Hk : In x (keys (d_dns d))) by (eapply Permutation_in; eassumption).
  assert (St : forall h v c a, W settled h v /\ v = d -> (exists ws, c = set_servers x ws \/ c = set_domains x ws) -> W settled (h ++ [(c, a)]) v /\ v = d).
  { intros h v c a (H & ->) C. split; [|reflexivity]. eapply W_step; [exact H|eapply changes_known; [apply H|exact Hk|exact C]|]. intros T T' E X. destruct C as (ws & [-> | ->]);
      [eapply settled_servers|eapply settled_domains]; try eassumption; apply H. }
  unfold set_one. apply (rule_thn _ _ _ _ _ (fun _ h v => W settled h v /\ v = d)).
  { eapply rule_conseq; [apply rule_call|intros h v H; exact H| |]; cbv beta.
    - intros a h v (h0 & -> & H). apply St; [exact H|eexists; left; reflexivity].
    - intros h v (h0 & a & -> & H). apply W_loose. apply (St h0 v); [exact H|eexists; left; reflexivity]. }
  intro a. destruct (a_status a =? 0).
  - unfold try. apply (rule_thn _ _ _ _ _ (fun _ h v => W settled h v /\ v = d)).
    + eapply rule_conseq; [apply rule_call|intros h v H; exact H| |]; cbv beta.
      * intros b h v (h0 & -> & H). apply St; [exact H|eexists; right; reflexivity].
      * intros h v (h0 & b & -> & H). apply W_loose. apply (St h0 v); [exact H|eexists; right; reflexivity].
    + intro u2. eapply rule_conseq; [apply (rule_pure unit tt (fun h v => W settled h v /\ v = d) (W loose))|auto|intros b h v (_ & H); exact H|auto].
  - eapply rule_conseq; [apply (rule_pure unit tt (fun h v => W settled h v /\ v = d) (W loose))|auto|intros b h v (_ & H); exact H|auto].
Qed.

(** Putting back: what one command does. *)
Section Back.
Variable d : dvars.
Variable h0 : history.
Definition N : pred := fun h v => W loose h v /\ v = d /\ exists g, h = h0 ++ g.
Definition half : pred := fun h v => forall g, h = h0 ++ g -> succeeds g -> forall T, effects T0 h T -> stays svc h -> servers (T svc) = servers (T0 svc).
Definition whole : pred := fun h v => forall g, h = h0 ++ g -> succeeds g -> forall T, effects T0 h T -> stays svc h -> T svc = T0 svc.
Lemma succeeds_snoc : forall g (ev : event), succeeds (g ++ [ev]) -> succeeds g /\ a_status (snd ev) = 0.
Proof. intros g ev H. apply Forall_app in H. destruct H as (H1 & H2). inversion H2; subst. auto. Qed.
Lemma back_servers : forall x h v a, In x (keys (d_dns d)) -> N h v -> N (h ++ [(set_servers x (expand glob (look x (d_dns d))), a)]) v.
Proof.
  intros x h v a Hx (H & -> & g & G). split; [|split; [reflexivity|exists (g ++ [(set_servers x (expand glob (look x (d_dns d))), a)]); rewrite G, app_assoc; reflexivity]].
  eapply W_step; [exact H|eapply changes_known; [apply H|exact Hx|eexists; left; reflexivity]|]. intros T T' E [X|(X1 & X2 & X3)]; [left; eapply settled_servers; try eassumption; apply H|].
  right. split; [exact X1|]. split; [exact X2|]. destruct (effect_set_servers _ _ _ _ _ E) as (B & D & _). destruct (list_eq_dec Z.eq_dec svc x) as [<- |Nx]; [rewrite D; exact X3|rewrite (B svc Nx); exact X3].
Qed.
Lemma back_domains : forall x h v a, In x (keys (d_dns d)) -> N h v -> N (h ++ [(set_domains x (expand glob (look x (d_search d))), a)]) v.
Proof.
  intros x h v a Hx (H & -> & g & G). split; [|split; [reflexivity|exists (g ++ [(set_domains x (expand glob (look x (d_search d))), a)]); rewrite G, app_assoc; reflexivity]].
  eapply W_step; [exact H|eapply changes_known; [apply H|exact Hx|eexists; right; reflexivity]|]. intros T T' E [X|(X1 & X2 & X3)]; [left; eapply settled_domains; try eassumption; apply H|].
  right. split; [exact X1|]. split; [exact X2|]. destruct (effect_set_domains _ _ _ _ _ E) as (B & D & Z & _). destruct (list_eq_dec Z.eq_dec svc x) as [<- |Nx]; [|rewrite (B svc Nx); exact X3].
  rewrite X2 in Z. rewrite Z by reflexivity. exact X3.
Qed.
Lemma split_last : forall h c a T (g : history), h ++ [(c, a)] = h0 ++ g -> (exists g', h = h0 ++ g') -> succeeds g -> effects T0 (h ++ [(c, a)]) T -> stays svc (h ++ [(c, a)]) ->
  exists g' T1 T2, h = h0 ++ g' /\ succeeds g' /\ a_status a = 0 /\ effects T0 h T1 /\ stays svc h /\ effect T1 (c, a) T2 /\ (forall x, T x = T2 x).
Proof.
  intros h c a T g E (g' & ->) Sg Ef St. rewrite <- app_assoc in E. apply app_inv_head in E. subst g. apply succeeds_snoc in Sg. destruct Sg as (S1 & S2).
  apply effects_app in Ef. destruct Ef as (T1 & E1 & E2). apply effects_1 in E2. destruct E2 as (T2 & E2 & E3). exists g', T1, T2. apply stays_app in St. auto 10.
Qed.
Lemma half_done : forall h v a, In svc (keys (d_dns d)) -> N h v -> half (h ++ [(set_servers svc (expand glob (look svc (d_dns d))), a)]) v.
Proof.
  intros h v a Hx (H & -> & Hg) g E Sg T Ef St. destruct (split_last _ _ _ _ _ E Hg Sg Ef St) as (g' & T1 & T2 & -> & S1 & Sa & E1 & St1 & E2 & E3). rewrite E3. destruct (effect_set_servers _ _ _ _ _ E2) as (_ & _ & _ & X).
  assert (R : recalls (servers (T0 svc)) (look svc (d_dns d))).
  { destruct (proj2 H T1 E1 St1) as [[(Y & _)|(Y & _)]|(Y & _)]; [|exact Y|exact Y]. exfalso. destruct H as ((F & _) & _). apply (proj1 (full_look _ svc F) Hx). exact Y. }
  destruct (recalls_expand glob _ _ plain R) as (Ne & M). rewrite X by assumption. exact M.
Qed.
Lemma whole_done : forall h v a, In svc (keys (d_dns d)) -> N h v -> half h v -> whole (h ++ [(set_domains svc (expand glob (look svc (d_search d))), a)]) v.
Proof.
  intros h v a Hx (H & -> & Hg) Hh g E Sg T Ef St. destruct (split_last _ _ _ _ _ E Hg Sg Ef St) as (g' & T1 & T2 & -> & S1 & Sa & E1 & St1 & E2 & E3). rewrite E3. destruct (effect_set_domains _ _ _ _ _ E2) as (_ & D & Z & X).
  specialize (Hh g' eq_refl S1 T1 E1 St1). rewrite <- D in Hh.
  assert (Q : domains (T2 svc) = domains (T0 svc)).
  { destruct (proj2 H T1 E1 St1) as [[(Y & _)|(_ & Y)]|(_ & Y & Y2)].
    - exfalso. destruct H as ((F & _) & _). apply (proj1 (full_look _ svc F) Hx). exact Y.
    - destruct (recalls_expand glob _ _ plain Y) as (Ne & M). rewrite X by assumption. exact M.
    - rewrite Y in Z. rewrite Z by reflexivity. exact Y2. }
  destruct (T2 svc), (T0 svc). cbn in *. congruence.
Qed.
Lemma whole_kept : forall x h v c a, x <> svc -> (exists ws, c = set_servers x ws \/ c = set_domains x ws) -> N h v -> whole h v -> whole (h ++ [(c, a)]) v.
Proof.
  intros x h v c a Nx (ws & C) (H & -> & Hg) Hw g E Sg T Ef St. destruct (split_last _ _ _ _ _ E Hg Sg Ef St) as (g' & T1 & T2 & -> & S1 & Sa & E1 & St1 & E2 & E3). rewrite E3.
  replace (T2 svc) with (T1 svc); [apply (Hw g' eq_refl S1 T1 E1 St1)|]. symmetry. destruct C as [-> | ->]; [apply (effect_set_servers _ _ _ _ _ E2)|apply (effect_set_domains _ _ _ _ _ E2)]; congruence.
Qed.
Lemma rule_try : forall ws (P Q R : pred), (forall h v a, P h v -> Q (h ++ [(argv ws, a)]) v /\ R (h ++ [(argv ws, a)]) v) -> rule (try sys ws) P (fun _ => Q) R.
Proof.
  intros ws P Q R H s X. unfold try, thn, call. destruct (a_signal _); cbn [pure s_hist s_vars]; apply (H _ _ _ X).
Qed.
Definition done (x : list Z) : pred := fun h v => N h v /\ (x = svc -> whole h v).
Lemma rule_del_one : forall x, In x (keys (d_dns d)) -> rule (del_one sys glob d x) N (fun _ h v => N h v /\ done x h v) (W loose).
Proof.
  intros x Hx. unfold del_one. apply (rule_thn _ _ _ _ _ (fun _ h v => N h v /\ (x = svc -> half h v))).
  - apply rule_try. intros h v a H. pose proof (back_servers x h v a Hx H) as Y. split; [split; [exact Y|]|apply Y]. intros ->. apply half_done; assumption.
  - intro u. apply rule_try. intros h v a (H & Hh). pose proof (back_domains x h v a Hx H) as Y. split; [|apply Y]. split; [exact Y|]. split; [exact Y|]. intros ->. apply whole_done; auto.
Qed.
Lemma rule_del_kept : forall x y, In x (keys (d_dns d)) -> rule (del_one sys glob d x) (done y) (fun _ => done y) (W loose).
Proof.
  intros x y Hx. destruct (list_eq_dec Z.eq_dec x svc) as [-> |Nx].
  - eapply rule_conseq; [apply (rule_del_one svc Hx)|intros h v (H & _); exact H| |auto]. intros u h v (H & (_ & Hw)). split; [exact H|]. intros _. apply Hw. reflexivity.
  - unfold del_one. apply (rule_thn _ _ _ _ _ (fun _ => done y)).
    + apply rule_try. intros h v a (H & Hw). pose proof (back_servers x h v a Hx H) as Y. split; [split; [exact Y|]|apply Y]. intros e. eapply whole_kept; [exact Nx|eexists; left; reflexivity|exact H|exact (Hw e)].
    + intro u. apply rule_try. intros h v a (H & Hw). pose proof (back_domains x h v a Hx H) as Y. split; [split; [exact Y|]|apply Y]. intros e. eapply whole_kept; [exact Nx|eexists; right; reflexivity|exact H|exact (Hw e)].
Qed.
End Back.
Lemma rule_del : forall h0, rule (del_dns sys glob order) (fun h v => W loose h v /\ h = h0) (fun _ h v => W loose h v /\ whole h0 h v) (W loose).
Proof.
  intro h0. apply (rule_each_service (del_one sys glob) (fun h v => W loose h v /\ h = h0) (fun h v => W loose h v /\ whole h0 h v)). intros d L PL.
  eapply rule_conseq; [apply (rule_each_done _ (del_one sys glob d) L (done d h0) (N d h0) (W loose))| | |auto].
  - intros x Hx. apply rule_del_one. eapply Permutation_in; eassumption.
  - intros x y Hx Hy. apply rule_del_kept. eapply Permutation_in; eassumption.
  - intros h v ((H & ->) & ->). split; [exact H|]. split; [reflexivity|]. exists []. rewrite app_nil_r. reflexivity.
  - intros u h v ((H & -> & Hg) & Hall). split; [exact H|]. destruct (in_dec (list_eq_dec Z.eq_dec) svc L) as [I|I].
    + apply (Hall svc I). reflexivity.
    + intros g E Sg T Ef St. destruct (proj2 H T Ef St) as [[(_ & _ & X)|(X & _)]|(X & _)]; [exact X| |];
        exfalso; apply I; (eapply Permutation_in; [apply Permutation_sym; exact PL|]); (apply full_look; [apply H|apply (recalls_some _ _ X)]).
Qed.

(** ** The life of a tunnel *)
Lemma W_foreign : forall S h v g, W S h v -> Forall (fun ev => foreign (fst ev)) g -> W S (h ++ g) v.
Proof.
  intros S h v g ((F & K & U) & H) Hg. split; [split; [exact F|]; split; [intros k Hk; apply listed_app, K, Hk|]|].
  - intros h1 ev h2 s E C. assert (X : (exists h3, h = h1 ++ ev :: h3) \/ In ev g).
    { revert h1 E. clear. induction h as [|e h IH]; intros h1 E; [right; cbn in E; rewrite E; apply in_app_iff; right; left; reflexivity|]. destruct h1 as [|e1 h1]; cbn in E; injection E as <- E; [left; exists h; reflexivity|].
      destruct (IH h1 E) as [(h3 & ->)|X]; [left; exists h3; reflexivity|right; exact X]. }
    destruct X as [(h3 & ->)|X]; [eapply U; [reflexivity|exact C]|]. exfalso. rewrite Forall_forall in Hg. destruct C as (ws & [C|C]); eapply (Hg _ X); exact C.
  - intros T E Sy. apply effects_app in E. destruct E as (T1 & E1 & E2). rewrite (effects_foreign _ _ _ Hg E2). apply H; [exact E1|]. eapply stays_app. exact Sy.
Qed.
Lemma lives_W : forall s s1, lives (set_dns sys order dns search (pure tt)) s s1 -> W settled (s_hist s) (s_vars s) -> W settled (s_hist s1) (s_vars s1).
Proof.
  intros s s1 H X. induction H as [s|s s1 g H IH Hg|s s1 u s2 H IH E]; [exact X|apply W_foreign; auto|]. pose proof (rule_set s1 (IH X)) as Y. rewrite E in Y. exact Y.
Qed.
Lemma stops_W : forall s s1, stops (set_dns sys order dns search (pure tt)) s s1 -> W settled (s_hist s) (s_vars s) -> W loose (s_hist s1) (s_vars s1).
Proof. intros s s1 [-> |(st & [E|E])] X; [apply W_loose, X| |]; pose proof (rule_set s X) as Y; rewrite E in Y; exact Y. Qed.
Lemma attempts_W : forall s s1, attempts (del_dns sys glob order) s s1 -> W loose (s_hist s) (s_vars s) -> W loose (s_hist s1) (s_vars s1).
Proof.
  intros s s1 H X. induction H as [s|s s1 g H IH Hg|s s1 s2 H IH E]; [exact X|apply W_foreign; auto|]. pose proof (rule_del (s_hist s1) s1 (conj (IH X) eq_refl)) as Y.
  destruct E as [(a & E)|(st & [E|E])]; rewrite E in Y; [apply Y|exact Y|exact Y].
Qed.
Lemma start_W : W settled [] dvars0.
Proof.
  split; [split; [constructor|]; split; [intros k []|intros h1 ev h2 s E; destruct h1; discriminate E]|]. intros T E _. left. inversion E as [T' X|]; subst. rewrite X. auto.
Qed.
End Inv.
