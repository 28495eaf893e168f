(** Proofs for DNS on macOS: an invariant of the arrays and the settings. *)
From Coq Require Import String ZArith List Bool Lia Permutation.
From Verif Require Import Base Cstr CstrProofs Bash Quick QuickRun QuickSpec QuickRunSpec QuickRouteSpec QuickReloadSpec PropQuick PropQuickReload BsdRoutesProofs3 Sh DarDns DarDnsSpec.
Import ListNotations.
Open Scope Z_scope.

(** ** Rules *)
Definition pred : Type := history -> dvars -> Prop.
Definition rule {A} (m : act dvars A) (P : pred) (Q : A -> pred) (R : pred) : Prop := forall s, P (s_hist s) (s_vars s) ->
  match m s with
  | Fin a s1 => Q a (s_hist s1) (s_vars s1)
  | Quit _ s1 | Hit _ s1 => R (s_hist s1) (s_vars s1)
  | Spin _ => True
  end.
Lemma rule_conseq : forall A (m : act dvars A) (P P' : pred) (Q Q' : A -> pred) (R R' : pred), rule m P Q R -> (forall h v, P' h v -> P h v) -> (forall a h v, Q a h v -> Q' a h v) -> (forall h v, R h v -> R' h v) -> rule m P' Q' R'.
Proof. intros A m P P' Q Q' R R' H HP HQ HR s X. specialize (H s (HP _ _ X)). destruct (m s); auto. Qed.
Lemma rule_thn : forall A B (m : act dvars A) (f : A -> act dvars B) (P : pred) (Q : A -> pred) (Q2 : B -> pred) (R : pred), rule m P Q R -> (forall a, rule (f a) (Q a) Q2 R) -> rule (thn m f) P Q2 R.
Proof. intros A B m f P Q Q2 R H1 H2 s X. unfold thn. specialize (H1 s X). destruct (m s) as [a s1| | |]; auto. exact (H2 a s1 H1). Qed.
Lemma rule_pure : forall A (a : A) (P R : pred), rule (pure a) P (fun b h v => b = a /\ P h v) R.
Proof. intros A a P R s X. cbn. auto. Qed.
Lemma rule_quit : forall A st (P : pred) (Q : A -> pred), rule (quit st) P Q P.
Proof. intros A st P Q s X. exact X. Qed.
Lemma rule_put : forall f (P R : pred), rule (put f) (fun h v => P h (f v)) (fun _ => P) R.
Proof. intros f P R s X. exact X. Qed.
Lemma rule_get : forall A (f : dvars -> act dvars A) (P : pred) Q R, (forall d, rule (f d) (fun h v => P h v /\ v = d) Q R) -> rule (get f) P Q R.
Proof. intros A f P Q R H s X. unfold get. apply (H (s_vars s) s). auto. Qed.
Lemma rule_call : forall sys c (P : pred), rule (call sys c) P (fun a h v => exists h0, h = h0 ++ [(c, a)] /\ P h0 v) (fun h v => exists h0 a, h = h0 ++ [(c, a)] /\ P h0 v).
Proof. intros sys c P s X. unfold call. destruct (a_signal _); cbn [s_hist s_vars]; eauto. Qed.
Lemma rule_each : forall A (f : A -> act dvars unit) (l : list A) (P R : pred), (forall x, In x l -> rule (f x) P (fun _ => P) R) -> rule (each f l) P (fun _ => P) R.
Proof.
  intros A f l P R. induction l as [|x l IH]; intro H; cbn [each].
  - eapply rule_conseq; [apply (rule_pure unit tt P R)|auto|intros a h v (_ & X); exact X|auto].
  - eapply rule_thn; [apply H; left; reflexivity|]. intro u. apply IH. intros y Hy. apply H. right. exact Hy.
Qed.
(** A loop that leaves the variables alone and does something about each element. *)
Lemma rule_each_done : forall A (f : A -> act dvars unit) (l : list A) (P : A -> pred) (N : pred) (R : pred),
  (forall x, In x l -> rule (f x) N (fun _ h v => N h v /\ P x h v) R) -> (forall x y, In x l -> In y l -> rule (f x) (P y) (fun _ => P y) R) ->
  rule (each f l) N (fun _ h v => N h v /\ forall x, In x l -> P x h v) R.
Proof.
  intros A f l P N R. induction l as [|x l IH]; intros H1 H2; cbn [each].
  - eapply rule_conseq; [apply (rule_pure unit tt N R)|auto|intros a h v (_ & X); split; [exact X|intros y []]|auto].
  - intros s X. unfold thn. pose proof (H1 x (or_introl eq_refl) s X) as Y. destruct (f x s) as [u s1| | |]; auto. destruct Y as (Y1 & Y2).
    assert (Z1 : rule (each f l) (P x) (fun _ => P x) R) by (apply rule_each; intros y Hy; apply H2; [right; exact Hy|left; reflexivity]).
    specialize (Z1 s1 Y2). assert (Z2 : rule (each f l) N (fun _ h v => N h v /\ forall x, In x l -> P x h v) R).
    { apply IH; [intros y Hy; apply H1; right; exact Hy|intros y z Hy Hz; apply H2; right; assumption]. }
    specialize (Z2 s1 Y1). destruct (each f l s1) as [u2 s2| | |]; auto. destruct Z2 as (Z2 & Z3). split; [exact Z2|]. intros y [<- | Hy]; auto.
Qed.

(** ** Arrays *)
Lemma beq_no : forall a b, a <> b -> beq a b = false.
Proof. intros a b H. destruct (beq a b) eqn:E; [|reflexivity]. apply beq_eq in E. contradiction. Qed.
Lemma look_app : forall k a b, look k (a ++ b) = if existsb (beq k) (keys a) then look k a else look k b.
Proof. intros k a b. induction a as [|[x v] a IH]; [reflexivity|]. cbn. destruct (beq k x); [reflexivity|exact IH]. Qed.
Lemma look_filter : forall k (p : list Z -> bool) t, look k (filter (fun e => p (fst e)) t) = if p k then look k t else [].
Proof.
  intros k p t. induction t as [|[x v] t IH]; cbn [filter look fst]; [destruct (p k); reflexivity|]. destruct (beq k x) eqn:E.
  - apply beq_eq in E. subst x. destruct (p k) eqn:Ep; cbn [look]; [rewrite beq_refl; reflexivity|exact IH].
  - destruct (p x); cbn [look]; [rewrite E|]; exact IH.
Qed.
Lemma in_keys : forall k t, existsb (beq k) (keys t) = true <-> In k (keys t).
Proof.
  intros k t. rewrite existsb_exists. split; [intros (x & H & E); apply beq_eq in E; subst; exact H|intro H; exists k; split; [exact H|apply beq_refl]].
Qed.
Lemma look_store : forall k n v t, look k (store n v t) = if beq k n then v else look k t.
Proof.
  intros k n v t. unfold store, drop. rewrite look_app. destruct (beq k n) eqn:E.
  - apply beq_eq in E. subst n. destruct (existsb (beq k) (keys (filter (fun e : list Z * list Z => negb (beq k (fst e))) t))) eqn:X.
    + exfalso. apply in_keys in X. unfold keys in X. apply in_map_iff in X. destruct X as (e & E1 & X). apply filter_In in X. destruct X as (_ & X). rewrite E1, beq_refl in X. discriminate X.
    + cbn. rewrite beq_refl. reflexivity.
  - rewrite (look_filter k (fun x => negb (beq n x))). assert (E' : beq n k = false) by (apply beq_no; intros ->; rewrite beq_refl in E; discriminate E). rewrite E'. cbn [negb].
    destruct (existsb (beq k) (keys (filter (fun e : list Z * list Z => negb (beq n (fst e))) t))) eqn:X; [reflexivity|]. cbn [look]. rewrite E.
    clear - X E'. induction t as [|[x w] t IH]; [reflexivity|]. cbn [look]. cbn [filter fst] in X. destruct (beq k x) eqn:Ex.
    + apply beq_eq in Ex. subst x. rewrite E' in X. cbn in X. rewrite beq_refl in X. discriminate X.
    + apply IH. destruct (negb (beq n x)); [cbn [keys map existsb fst] in X; apply orb_false_iff in X; exact (proj2 X)|exact X].
Qed.
Lemma keys_store : forall k n v t, In k (keys (store n v t)) <-> k = n \/ In k (keys t).
Proof.
  intros k n v t. unfold store, drop, keys. rewrite map_app, in_app_iff. cbn. split.
  - intros [H|[<- |[]]]; [right|left; reflexivity]. apply in_map_iff in H. destruct H as (e & <- & H). apply filter_In in H. apply in_map. apply H.
  - intros [-> |H]; [right; left; reflexivity|]. destruct (beq n k) eqn:E; [apply beq_eq in E; right; left; exact E|]. left. apply in_map_iff in H. destruct H as (e & <- & H).
    apply in_map. apply filter_In. rewrite E. auto.
Qed.
Definition full (t : table) : Prop := Forall (fun e => snd e <> []) t.
Lemma full_store : forall n v t, v <> [] -> full t -> full (store n v t).
Proof.
  intros n v t Hv H. unfold full, store, drop. apply Forall_app. split; [|constructor; [exact Hv|constructor]]. unfold full in H. rewrite Forall_forall in H |- *. intros e He. apply filter_In in He. apply H, He.
Qed.
Lemma full_filter : forall p t, full t -> full (filter p t).
Proof. intros p t H. unfold full in *. rewrite Forall_forall in H |- *. intros e He. apply filter_In in He. apply H, He. Qed.
Lemma full_look : forall t k, full t -> In k (keys t) <-> look k t <> [].
Proof.
  intros t k H. induction t as [|[x v] t IH]; cbn; [split; [intros []|intro X; contradiction]|]. inversion H as [|e l Hv Hr]; subst. destruct (beq k x) eqn:E.
  - apply beq_eq in E. subst x. cbn in Hv. split; [intros _; exact Hv|intros _; left; reflexivity].
  - rewrite <- (IH Hr). split; [intros [-> |X]; [rewrite beq_refl in E; discriminate E|exact X]|right; assumption].
Qed.

(** ** Text *)
Definition recalls (ws : list (list Z)) (text : list Z) : Prop := (ws = [] /\ text = str "Empty") \/ (ws <> [] /\ Forall entry ws /\ text = captured (unlines ws)).
Lemma words_entries : forall ws, Forall entry ws -> words (unlines ws) = ws.
Proof.
  intros ws H. induction H as [|w ws (Hn & _ & Hw & _) H IH]; [reflexivity|]. unfold unlines in *. cbn [map concat]. rewrite <- app_assoc. unfold words in *.
  assert (Hi : Forall (fun c => ifsb c = false) w).
  { eapply Forall_impl; [|exact Hw]. intros c (C0 & C9 & C10 & C32). unfold ifsb, blankb. rewrite (proj2 (Z.eqb_neq _ _) C10), (proj2 (Z.eqb_neq _ _) C9), (proj2 (Z.eqb_neq _ _) C32). reflexivity. }
  rewrite words_word by exact Hi. rewrite app_nil_r. cbn [app words_go]. change (ifsb 10) with true. cbn match. rewrite IH. destruct (rev w) as [|x r] eqn:E.
  - exfalso. apply Hn. rewrite <- (rev_involutive w), E. reflexivity.
  - rewrite <- E, rev_involutive. reflexivity.
Qed.
Lemma no_nul_entries : forall ws, Forall entry ws -> ~ In 0 (unlines ws) /\ ~ In 32 (unlines ws).
Proof.
  intros ws H. induction H as [|w ws (Hn & _ & Hw & _) H (I0 & I32)]; [split; intros []|]. unfold unlines in *. cbn [map concat]. rewrite Forall_forall in Hw.
  split; rewrite !in_app_iff; intros [[X|[X|[]]]|X]; try discriminate X; try contradiction; specialize (Hw _ X); lia.
Qed.
Lemma captured_keeps : forall c s, c <> 0 -> c <> 10 -> In c s <-> In c (captured s).
Proof.
  intros c s H0 H10. unfold captured. destruct (QuickProofs.rtrim_split (Z.eqb 10) (no_nul s)) as (b & E & F & _). rewrite Forall_forall in F. split; intro X.
  - assert (Y : In c (no_nul s)) by (apply QuickRouteProofs.no_nul_in; auto). rewrite E, in_app_iff in Y. destruct Y as [Y|Y]; [exact Y|]. specialize (F _ Y). apply Z.eqb_eq in F. congruence.
  - assert (Y : In c (no_nul s)) by (rewrite E, in_app_iff; left; exact X). apply QuickRouteProofs.no_nul_in in Y. apply Y.
Qed.
Lemma shown_recalls : forall ws out, shown ws out -> recalls ws (response (captured out)).
Proof.
  intros ws out [(-> & H)|(Hn & He & ->)]; unfold response.
  - rewrite (proj2 (has_char_In _ _)); [left; auto|]. apply (captured_keeps 32 out); [discriminate..|exact H].
  - destruct (has_char 32 (captured (unlines ws))) eqn:E; [|right; auto]. apply has_char_In in E. apply (captured_keeps 32) in E; [|discriminate..]. destruct (no_nul_entries ws He) as (_ & X). contradiction.
Qed.
Lemma recalls_some : forall ws text, recalls ws text -> text <> [].
Proof.
  intros ws text [(_ & ->)|(Hn & He & ->)]; [discriminate|]. intro E. apply Hn. destruct (no_nul_entries ws He) as (N & _). rewrite <- (words_entries ws He), <- (QuickRouteProofs.words_captured _ N), E. reflexivity.
Qed.
Lemma recalls_expand : forall glob ws text, glob_plain glob -> recalls ws text -> expand glob text <> [] /\ meant (expand glob text) = ws.
Proof.
  intros glob ws text G [(-> & ->)|(Hn & He & ->)].
  - assert (E : expand glob (str "Empty") = [str "Empty"]).
    { unfold expand. change (words (str "Empty")) with [str "Empty"]. cbn [flat_map]. rewrite G; [reflexivity|]. unfold plain_word. repeat (constructor; [cbn; intuition discriminate|]). constructor. }
    rewrite E. split; [discriminate|reflexivity].
  - destruct (no_nul_entries ws He) as (N & _).
    assert (E : expand glob (captured (unlines ws)) = ws).
    { unfold expand. rewrite QuickRouteProofs.words_captured by exact N. rewrite words_entries by exact He. clear - G He. induction He as [|w ws (_ & P & _) _ IH]; [reflexivity|]. cbn [flat_map]. rewrite (G w P), IH. reflexivity. }
    rewrite E. split; [exact Hn|]. unfold meant. destruct ws as [|w [|w2 ws]]; [reflexivity| |reflexivity]. inversion He as [|x l (_ & _ & _ & X) _]; subst. rewrite beq_no by exact X. reflexivity.
Qed.
