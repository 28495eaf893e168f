(** Proofs for DNS on macOS: what the pieces of the script do to the arrays and the settings. *)
From Coq Require Import String ZArith List Bool Lia Permutation.
From Verif Require Import Base Cstr CstrProofs Bash Quick QuickRun QuickSpec QuickRunSpec QuickRouteSpec QuickReloadSpec PropQuick PropQuickReload BsdRoutesProofs3 Sh DarDns DarDnsSpec DarDnsProofs.
Import ListNotations.
Open Scope Z_scope.

(** ** The list of services *)
Lemma lists_iff : forall out s, lists out s <-> In s (map service_name (tl (read_complete out))).
Proof.
  intros out s. split.
  - intros (x & ls & l & C & Hl & L). rewrite <- (complete_lines_fun _ _ _ C (read_complete_spec out)). cbn [tl]. apply in_map_iff. exists l. split; [|exact Hl].
    destruct L as [-> |(-> & H)]; [reflexivity|]. destruct s as [|c s]; [reflexivity|]. cbn in H. unfold service_name. destruct c as [|p|p]; try reflexivity. do 6 (destruct p as [p|p|]; try reflexivity). exfalso. apply H. reflexivity.
  - intro H. apply in_map_iff in H. destruct H as (l & E & H). destruct (read_complete out) as [|x ls] eqn:R; [destruct H|]. exists x, ls, l. split; [rewrite <- R; apply read_complete_spec|]. split; [exact H|].
    destruct l as [|c l]; [right; cbn in E; subst s; split; [reflexivity|discriminate]|]. destruct (Z.eq_dec c 42) as [-> |N]; [left; cbn in E; subst s; reflexivity|].
    right. assert (X : service_name (c :: l) = c :: l) by (unfold service_name; destruct c as [|p|p]; try reflexivity; do 6 (destruct p as [p|p|]; try reflexivity); exfalso; apply N; reflexivity).
    rewrite X in E. subst s. split; [reflexivity|exact N].
Qed.
Lemma listed_app : forall s a b, listed s a -> listed s (a ++ b).
Proof. intros s a b (r & H & L). exists r. split; [apply in_app_iff; left; exact H|exact L]. Qed.
Lemma stays_app : forall s a b, stays s (a ++ b) -> stays s a.
Proof.
  intros s a b H h1 x h2 y h3 E. apply (H h1 x h2 y (h3 ++ b)). rewrite E, <- app_assoc. cbn. rewrite <- app_assoc. reflexivity.
Qed.
(** ** Effects *)
Lemma effects_ext : forall h T U T', (forall x, T x = U x) -> effects T h T' -> exists U', effects U h U' /\ forall x, T' x = U' x.
Proof.
  intros h T U T' E H. exists T'. split; [|reflexivity]. destruct H as [T' F|ev h T1 T2 F H]; [constructor; intro x; rewrite F; apply E|]. econstructor; [|exact H]. clear H.
  assert (B : forall s, same_but s T T1 -> same_but s U T1) by (intros s X y Hy; rewrite (X y Hy); apply E).
  assert (B2 : (forall x, T1 x = T x) -> forall x, T1 x = U x) by (intros X y; rewrite X; apply E).
  inversion F; subst; [apply ef_servers|apply ef_domains|apply ef_no_servers|apply ef_no_domains|apply ef_shows_servers|apply ef_shows_domains|apply ef_other]; auto; rewrite <- E; auto.
Qed.
Lemma effects_app : forall a b T T2, effects T (a ++ b) T2 -> exists T1, effects T a T1 /\ effects T1 b T2.
Proof.
  intros a b. induction a as [|ev a IH]; intros T T2 H; [exists T; split; [constructor; reflexivity|exact H]|]. cbn in H. inversion H as [|e h T1 T2' F H']; subst.
  destruct (IH _ _ H') as (T3 & H1 & H2). exists T3. split; [econstructor; eassumption|exact H2].
Qed.
Lemma effects_1 : forall ev T T2, effects T [ev] T2 -> exists T1, effect T ev T1 /\ forall x, T2 x = T1 x.
Proof. intros ev T T2 H. inversion H as [|e h T1 T2' F H']; subst. inversion H' as [T' X|]; subst. exists T1. auto. Qed.
(** The value for one service, after one more command. *)
Lemma effect_list : forall T a T', effect T (list_services, a) T' -> forall x, T' x = T x.
Proof.
  intros T a T' H. remember (list_services, a) as ev eqn:E. destruct H; pose proof (f_equal fst E) as E1; pose proof (f_equal snd E) as E2; cbn [fst snd] in E1, E2; clear E; unfold list_services, set_servers, set_domains, get_servers, get_domains, argv in E1; try (injection E1; discriminate); try discriminate E1. assumption.
Qed.
Lemma effect_get_servers : forall T s a T', effect T (get_servers s, a) T' -> (forall x, T' x = T x) /\ (a_status a = 0 -> shown (servers (T s)) (a_output a)).
Proof.
  intros T s a T' H. remember (get_servers s, a) as ev eqn:E. destruct H as [s' ws b T' _ _ _ _|s' ws b T' _ _ _ _|s' b T' _|s' b T' _|s' b T' X Y|s' b T' X Y|c b T' X N1 N2 N3 N4];
    pose proof (f_equal fst E) as E1; pose proof (f_equal snd E) as E2; cbn [fst snd] in E1, E2; clear E; try (unfold set_servers, set_domains, get_servers, get_domains, argv in E1; injection E1; discriminate).
  - assert (s' = s) by (unfold get_servers, argv in E1; congruence). subst. auto.
  - exfalso. exact (N1 _ E1).
Qed.
Lemma effect_get_domains : forall T s a T', effect T (get_domains s, a) T' -> (forall x, T' x = T x) /\ (a_status a = 0 -> shown (domains (T s)) (a_output a)).
Proof.
  intros T s a T' H. remember (get_domains s, a) as ev eqn:E. destruct H as [s' ws b T' _ _ _ _|s' ws b T' _ _ _ _|s' b T' _|s' b T' _|s' b T' X Y|s' b T' X Y|c b T' X N1 N2 N3 N4];
    pose proof (f_equal fst E) as E1; pose proof (f_equal snd E) as E2; cbn [fst snd] in E1, E2; clear E; try (unfold set_servers, set_domains, get_servers, get_domains, argv in E1; injection E1; discriminate).
  - assert (s' = s) by (unfold get_domains, argv in E1; congruence). subst. auto.
  - exfalso. exact (N2 _ E1).
Qed.
Lemma effect_set_servers : forall T s ws a T', effect T (set_servers s ws, a) T' ->
  same_but s T T' /\ domains (T' s) = domains (T s) /\ (ws = [] -> T' s = T s) /\ (ws <> [] -> a_status a = 0 -> servers (T' s) = meant ws).
Proof.
  intros T s ws a T' H. remember (set_servers s ws, a) as ev eqn:E. destruct H as [s' ws' b T' W X Y Z|s' ws' b T' W X Y Z|s' b T' X|s' b T' X|s' b T' X Y|s' b T' X Y|c b T' X N1 N2 N3 N4];
    pose proof (f_equal fst E) as E1; pose proof (f_equal snd E) as E2; cbn [fst snd] in E1, E2; clear E; try (unfold set_servers, set_domains, get_servers, get_domains, argv in E1; injection E1; discriminate).
  - assert (s' = s /\ ws' = ws) as (-> & ->) by (unfold set_servers, argv in E1; split; congruence). subst b. split; [exact X|]. split; [exact Y|]. split; [intro; contradiction|auto].
  - assert (s' = s /\ [] = ws) as (-> & <-) by (unfold set_servers, argv in E1; split; congruence). split; [intros x _; apply X|]. split; [rewrite X; reflexivity|]. split; [intros _; apply X|contradiction].
  - exfalso. exact (N3 _ _ E1).
Qed.
Lemma effect_set_domains : forall T s ws a T', effect T (set_domains s ws, a) T' ->
  same_but s T T' /\ servers (T' s) = servers (T s) /\ (ws = [] -> T' s = T s) /\ (ws <> [] -> a_status a = 0 -> domains (T' s) = meant ws).
Proof.
  intros T s ws a T' H. remember (set_domains s ws, a) as ev eqn:E. destruct H as [s' ws' b T' W X Y Z|s' ws' b T' W X Y Z|s' b T' X|s' b T' X|s' b T' X Y|s' b T' X Y|c b T' X N1 N2 N3 N4];
    pose proof (f_equal fst E) as E1; pose proof (f_equal snd E) as E2; cbn [fst snd] in E1, E2; clear E; try (unfold set_servers, set_domains, get_servers, get_domains, argv in E1; injection E1; discriminate).
  - assert (s' = s /\ ws' = ws) as (-> & ->) by (unfold set_domains, argv in E1; split; congruence). subst b. split; [exact X|]. split; [exact Y|]. split; [intro; contradiction|auto].
  - assert (s' = s /\ [] = ws) as (-> & <-) by (unfold set_domains, argv in E1; split; congruence). split; [intros x _; apply X|]. split; [rewrite X; reflexivity|]. split; [intros _; apply X|contradiction].
  - exfalso. exact (N4 _ _ E1).
Qed.
Lemma effect_foreign : forall T c a T', foreign c -> effect T (c, a) T' -> forall x, T' x = T x.
Proof.
  intros T c a T' F H. remember (c, a) as ev eqn:E. destruct H; pose proof (f_equal fst E) as E1; pose proof (f_equal snd E) as E2; cbn [fst snd] in E1, E2; clear E; try assumption; exfalso; subst c; eapply F; reflexivity.
Qed.
Lemma effects_foreign : forall h T T', Forall (fun ev => foreign (fst ev)) h -> effects T h T' -> forall x, T' x = T x.
Proof.
  intros h T T' F H. induction H as [T T' E|T [c a] h T1 T2 E H IH]; [exact E|]. inversion F; subst. intro x. rewrite IH by assumption. eapply effect_foreign; eassumption.
Qed.
