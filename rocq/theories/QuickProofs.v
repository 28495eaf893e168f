(** wg-quick's options: the model meets QuickSpec. *)
From Coq Require Import String ZArith List Bool Lia.
From Verif Require Import Base Cstr CstrProofs ConfigSpec Bash Quick QuickSpec.
Import ListNotations.
Open Scope Z_scope.

(** ** Trimming *)
Lemma drop_while_split : forall f s, exists a, s = a ++ drop_while f s /\ Forall (fun c => f c = true) a /\
  (drop_while f s = [] \/ exists x u, drop_while f s = x :: u /\ f x = false).
Proof.
  intros f s. induction s as [|c s IH]; simpl.
  - exists []. auto.
  - destruct (f c) eqn:E.
    + destruct IH as (a & H & Ha & Hd). exists (c :: a). split; [simpl; f_equal; exact H|]. split; [constructor; auto|exact Hd].
    + exists []. split; [reflexivity|]. split; [constructor|]. right. exists c, s. auto.
Qed.

Lemma ltrim_split : forall f s, exists a, s = a ++ ltrim f s /\ Forall (fun c => f c = true) a /\
  (ltrim f s = [] \/ exists x u, ltrim f s = x :: u /\ f x = false).
Proof. exact drop_while_split. Qed.

Lemma rtrim_split : forall f s, exists b, s = rtrim f s ++ b /\ Forall (fun c => f c = true) b /\
  (rtrim f s = [] \/ exists v y, rtrim f s = v ++ [y] /\ f y = false).
Proof.
  intros f s. unfold rtrim. destruct (drop_while_split f (rev s)) as (a & H & Ha & Hd).
  exists (rev a). split; [|split].
  - apply (f_equal (@rev Z)) in H. rewrite rev_involutive, rev_app_distr in H. exact H.
  - apply Forall_rev, Ha.
  - destruct Hd as [-> |(x & u & -> & Hx)]; [left; reflexivity|]. right. exists (rev u), x. split; [reflexivity|exact Hx].
Qed.

Lemma trim_trimmed : forall (f : Z -> bool) (P : Z -> Prop), (forall c, f c = true <-> P c) ->
  forall s, trimmed P s (trim f s).
Proof.
  intros f P HP s. unfold trim. destruct (ltrim_split f s) as (a & Hs & Ha & Hl).
  destruct (rtrim_split f (ltrim f s)) as (b & Hr & Hb & Ht).
  exists a, b. split; [rewrite <- Hr; exact Hs|]. split; [revert Ha; apply Forall_impl; intros; apply HP; assumption|].
  split; [revert Hb; apply Forall_impl; intros; apply HP; assumption|].
  destruct Ht as [Ht|(v & y & Ht & Hy)]; [left; exact Ht|]. right.
  destruct Hl as [Hl|(x & u & Hl & Hx)].
  - rewrite Hl in Ht. cbn in Ht. destruct v; discriminate.
  - rewrite Hl in Hr. destruct (rtrim f (ltrim f s)) as [|z w] eqn:E; [destruct v; discriminate|].
    rewrite Hl in E. rewrite E in Hr. cbn in Hr. injection Hr as -> Hu.
    exists z, y, w, v. split; [reflexivity|]. split; [exact Ht|].
    split; rewrite <- HP; congruence.
Qed.

Lemma app_prefix_unique : forall (P : Z -> Prop) a a' t t',
  a ++ t = a' ++ t' -> Forall P a -> Forall P a' ->
  (forall x u, t = x :: u -> ~ P x) -> (forall x u, t' = x :: u -> ~ P x) -> t <> [] -> t' <> [] -> a = a'.
Proof.
  induction a as [|c a IH]; intros [|c' a'] t t' H Ha Ha' Ht Ht' Hn Hn'; cbn in H.
  - reflexivity.
  - subst t. inversion Ha'; subst. exfalso. apply (Ht c' (a' ++ t') eq_refl). assumption.
  - subst t'. inversion Ha; subst. exfalso. apply (Ht' c (a ++ t) eq_refl). assumption.
  - injection H as <- H. inversion Ha; inversion Ha'; subst. f_equal. eapply IH; eauto.
Qed.

Lemma trimmed_fun : forall P s t t', trimmed P s t -> trimmed P s t' -> t = t'.
Proof.
  assert (main : forall P s t t', trimmed P s t -> trimmed P s t' -> t <> [] -> t' <> [] -> t = t').
  { intros P s t t' (a & b & Hs & Ha & Hb & Hc) (a' & b' & Hs' & Ha' & Hb' & Hc') Hn Hn'.
    destruct Hc as [|(x & y & u & v & E1 & E2 & Hx & Hy)]; [contradiction|].
    destruct Hc' as [|(x' & y' & u' & v' & E1' & E2' & Hx' & Hy')]; [contradiction|].
    assert (a = a') as <-.
    { apply (app_prefix_unique P a a' (t ++ b) (t' ++ b')); try assumption; try congruence.
      - intros z w Ez. rewrite E1 in Ez. injection Ez as <- _. exact Hx.
      - intros z w Ez. rewrite E1' in Ez. injection Ez as <- _. exact Hx'.
      - rewrite E1. discriminate.
      - rewrite E1'. discriminate. }
    rewrite Hs in Hs'. apply app_inv_head in Hs'.
    apply (f_equal (@rev Z)) in Hs'. rewrite !rev_app_distr in Hs'.
    assert (rev b = rev b') as Hbb.
    { apply (app_prefix_unique P _ _ (rev t) (rev t')); try assumption; try (apply Forall_rev; assumption).
      - intros z w Ez. rewrite E2, rev_app_distr in Ez. injection Ez as <- _. exact Hy.
      - intros z w Ez. rewrite E2', rev_app_distr in Ez. injection Ez as <- _. exact Hy'.
      - rewrite E2, rev_app_distr. discriminate.
      - rewrite E2', rev_app_distr. discriminate. }
    rewrite Hbb in Hs'. apply app_inv_head in Hs'. apply (f_equal (@rev Z)) in Hs'. rewrite !rev_involutive in Hs'. exact Hs'. }
  assert (nil : forall P s t, trimmed P s [] -> trimmed P s t -> t = []).
  { intros P s t (a & b & Hs & Ha & Hb & _) (a' & b' & Hs' & _ & _ & [->|(x & y & u & v & E1 & _ & Hx & _)]); [reflexivity|].
    exfalso. apply Hx. cbn in Hs. assert (Hall : Forall P (a' ++ t ++ b')) by (rewrite <- Hs', Hs; apply Forall_app; auto).
    apply Forall_app in Hall as [_ Hall]. rewrite E1 in Hall. inversion Hall; assumption. }
  intros P s t t' H H'. destruct t as [|c t]; [symmetry; eapply nil; eauto|]. destruct t' as [|c' t']; [eapply nil; eauto|].
  eapply main; eauto; discriminate.
Qed.

Lemma trimmed_iff : forall f (P : Z -> Prop), (forall c, f c = true <-> P c) -> forall s t, trimmed P s t <-> t = trim f s.
Proof.
  intros f P HP s t. split; [intro H|intros ->; apply trim_trimmed, HP].
  eapply trimmed_fun; [exact H|]. apply trim_trimmed, HP.
Qed.

Lemma blankb_blank : forall c, blankb c = true <-> blank c.
Proof. intro c. unfold blankb, blank. rewrite orb_true_iff, !Z.eqb_eq. reflexivity. Qed.
Lemma isspace_space : forall c, isspace c = true <-> space c.
Proof. intro c. unfold isspace, space. rewrite orb_true_iff, andb_true_iff, !Z.leb_le, Z.eqb_eq. tauto. Qed.

Lemma trim_nil_iff : forall f s, trim f s = [] <-> Forall (fun c => f c = true) s.
Proof.
  intros f s. pose proof (trim_trimmed f (fun c => f c = true) (fun c => iff_refl _) s) as T. split; intro H.
  - rewrite H in T. destruct T as (a & b & -> & Ha & Hb & _). cbn. apply Forall_app; auto.
  - symmetry. apply (trimmed_fun (fun c => f c = true) s); [|exact T].
    exists s, []. rewrite !app_nil_r. auto.
Qed.

(** ** Keys and values *)
Lemma before_upto : forall c s, upto c s (before c s).
Proof.
  intros c s. unfold upto, before. destruct (split_first c s) as [[a b]|] eqn:E.
  - apply split_first_some in E as [-> H]. split; [exact H|]. right. exists b. reflexivity.
  - apply split_first_none in E. auto.
Qed.
Lemma upto_fun : forall c s a a', upto c s a -> upto c s a' -> a = a'.
Proof.
  intros c s a a' [H H1] [H' H1'].
  assert (X : forall x, ~ In c x -> (s = x \/ exists r, s = x ++ c :: r) -> x = before c s).
  { intros x Hx [->|(r & ->)]; unfold before.
    - rewrite (proj2 (split_first_none c x) Hx). reflexivity.
    - rewrite split_first_app by exact Hx. reflexivity. }
  rewrite (X a), (X a'); auto.
Qed.
Lemma upto_iff : forall c s a, upto c s a <-> a = before c s.
Proof. intros. split; [intro H; eapply upto_fun; [exact H|apply before_upto]|intros ->; apply before_upto]. Qed.

Lemma key_of_iff : forall line k, key_of line k <-> k = line_key line.
Proof.
  intros line k. unfold key_of, line_key. split.
  - intros (a & b & Ha & Hb & Hk). apply upto_iff in Ha as ->. apply upto_iff in Hb as ->.
    apply (trimmed_iff isspace space isspace_space) in Hk. exact Hk.
  - intros ->. exists (before 35 line), (before 61 (before 35 line)). rewrite !upto_iff, (trimmed_iff isspace space isspace_space). auto.
Qed.

Lemma value_of_iff : forall line v, value_of line v <-> v = line_value line.
Proof.
  intros line v. unfold value_of, line_value.
  assert (A : forall a b, ((~ In 61 a /\ b = a) \/ (exists k, ~ In 61 k /\ a = k ++ 61 :: b)) <-> b = after 61 a).
  { intros a b. unfold after. destruct (split_first 61 a) as [[x y]|] eqn:E.
    - apply split_first_some in E as [-> H]. split.
      + intros [[N _]|(k & Hk & Ek)]; [exfalso; apply N, in_or_app; right; left; reflexivity|].
        pose proof (split_first_app 61 x y H) as S1. rewrite Ek, split_first_app in S1 by exact Hk. congruence.
      + intros ->. right. exists x. auto.
    - apply split_first_none in E. split.
      + intros [[_ ->]|(k & _ & ->)]; [reflexivity|]. exfalso. apply E, in_or_app. right. left. reflexivity.
      + intros ->. auto. }
  split.
  - intros (a & b & Ha & Hb & Hv). apply upto_iff in Ha as ->. apply A in Hb as ->.
    apply (trimmed_iff isspace space isspace_space) in Hv. exact Hv.
  - intros ->. exists (before 35 line), (after 61 (before 35 line)). rewrite upto_iff, A, (trimmed_iff isspace space isspace_space). auto.
Qed.

(** ** Lines *)
Lemma no_nul_id : forall s, ~ In 0 s -> no_nul s = s.
Proof.
  induction s as [|c s IH]; intro H; [reflexivity|]. cbn. destruct (Z.eqb_spec c 0) as [->|]; cbn.
  - exfalso. apply H. left. reflexivity.
  - f_equal. apply IH. intro. apply H. right. assumption.
Qed.

Lemma split_all_lines : forall full rest, Forall (fun l => ~ In 10 l) full -> ~ In 10 rest ->
  split_all 10 (concat (map (fun l => l ++ [10]) full) ++ rest) = full ++ [rest].
Proof.
  induction full as [|l full IH]; intros rest H Hr; cbn [map concat app].
  - apply split_all_none, Hr.
  - inversion H; subst. rewrite <- !app_assoc. cbn [app]. rewrite split_all_app by assumption. rewrite IH by assumption. reflexivity.
Qed.

Lemma split_all_shape : forall s, exists full rest, split_all 10 s = full ++ [rest] /\
  s = concat (map (fun l => l ++ [10]) full) ++ rest /\ Forall (fun l => ~ In 10 l) full /\ ~ In 10 rest.
Proof.
  intro s. pose proof (split_all_no_sep 10 s) as H. pose proof (split_all_nonempty 10 s) as N.
  pose proof (join_split_all 10 s) as J.
  destruct (exists_last N) as (full & rest & E). exists full, rest. rewrite E in *.
  apply Forall_app in H as [H1 H2]. split; [reflexivity|]. split; [|split; [exact H1|inversion H2; assumption]].
  rewrite <- J. clear. induction full as [|l full IH]; cbn [map concat app]; [reflexivity|].
  rewrite join_cons by (destruct full; discriminate). rewrite IH. rewrite <- !app_assoc. reflexivity.
Qed.

Lemma Forall2_trim : forall ls ts, Forall2 (trimmed blank) ls ts <-> ts = map (trim blankb) ls.
Proof.
  induction ls as [|l ls IH]; intros ts; cbn [map]; split; intro H.
  - inversion H; reflexivity.
  - subst. constructor.
  - inversion H; subst. apply (trimmed_iff blankb blank blankb_blank) in H2 as ->. f_equal. apply IH. assumption.
  - subst. constructor; [apply trim_trimmed, blankb_blank|]. apply IH. reflexivity.
Qed.

(** The lines of a file, as they are. *)
Definition lines_of (text : list Z) : list (list Z) :=
  let fs := split_all 10 text in
  removelast fs ++ (match trim blankb (last fs []) with [] => [] | _ => [last fs []] end).

Lemma lines_of_iff : forall text ls, file_lines text ls <-> ls = lines_of text.
Proof.
  intros text ls. unfold lines_of.
  assert (B : forall r, Forall blank r <-> trim blankb r = []).
  { intro r. rewrite trim_nil_iff. split; apply Forall_impl; intros; apply blankb_blank; assumption. }
  split.
  - intros (full & rest & -> & Hf & Hr & Hl). rewrite split_all_lines by assumption.
    rewrite removelast_last, last_last. destruct Hl as [[Hb Hl]|[Hb Hl]].
    + apply B in Hb. rewrite Hb, app_nil_r. exact Hl.
    + rewrite B in Hb. rewrite Hl. destruct (trim blankb rest); [contradiction Hb; reflexivity|reflexivity].
  - intros ->. destruct (split_all_shape text) as (full & rest & E & Et & Hf & Hr). rewrite E, removelast_last, last_last.
    exists full, rest. split; [exact Et|]. split; [exact Hf|]. split; [exact Hr|]. rewrite B.
    destruct (trim blankb rest) eqn:Er.
    + left. split; [reflexivity|]. apply app_nil_r.
    + right. split; [discriminate|reflexivity].
Qed.

Lemma read_loop_lines : forall text, ~ In 0 text -> read_loop text = map (trim blankb) (lines_of text).
Proof.
  intros text H. unfold read_loop, raw_lines, lines_of. rewrite no_nul_id by exact H. rewrite map_app. f_equal.
  destruct (trim blankb (last (split_all 10 text) [])) eqn:E; cbn [map]; [reflexivity|]. rewrite E. reflexivity.
Qed.

(** Blanks around a line do not matter for its key and value. *)
Lemma before_blank_l : forall c a s, ~ In c a -> before c (a ++ s) = a ++ before c s.
Proof.
  intros c a s H. apply (upto_fun c (a ++ s)); [apply before_upto|].
  destruct (before_upto c s) as [H1 H2]. split.
  - intro Hi. apply in_app_or in Hi as [Hi|Hi]; [exact (H Hi)|exact (H1 Hi)].
  - destruct H2 as [H2|(r & H2)]; [left; f_equal; exact H2|right; exists r; rewrite <- app_assoc; f_equal; exact H2].
Qed.
Lemma before_app : forall c s b, ~ In c b -> exists b', before c (s ++ b) = before c s ++ b' /\ (b' = [] \/ b' = b).
Proof.
  intros c s b H. unfold before at 2. destruct (split_first c s) as [[x y]|] eqn:E.
  - exists []. split; [|left; reflexivity]. apply split_first_some in E as [-> E]. rewrite app_nil_r. unfold before. rewrite <- app_assoc. cbn [app].
    rewrite split_first_app by exact E. reflexivity.
  - apply split_first_none in E. exists b. split; [|right; reflexivity]. unfold before.
    replace (split_first c (s ++ b)) with (@None (list Z * list Z)); [reflexivity|]. symmetry. apply split_first_none.
    intro Hi. apply in_app_or in Hi as [Hi|Hi]; [exact (E Hi)|exact (H Hi)].
Qed.
Lemma trim_around : forall f a s b, Forall (fun c => f c = true) a -> Forall (fun c => f c = true) b -> trim f (a ++ s ++ b) = trim f s.
Proof.
  intros f a s b Ha Hb. pose proof (trim_trimmed f (fun c => f c = true) (fun c => iff_refl _)) as T.
  apply (trimmed_fun (fun c => f c = true) (a ++ s ++ b)); [apply T|].
  destruct (T s) as (x & y & Hs & Hx & Hy & Hc). exists (a ++ x), (y ++ b).
  split; [rewrite Hs at 1; rewrite <- !app_assoc; reflexivity|]. split; [apply Forall_app; auto|]. split; [apply Forall_app; auto|exact Hc].
Qed.

Lemma blank_space : forall a, Forall (fun c => blankb c = true) a -> Forall (fun c => isspace c = true) a.
Proof.
  intro a. apply Forall_impl. intros c H. apply blankb_blank in H. apply isspace_space. unfold space. destruct H as [-> | ->]; lia.
Qed.
Lemma blank_not_in : forall c a, Forall (fun c => blankb c = true) a -> blankb c = false -> ~ In c a.
Proof. intros c a H Hc Hi. rewrite Forall_forall in H. rewrite (H c Hi) in Hc. discriminate. Qed.

Lemma trim_parts : forall s, exists a b, s = a ++ trim blankb s ++ b /\
  Forall (fun c => blankb c = true) a /\ Forall (fun c => blankb c = true) b.
Proof.
  intro s. destruct (trim_trimmed blankb (fun c => blankb c = true) (fun c => iff_refl _) s) as (a & b & H & Ha & Hb & _).
  exists a, b. auto.
Qed.

Lemma line_key_trim : forall l, line_key (trim blankb l) = line_key l.
Proof.
  intro l. destruct (trim_parts l) as (a & b & H & Ha & Hb). set (t := trim blankb l) in *. rewrite H. unfold line_key.
  rewrite before_blank_l by (apply blank_not_in; [exact Ha|reflexivity]).
  destruct (before_app 35 t b) as (b1 & E1 & D1); [apply blank_not_in; [exact Hb|reflexivity]|]. rewrite E1.
  assert (Hb1 : Forall (fun c => blankb c = true) b1) by (destruct D1 as [-> | ->]; [constructor|exact Hb]).
  rewrite before_blank_l by (apply blank_not_in; [exact Ha|reflexivity]).
  destruct (before_app 61 (before 35 t) b1) as (b2 & E2 & D2); [apply blank_not_in; [exact Hb1|reflexivity]|]. rewrite E2.
  assert (Hb2 : Forall (fun c => blankb c = true) b2) by (destruct D2 as [-> | ->]; [constructor|exact Hb1]).
  symmetry. apply trim_around; apply blank_space; assumption.
Qed.

Lemma line_value_trim : forall l, line_value (trim blankb l) = line_value l.
Proof.
  intro l. destruct (trim_parts l) as (a & b & H & Ha & Hb). set (t := trim blankb l) in *. rewrite H. unfold line_value.
  rewrite before_blank_l by (apply blank_not_in; [exact Ha|reflexivity]).
  destruct (before_app 35 t b) as (b1 & E1 & D1); [apply blank_not_in; [exact Hb|reflexivity]|]. rewrite E1.
  assert (Hb1 : Forall (fun c => blankb c = true) b1) by (destruct D1 as [-> | ->]; [constructor|exact Hb]).
  set (u := before 35 t) in *. unfold after. destruct (split_first 61 u) as [[x y]|] eqn:E.
  - apply split_first_some in E as [-> E]. rewrite <- app_assoc. cbn [app]. rewrite app_assoc. rewrite split_first_app.
    + symmetry. apply (trim_around isspace [] y b1); [constructor|apply blank_space; exact Hb1].
    + intro Hi. apply in_app_or in Hi as [Hi|Hi]; [|exact (E Hi)]. revert Hi. apply blank_not_in; [exact Ha|reflexivity].
  - apply split_first_none in E. replace (split_first 61 (a ++ u ++ b1)) with (@None (list Z * list Z)).
    + symmetry. apply trim_around; apply blank_space; assumption.
    + symmetry. apply split_first_none. intro Hi. apply in_app_or in Hi as [Hi|Hi]; [revert Hi; apply blank_not_in; [exact Ha|reflexivity]|].
      apply in_app_or in Hi as [Hi|Hi]; [exact (E Hi)|revert Hi; apply blank_not_in; [exact Hb1|reflexivity]].
Qed.

(** ** Sections *)
Lemma header_iff : forall l, header l <-> starts_with [91] (line_key l) = true.
Proof.
  intro l. unfold header. split.
  - intros (k & Hk). apply key_of_iff in Hk. rewrite <- Hk. reflexivity.
  - intro H. destruct (line_key l) as [|c k] eqn:E; [discriminate|]. exists k. apply key_of_iff. rewrite E. f_equal.
    unfold starts_with, strip_prefix in H. destruct (Z.eqb_spec 91 c) as [Hc|Hc]; [exact Hc|discriminate H].
Qed.
Lemma ci_eq_ci : forall a b, ci_eq a b = true <-> ci a b.
Proof. intros. unfold ci_eq, ci. apply beq_eq. Qed.
Lemma interface_header_iff : forall l, interface_header l <-> ci_eq (line_key l) (str "[Interface]") = true.
Proof.
  intro l. rewrite ci_eq_ci. unfold interface_header. split.
  - intros (k & Hk & Hc). apply key_of_iff in Hk as ->. exact Hc.
  - intro H. exists (line_key l). rewrite key_of_iff. auto.
Qed.

Lemma section_after_iff : forall sect l, section_after sect l = true <-> interface_header l \/ (~ header l /\ sect = true).
Proof.
  intros sect l. rewrite interface_header_iff, header_iff. unfold section_after.
  destruct (ci_eq (line_key l) (str "[Interface]")); [tauto|].
  destruct (starts_with [91] (line_key l)); destruct sect; intuition congruence.
Qed.

(** [sect] is right for the line before. *)
Definition sect_ok (sect : bool) (pre : list (list Z)) : Prop :=
  sect = true <-> exists a h b, pre = a ++ h :: b /\ interface_header h /\ Forall (fun l => ~ header l) b.

Lemma sect_step : forall sect pre l, sect_ok sect pre -> sect_ok (section_after sect l) (pre ++ [l]).
Proof.
  intros sect pre l H. unfold sect_ok in *. rewrite section_after_iff, H. split.
  - intros [Hi|(Hh & a & h & b & -> & Hi & Hb)].
    + exists pre, l, []. auto.
    + exists a, h, (b ++ [l]). split; [rewrite <- app_assoc; reflexivity|]. split; [exact Hi|]. apply Forall_app. auto.
  - intros (a & h & b & E & Hi & Hb). destruct b as [|x b] using rev_ind.
    + apply app_inj_tail in E as [_ ->]. left. exact Hi.
    + right. change (a ++ h :: b ++ [x]) with (a ++ (h :: b) ++ [x]) in E. rewrite app_assoc in E. apply app_inj_tail in E as [-> ->].
      apply Forall_app in Hb as [Hb Hx]. inversion Hx; subst. split; [assumption|]. exists a, h, b. auto.
Qed.

Lemma sect_in_interface : forall sect pre l, sect_ok sect pre -> (section_after sect l = true <-> in_interface pre l).
Proof. intros sect pre l H. apply (sect_step sect pre l) in H. exact H. Qed.

(** ** Which line sets what *)
Definition setsb (name : string) (s : bool) (l : list Z) : bool := s && ci_eq (line_key l) (str name).
Lemma sets_iff : forall name sect pre l v, sect_ok sect pre ->
  (sets name pre l v <-> setsb name (section_after sect l) l = true /\ v = line_value l).
Proof.
  intros name sect pre l v H. unfold sets, setsb. rewrite andb_true_iff, (sect_in_interface sect pre l H), value_of_iff, ci_eq_ci.
  split.
  - intros (A & (k & Hk & Hc) & B). apply key_of_iff in Hk as ->. auto.
  - intros ((A & B) & C). split; [exact A|]. split; [|exact C]. exists (line_key l). rewrite key_of_iff. auto.
Qed.

Definition ownb (s : bool) (l : list Z) : bool := existsb (fun n => setsb n s l) own_keys.
Lemma own_iff : forall sect pre l, sect_ok sect pre -> (own pre l <-> ownb (section_after sect l) l = true).
Proof.
  intros sect pre l H. unfold own, ownb. rewrite existsb_exists. split.
  - intros (n & v & Hn & Hs). apply (sets_iff n sect pre l v H) in Hs as [Hs _]. exists n. auto.
  - intros (n & Hn & Hs). exists n, (line_value l). split; [exact Hn|]. apply (sets_iff n sect pre l _ H). auto.
Qed.

(** The values and lines the loop meets. *)
Fixpoint vals (name : string) (sect : bool) (ls : list (list Z)) : list (list Z) :=
  match ls with
  | [] => []
  | l :: ls' => let s := section_after sect l in
                (if setsb name s l then [line_value l] else []) ++ vals name s ls'
  end.
Fixpoint kept (sect : bool) (ls : list (list Z)) : list (list Z) :=
  match ls with
  | [] => []
  | l :: ls' => let s := section_after sect l in (if ownb s l then [] else [l]) ++ kept s ls'
  end.

Lemma picks_fun : forall P : list (list Z) -> list Z -> list Z -> Prop, (forall pre l v v', P pre l v -> P pre l v' -> v = v') ->
  forall pre ls vs, picks P pre ls vs -> forall vs', picks P pre ls vs' -> vs = vs'.
Proof.
  intros P HP pre ls vs H. induction H as [pre|pre l ls v vs Hv H IH|pre l ls vs Hn H IH]; intros vs' H'.
  - inversion H'; reflexivity.
  - inversion H' as [|? ? ? v' vs2 Hv' H2|? ? ? ? Hn' H2]; subst.
    + f_equal; [eapply HP; eauto|apply IH, H2].
    + exfalso. exact (Hn' _ Hv).
  - inversion H' as [|? ? ? v' vs2 Hv' H2|? ? ? ? Hn' H2]; subst.
    + exfalso. exact (Hn _ Hv').
    + apply IH, H2.
Qed.

Lemma vals_picks : forall name ls sect pre, sect_ok sect pre -> picks (sets name) pre ls (vals name sect ls).
Proof.
  induction ls as [|l ls IH]; intros sect pre H; cbn [vals]; [constructor|].
  pose proof (IH _ _ (sect_step sect pre l H)) as IH'. destruct (setsb name (section_after sect l) l) eqn:E.
  - cbn [app]. constructor; [|exact IH']. apply (sets_iff name sect pre l _ H). auto.
  - cbn [app]. apply pk_skip; [|exact IH']. intros v Hv. apply (sets_iff name sect pre l v H) in Hv as [Hv _]. congruence.
Qed.
Lemma kept_picks : forall ls sect pre, sect_ok sect pre -> picks (fun p l v => v = l /\ ~ own p l) pre ls (kept sect ls).
Proof.
  induction ls as [|l ls IH]; intros sect pre H; cbn [kept]; [constructor|].
  pose proof (IH _ _ (sect_step sect pre l H)) as IH'. destruct (ownb (section_after sect l) l) eqn:E.
  - cbn [app]. apply pk_skip; [|exact IH']. intros v [_ Hv]. apply Hv. apply (own_iff sect pre l H). exact E.
  - cbn [app]. constructor; [|exact IH']. split; [reflexivity|]. rewrite (own_iff sect pre l H). congruence.
Qed.
Lemma sect_ok_start : sect_ok false [].
Proof. split; [discriminate|]. intros (a & h & b & E & _). destruct a; discriminate. Qed.

Lemma values_iff : forall name ls vs, values name ls vs <-> vs = vals name false ls.
Proof.
  intros name ls vs. split; [|intros ->; apply vals_picks, sect_ok_start]. intro H.
  eapply (picks_fun (sets name)); [|exact H|apply vals_picks, sect_ok_start].
  intros pre l v v' (_ & _ & H1) (_ & _ & H2). apply value_of_iff in H1, H2. congruence.
Qed.
Lemma others_iff : forall ls k, others ls k <-> k = kept false ls.
Proof.
  intros ls k. split; [|intros ->; apply kept_picks, sect_ok_start]. intro H.
  eapply picks_fun; [|exact H|apply kept_picks, sect_ok_start].
  intros pre l v v' [H1 _] [H2 _]. congruence.
Qed.

Lemma section_trim : forall s l, section_after s (trim blankb l) = section_after s l.
Proof. intros. unfold section_after. rewrite line_key_trim. reflexivity. Qed.
Lemma setsb_trim : forall n s l, setsb n s (trim blankb l) = setsb n s l.
Proof. intros. unfold setsb. rewrite line_key_trim. reflexivity. Qed.
Lemma vals_trim : forall n ls s, vals n s (map (trim blankb) ls) = vals n s ls.
Proof.
  induction ls as [|l ls IH]; intro s; cbn [map vals]; [reflexivity|]. rewrite section_trim, setsb_trim, line_value_trim, IH. reflexivity.
Qed.
Lemma kept_trim : forall ls s, kept s (map (trim blankb) ls) = map (trim blankb) (kept s ls).
Proof.
  induction ls as [|l ls IH]; intro s; cbn [map kept]; [reflexivity|]. rewrite section_trim, IH, map_app. f_equal.
  unfold ownb. cbn [existsb own_keys]. rewrite !setsb_trim. destruct (_ || _); reflexivity.
Qed.

(** ** The loop *)
Lemma trim_head : forall f s c u, trim f s = c :: u -> f c = false.
Proof.
  intros f s c u H. pose proof (trim_trimmed f (fun c => f c = true) (fun c => iff_refl _) s) as (a & b & _ & _ & _ & T).
  rewrite H in T. destruct T as [T|(x & y & u' & v & E1 & _ & Hx & _)]; [discriminate|]. injection E1 as <- _.
  destruct (f c); congruence.
Qed.

(** At most one name fits a key. *)
Lemma key_one : forall k n m, ci_eq k (str n) = true -> ci_eq k (str m) = beq (lowers (str n)) (lowers (str m)).
Proof. intros k n m H. unfold ci_eq in *. apply beq_eq in H. rewrite H. reflexivity. Qed.

Section Loop.
Variable glob : list Z -> list (list Z).
Notation expand := (expand glob).

Definition list_words (v : list Z) : list (list Z) := expand (map_char 44 32 v).
Definition bool_of (v : list Z) (b : bool) : bool := match read_bool v with Some x => x | None => b end.

(** What a run of lines adds to the options. *)
Definition result (sect : bool) (ls : list (list Z)) (o : options) : options :=
  let d := dns_words glob (flat_map list_words (vals "DNS" sect ls)) o in
  mk_options (o_config o ++ concat (map (fun l => l ++ [10]) (kept sect ls)))
    (o_addresses o ++ flat_map list_words (vals "Address" sect ls))
    (last (vals "MTU" sect ls) (o_mtu o)) (o_dns d) (o_search d)
    (last (vals "Table" sect ls) (o_table o))
    (o_preup o ++ vals "PreUp" sect ls) (o_postup o ++ vals "PostUp" sect ls)
    (o_predown o ++ vals "PreDown" sect ls) (o_postdown o ++ vals "PostDown" sect ls)
    (fold_left (fun b v => bool_of v b) (vals "SaveConfig" sect ls) (o_save o)).

Lemma dns_fields : forall ws o,
  dns_words glob ws o = mk_options (o_config o) (o_addresses o) (o_mtu o)
    (o_dns o ++ flat_map expand (filter dns_address ws)) (o_search o ++ flat_map expand (filter (fun w => negb (dns_address w)) ws))
    (o_table o) (o_preup o) (o_postup o) (o_predown o) (o_postdown o) (o_save o).
Proof.
  unfold dns_words. induction ws as [|w ws IH]; intro o.
  - cbn [fold_left filter flat_map]. rewrite !app_nil_r. destruct o; reflexivity.
  - cbn [fold_left]. rewrite IH. cbn [filter]. destruct (dns_address w); cbn [negb add_dns add_search o_config o_addresses o_mtu
      o_dns o_search o_table o_preup o_postup o_predown o_postdown o_save flat_map]; rewrite <- ?app_assoc; reflexivity.
Qed.

Lemma last_cons_app : forall (A : Type) (l : list A) x d, last (x :: l) d = last l x.
Proof. intros A. induction l as [|y l IH]; intros x d; [reflexivity|]. change (last (x :: y :: l) d) with (last (y :: l) d). rewrite IH. symmetry. apply IH. Qed.

Lemma option_eta : forall o, mk_options (o_config o) (o_addresses o) (o_mtu o) (o_dns o) (o_search o) (o_table o)
    (o_preup o) (o_postup o) (o_predown o) (o_postdown o) (o_save o) = o.
Proof. intros []. reflexivity. Qed.

Lemma parse_loop_result : forall ls sect o,
  parse_loop glob sect ls o =
  if forallb (fun v => match read_bool v with Some _ => true | None => false end) (vals "SaveConfig" sect ls)
  then Some (result sect ls o) else None.
Proof.
  induction ls as [|l ls IH]; intros sect o; cbn [parse_loop].
  - cbn. unfold result. rewrite dns_fields. cbn. rewrite !app_nil_r. rewrite option_eta. reflexivity.
  - set (s := section_after sect l).
    assert (NO : forall n, ci_eq (line_key l) (str n) = false -> vals n sect (l :: ls) = vals n s ls).
    { intros n Hn. cbn [vals]. fold s. unfold setsb. rewrite Hn, andb_false_r. reflexivity. }
    assert (YES : forall n, s = true -> ci_eq (line_key l) (str n) = true -> vals n sect (l :: ls) = line_value l :: vals n s ls).
    { intros n Hs Hn. cbn [vals]. fold s. unfold setsb. rewrite Hn, Hs. reflexivity. }
    assert (OFF : forall n, s = false -> vals n sect (l :: ls) = vals n s ls).
    { intros n Hs. cbn [vals]. fold s. unfold setsb. rewrite Hs. reflexivity. }
    assert (KY : forall n, s = true -> In n own_keys -> ci_eq (line_key l) (str n) = true -> kept sect (l :: ls) = kept s ls).
    { intros n Hs Hi Hn. cbn [kept]. fold s. replace (ownb s l) with true; [reflexivity|]. symmetry. unfold ownb.
      apply existsb_exists. exists n. split; [exact Hi|]. unfold setsb. rewrite Hs, Hn. reflexivity. }
    unfold take_line. destruct s eqn:Es.
    2:{ rewrite IH. rewrite (OFF "SaveConfig"%string) by reflexivity.
        destruct (forallb _ (vals "SaveConfig" false ls)); [|reflexivity]. f_equal. unfold result. rewrite !dns_fields.
        rewrite !OFF by reflexivity. cbn [kept]. fold s. rewrite Es. unfold ownb. cbn [existsb own_keys setsb andb orb].
        cbn [add_config o_config o_addresses o_mtu o_dns o_search o_table o_preup o_postup o_predown o_postdown o_save app map concat].
        rewrite <- !app_assoc. reflexivity. }
    destruct (ci_eq (line_key l) (str "Address")) eqn:E1.
    { rewrite IH. rewrite (NO "SaveConfig"%string) by (rewrite (key_one _ _ _ E1); reflexivity).
      destruct (forallb _ _); [|reflexivity]. f_equal. unfold result. rewrite !dns_fields, (KY "Address"%string) by (try reflexivity; cbn; tauto).
      rewrite (YES "Address"%string) by (try reflexivity; assumption). rewrite !NO by (rewrite (key_one _ _ _ E1); reflexivity).
      cbn [flat_map add_addresses o_config o_addresses o_mtu o_dns o_search o_table o_preup o_postup o_predown o_postdown o_save].
      unfold list_words at 2. rewrite <- !app_assoc. reflexivity. }
    destruct (ci_eq (line_key l) (str "MTU")) eqn:E2.
    { rewrite IH. rewrite (NO "SaveConfig"%string) by (rewrite (key_one _ _ _ E2); reflexivity).
      destruct (forallb _ _); [|reflexivity]. f_equal. unfold result. rewrite !dns_fields, (KY "MTU"%string) by (try reflexivity; cbn; tauto).
      rewrite (YES "MTU"%string) by (try reflexivity; assumption). rewrite !NO by (rewrite (key_one _ _ _ E2); reflexivity).
      rewrite last_cons_app. reflexivity. }
    destruct (ci_eq (line_key l) (str "DNS")) eqn:E3.
    { rewrite IH. rewrite (NO "SaveConfig"%string) by (rewrite (key_one _ _ _ E3); reflexivity).
      destruct (forallb _ _); [|reflexivity]. f_equal. unfold result. rewrite (KY "DNS"%string) by (try reflexivity; cbn; tauto).
      rewrite (YES "DNS"%string) by (try reflexivity; assumption). rewrite !NO by (rewrite (key_one _ _ _ E3); reflexivity).
      cbn [flat_map]. fold (list_words (line_value l)). rewrite !dns_fields.
      cbn [o_config o_addresses o_mtu o_dns o_search o_table o_preup o_postup o_predown o_postdown o_save].
      rewrite !filter_app, !flat_map_app, <- !app_assoc. reflexivity. }
    destruct (ci_eq (line_key l) (str "Table")) eqn:E4.
    { rewrite IH. rewrite (NO "SaveConfig"%string) by (rewrite (key_one _ _ _ E4); reflexivity).
      destruct (forallb _ _); [|reflexivity]. f_equal. unfold result. rewrite !dns_fields, (KY "Table"%string) by (try reflexivity; cbn; tauto).
      rewrite (YES "Table"%string) by (try reflexivity; assumption). rewrite !NO by (rewrite (key_one _ _ _ E4); reflexivity).
      rewrite last_cons_app. reflexivity. }
    destruct (ci_eq (line_key l) (str "PreUp")) eqn:E5.
    { rewrite IH. rewrite (NO "SaveConfig"%string) by (rewrite (key_one _ _ _ E5); reflexivity).
      destruct (forallb _ _); [|reflexivity]. f_equal. unfold result. rewrite !dns_fields, (KY "PreUp"%string) by (try reflexivity; cbn; tauto).
      rewrite (YES "PreUp"%string) by (try reflexivity; assumption). rewrite !NO by (rewrite (key_one _ _ _ E5); reflexivity).
      cbn [add_preup o_config o_addresses o_mtu o_dns o_search o_table o_preup o_postup o_predown o_postdown o_save].
      rewrite <- !app_assoc. reflexivity. }
    destruct (ci_eq (line_key l) (str "PreDown")) eqn:E6.
    { rewrite IH. rewrite (NO "SaveConfig"%string) by (rewrite (key_one _ _ _ E6); reflexivity).
      destruct (forallb _ _); [|reflexivity]. f_equal. unfold result. rewrite !dns_fields, (KY "PreDown"%string) by (try reflexivity; cbn; tauto).
      rewrite (YES "PreDown"%string) by (try reflexivity; assumption). rewrite !NO by (rewrite (key_one _ _ _ E6); reflexivity).
      cbn [add_predown o_config o_addresses o_mtu o_dns o_search o_table o_preup o_postup o_predown o_postdown o_save].
      rewrite <- !app_assoc. reflexivity. }
    destruct (ci_eq (line_key l) (str "PostUp")) eqn:E7.
    { rewrite IH. rewrite (NO "SaveConfig"%string) by (rewrite (key_one _ _ _ E7); reflexivity).
      destruct (forallb _ _); [|reflexivity]. f_equal. unfold result. rewrite !dns_fields, (KY "PostUp"%string) by (try reflexivity; cbn; tauto).
      rewrite (YES "PostUp"%string) by (try reflexivity; assumption). rewrite !NO by (rewrite (key_one _ _ _ E7); reflexivity).
      cbn [add_postup o_config o_addresses o_mtu o_dns o_search o_table o_preup o_postup o_predown o_postdown o_save].
      rewrite <- !app_assoc. reflexivity. }
    destruct (ci_eq (line_key l) (str "PostDown")) eqn:E8.
    { rewrite IH. rewrite (NO "SaveConfig"%string) by (rewrite (key_one _ _ _ E8); reflexivity).
      destruct (forallb _ _); [|reflexivity]. f_equal. unfold result. rewrite !dns_fields, (KY "PostDown"%string) by (try reflexivity; cbn; tauto).
      rewrite (YES "PostDown"%string) by (try reflexivity; assumption). rewrite !NO by (rewrite (key_one _ _ _ E8); reflexivity).
      cbn [add_postdown o_config o_addresses o_mtu o_dns o_search o_table o_preup o_postup o_predown o_postdown o_save].
      rewrite <- !app_assoc. reflexivity. }
    destruct (ci_eq (line_key l) (str "SaveConfig")) eqn:E9.
    { rewrite (YES "SaveConfig"%string) by (try reflexivity; assumption). cbn [forallb].
      destruct (read_bool (line_value l)) as [b|] eqn:Eb; [|reflexivity]. cbn [andb].
      rewrite IH. destruct (forallb _ _); [|reflexivity]. f_equal. unfold result. rewrite !dns_fields, (KY "SaveConfig"%string) by (try reflexivity; cbn; tauto).
      rewrite (YES "SaveConfig"%string) by (try reflexivity; assumption). rewrite !NO by assumption.
      cbn [fold_left]. unfold bool_of at 3. rewrite Eb. reflexivity. }
    rewrite IH. rewrite (NO "SaveConfig"%string) by assumption.
    destruct (forallb _ _); [|reflexivity]. f_equal. unfold result. rewrite !dns_fields. rewrite !NO by assumption.
    cbn [kept]. fold s. rewrite Es. unfold ownb. cbn [existsb own_keys]. unfold setsb. rewrite E1, E2, E3, E4, E5, E6, E7, E8, E9.
    cbn [andb orb]. cbn [add_config o_config o_addresses o_mtu o_dns o_search o_table o_preup o_postup o_predown o_postdown o_save app map concat].
    rewrite <- !app_assoc. reflexivity.
Qed.
End Loop.
