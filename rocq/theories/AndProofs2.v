(** Proofs about AndOptions.v. *)
From Coq Require Import String ZArith List Bool Lia.
From Verif Require Import Base Cstr CstrProofs Quick Uapi AndOptions AndSpec.
Import ListNotations.
Open Scope Z_scope.

Lemma lower_61 : forall x, lower x = 61 <-> x = 61.
Proof. intro x. unfold lower. destruct (Z.leb_spec 65 x), (Z.leb_spec x 90); cbn [andb]; lia. Qed.

(** [keyed] is [value_of], for a key without "=" *)
Lemma prefix_split : forall kk c, ~ In 61 kk ->
  beq (lowers (firstn (S (length kk)) c)) (kk ++ [61]) = match split_first 61 c with Some (k, _) => beq (lowers k) kk | None => false end.
Proof.
  induction kk as [|x kk IH]; intros c N.
  - destruct c as [|a c]; [reflexivity|]. cbn [length firstn app lowers map split_first].
    destruct (Z.eqb_spec a 61) as [->|E]; [reflexivity|]. cbn [beq].
    destruct (Z.eqb_spec (lower a) 61) as [K|K]; [apply (proj1 (lower_61 a)) in K; lia|]. cbn [andb].
    destruct (split_first 61 c) as [[k v]|]; reflexivity.
  - destruct c as [|a c]; [reflexivity|]. cbn [length app]. change (firstn (S (S (length kk))) (a :: c)) with (a :: firstn (S (length kk)) c).
    cbn [lowers map beq split_first]. change (map lower (firstn (S (length kk)) c)) with (lowers (firstn (S (length kk)) c)).
    rewrite IH by (intro K; apply N; right; exact K).
    destruct (Z.eqb_spec a 61) as [->|E].
    + cbn [lowers map beq]. change (lower 61) with 61. destruct (Z.eqb_spec 61 x) as [<-|_]; [exfalso; apply N; left; reflexivity|]. reflexivity.
    + destruct (split_first 61 c) as [[k v]|]; [reflexivity|apply andb_false_r].
Qed.
Lemma split_skip : forall kk c k v, split_first 61 c = Some (k, v) -> lowers k = kk -> skipn (S (length kk)) c = v /\ length c = (S (length kk) + length v)%nat.
Proof.
  intros kk c k v S E. apply split_first_some in S as [-> _]. subst kk. unfold lowers. rewrite map_length. split.
  - replace (S (length k)) with (length (k ++ [61])) by (rewrite app_length; cbn; lia).
    change (k ++ 61 :: v) with (k ++ [61] ++ v). rewrite app_assoc, skipn_app, Nat.sub_diag, skipn_all. reflexivity.
  - rewrite app_length. cbn [length]. lia.
Qed.
Lemma beq_iff : forall a b, beq a b = true <-> a = b.
Proof. intros. apply beq_eq. Qed.

Lemma keyed_value : forall key low more line, str low = lowers (str key) ++ [61] -> ~ In 61 (lowers (str key)) ->
  keyed low more (cleaned line) =
  match value_of key line with Some v => if (more <? S (length (str key)) + length v)%nat then Some v else None | None => None end.
Proof.
  intros key low more line K N. unfold keyed, value_of. fold (cleaned line). rewrite K, app_length. cbn [length].
  replace (length (lowers (str key)) + 1)%nat with (S (length (lowers (str key)))) by lia.
  rewrite prefix_split by exact N. destruct (split_first 61 (cleaned line)) as [[k v]|] eqn:S; [|reflexivity].
  unfold ci_eq. destruct (beq (lowers k) (lowers (str key))) eqn:B; [|reflexivity]. apply beq_iff in B.
  destruct (split_skip _ _ _ _ S B) as [S1 S2]. rewrite S1, S2. unfold lowers at 1. rewrite map_length. cbn [andb]. reflexivity.
Qed.
Ltac keys := first [reflexivity | cbn; intuition lia].
Lemma keyed_address : forall l, keyed "address=" 8 (cleaned l) = match value_of "Address" l with Some [] => None | o => o end.
Proof. intro l. rewrite (keyed_value "Address"); [|keys..]. destruct (value_of "Address" l) as [[|c v]|]; reflexivity. Qed.
Lemma keyed_dns : forall l, keyed "dns=" 4 (cleaned l) = match value_of "DNS" l with Some [] => None | o => o end.
Proof. intro l. rewrite (keyed_value "DNS"); [|keys..]. destruct (value_of "DNS" l) as [[|c v]|]; reflexivity. Qed.
Lemma keyed_mtu : forall l, keyed "mtu=" 4 (cleaned l) = match value_of "MTU" l with Some [] => None | o => o end.
Proof. intro l. rewrite (keyed_value "MTU"); [|keys..]. destruct (value_of "MTU" l) as [[|c v]|]; reflexivity. Qed.
Lemma keyed_excluded : forall l, keyed "excludedapplications=" 4 (cleaned l) = value_of "ExcludedApplications" l.
Proof. intro l. rewrite (keyed_value "ExcludedApplications"); [|keys..]. destruct (value_of "ExcludedApplications" l) as [[|c v]|]; reflexivity. Qed.
Lemma keyed_included : forall l, keyed "includedapplications=" 4 (cleaned l) = value_of "IncludedApplications" l.
Proof. intro l. rewrite (keyed_value "IncludedApplications"); [|keys..]. destruct (value_of "IncludedApplications" l) as [[|c v]|]; reflexivity. Qed.

(** A line gives at most one key. *)
Lemma value_unique : forall k1 k2 l v1 v2, value_of k1 l = Some v1 -> value_of k2 l = Some v2 -> lowers (str k1) = lowers (str k2).
Proof.
  intros k1 k2 l v1 v2 A B. unfold value_of, ci_eq in *. destruct (split_first 61 _) as [[k v]|]; [|discriminate].
  destruct (beq (lowers k) (lowers (str k1))) eqn:E1; [|discriminate]. destruct (beq (lowers k) (lowers (str k2))) eqn:E2; [|discriminate].
  apply beq_iff in E1, E2. congruence.
Qed.
Lemma header_no_value : forall l b k, opens l = Some b -> ~ In 91 (firstn 1 (lowers (str k))) -> str k <> [] -> value_of k l = None.
Proof.
  intros l b k O N NE. unfold opens, value_of in *. destruct (filter _ l) as [|c r]; [discriminate|].
  assert (c = 91) as ->. { destruct c; try discriminate. do 7 (destruct p; try discriminate). reflexivity. }
  cbn [split_first]. change (91 =? 61) with false. cbv iota. destruct (split_first 61 r) as [[k0 v]|]; [|reflexivity].
  destruct (ci_eq (91 :: k0) (str k)) eqn:E; [|reflexivity]. exfalso. apply beq_iff in E. apply N. rewrite <- E. left. reflexivity.
Qed.
Lemma section_step : forall sec l, in_section sec (cleaned l) = match opens l with Some b => b | None => sec end.
Proof.
  intros sec l. unfold in_section, opens. fold (cleaned l). destruct (cleaned l) as [|c r]; [reflexivity|].
  destruct (Z.eq_dec c 91) as [->|E].
  - destruct (ci_eq (91 :: r) (str "[Interface]")); reflexivity.
  - replace (match c with 91 => false | _ => sec end) with sec by (destruct c; try reflexivity; do 7 (destruct p; try reflexivity); congruence).
    replace (match c with 91 => Some (ci_eq (91 :: r) (str "[Interface]")) | _ => None end) with (@None bool) by (destruct c; try reflexivity; do 7 (destruct p; try reflexivity); congruence).
    assert (B : ci_eq (c :: r) (str "[Interface]") = false).
    { destruct (ci_eq (c :: r) (str "[Interface]")) eqn:B; [|reflexivity]. exfalso. apply beq_iff in B.
      assert (K : lower c = 91) by (change (lower c) with (hd 0 (lowers (c :: r))); rewrite B; reflexivity).
      unfold lower in K. destruct (Z.leb_spec 65 c), (Z.leb_spec c 90); cbn [andb] in K; lia. }
    rewrite B. reflexivity.
Qed.

(** ** The fold over the lines *)
Definition add_all (o : option (list Z)) (vs : list (list Z)) : option (list Z) := fold_left (fun o v => concat_and_free o [44] v) vs o.
Lemma add_all_some : forall vs t, add_all (Some t) vs = Some (t ++ concat (map (fun w => str "," ++ w) vs)).
Proof.
  induction vs as [|v vs IH]; intro t; [cbn; rewrite app_nil_r; reflexivity|].
  transitivity (add_all (Some (t ++ 44 :: v)) vs); [reflexivity|]. rewrite IH, <- app_assoc. reflexivity.
Qed.
Lemma add_all_none : forall vs, add_all None vs = match vs with [] => None | _ => Some (commas vs) end.
Proof. intros [|v vs]; [reflexivity|]. apply (add_all_some vs v). Qed.

Definition one (key : string) (m : bool * list Z) : list (list Z) := match setting_of key m with Some v => [v] | None => [] end.
Definition kept (m : bool * list Z) : bool := forallb (fun k => match setting_of k m with Some _ => false | None => true end) own_keys.

Lemma take_line_spec : forall sec s l,
  take_line sec s l =
  mk_settings (if kept (sec, l) then concat_and_free (s_config s) [] l else s_config s) (fold_left (fun _ v => atoi_unsigned v) (one "MTU" (sec, l)) (s_mtu s))
    (add_all (s_addrs s) (one "Address" (sec, l))) (add_all (s_dnses s) (one "DNS" (sec, l)))
    (add_all (s_excluded s) (one "ExcludedApplications" (sec, l))) (add_all (s_included s) (one "IncludedApplications" (sec, l))).
Proof.
  intros sec s l. unfold take_line, kept, own_keys, one, setting_of. cbn [forallb fst snd].
  destruct sec; cbn [negb]; [|reflexivity].
  rewrite keyed_address, keyed_dns, keyed_mtu, keyed_excluded, keyed_included.
  change (may_be_empty "Address") with false. change (may_be_empty "DNS") with false. change (may_be_empty "MTU") with false.
  change (may_be_empty "ExcludedApplications") with true. change (may_be_empty "IncludedApplications") with true.
  destruct (value_of "Address" l) as [a|] eqn:A; destruct (value_of "DNS" l) as [d|] eqn:D; destruct (value_of "MTU" l) as [m|] eqn:M;
    destruct (value_of "ExcludedApplications" l) as [e|] eqn:E; destruct (value_of "IncludedApplications" l) as [i|] eqn:I;
    try (exfalso; match goal with H1 : value_of ?k1 l = Some _, H2 : value_of ?k2 l = Some _ |- _ => 
           assert_fails (constr_eq k1 k2); pose proof (value_unique _ _ _ _ _ H1 H2) as X; cbn in X; congruence end).
  all: try (destruct a as [|? ?]); try (destruct d as [|? ?]); try (destruct m as [|? ?]); try (destruct e as [|? ?]); try (destruct i as [|? ?]); reflexivity.
Qed.

Definition conf_all (o : option (list Z)) (ms : list (bool * list Z)) : option (list Z) := fold_left (fun o m => concat_and_free o [] (snd m)) (filter kept ms) o.
Lemma conf_all_spec : forall ms o, match conf_all o ms with Some t => t | None => [] end = match o with Some t => t | None => [] end ++ for_wg ms.
Proof.
  induction ms as [|m ms IH]; intro o; [cbn; rewrite app_nil_r; reflexivity|]. unfold conf_all, for_wg in *. cbn [filter].
  change (forallb (fun k => match setting_of k m with Some _ => false | None => true end) own_keys) with (kept m).
  destruct (kept m); [|apply IH]. cbn [fold_left map concat]. rewrite IH, app_assoc. destruct o; reflexivity.
Qed.
Lemma take_lines_spec : forall ls sec s, Forall (fun l => Z.of_nat (length l) <= 65536) ls ->
  let ms := marked sec ls in
  take_lines sec s ls = filled (mk_settings (conf_all (s_config s) ms) (fold_left (fun _ v => atoi_unsigned v) (settings_of "MTU" ms) (s_mtu s))
    (add_all (s_addrs s) (settings_of "Address" ms)) (add_all (s_dnses s) (settings_of "DNS" ms))
    (add_all (s_excluded s) (settings_of "ExcludedApplications" ms)) (add_all (s_included s) (settings_of "IncludedApplications" ms))).
Proof.
  induction ls as [|l ls IH]; intros sec s F; [destruct s; reflexivity|]. inversion F as [|? ? F1 F2]; subst. cbn [take_lines marked].
  destruct (Z.ltb_spec 65536 (Z.of_nat (length l))); [lia|]. rewrite section_step. set (i := match opens l with Some b => b | None => sec end).
  cbv zeta. rewrite (IH i (take_line i s l) F2), take_line_spec.
  unfold settings_of. cbn [flat_map].
  change (match setting_of ?k (i, l) with Some v => [v] | None => [] end) with (one k (i, l)).
  unfold add_all at 1. cbn [s_config s_mtu s_addrs s_dnses s_excluded s_included]. unfold add_all, conf_all. rewrite !fold_left_app.
  cbn [filter]. destruct (kept (i, l)); reflexivity.
Qed.
