(** Proofs about src/setconf.c. *)
From Coq Require Import String ZArith List Bool Lia Permutation Sorted.
From Verif Require Import Base Types NlSpec KernelSpec Config Setconf SyncSpec.
Import ListNotations.
Open Scope Z_scope.

(** ** The merge *)

Lemma memcmp_refl : forall a, memcmp a a = 0.
Proof. induction a as [|x a IH]; cbn; [reflexivity|]. rewrite Z.eqb_refl. exact IH. Qed.
Lemma memcmp_anti : forall a b, memcmp b a = - memcmp a b.
Proof.
  induction a as [|x a IH]; intros [|y b]; cbn; try reflexivity.
  destruct (Z.eqb_spec x y), (Z.eqb_spec y x); try lia. apply IH.
Qed.
Lemma memcmp_eq : forall a b, length a = length b -> memcmp a b = 0 -> a = b.
Proof.
  induction a as [|x a IH]; intros [|y b] L H; cbn in *; try lia; try reflexivity.
  destruct (Z.eqb_spec x y); [|lia]. f_equal; [assumption|]. apply IH; lia.
Qed.
Lemma memcmp_trans : forall a b c, length a = length b -> length b = length c -> memcmp a b <= 0 -> memcmp b c <= 0 -> memcmp a c <= 0.
Proof.
  induction a as [|x a IH]; intros [|y b] [|z c] L1 L2 H1 H2; cbn in *; try lia.
  destruct (Z.eqb_spec x y), (Z.eqb_spec y z), (Z.eqb_spec x z); subst; try lia. apply (IH b c); lia.
Qed.

Definition le_o (a b : origin) : Prop := pubkey_cmp a b <= 0.
Lemma cmp_keys : forall a b, le_o a b -> memcmp (fst a) (fst b) <= 0.
Proof. intros a b. unfold le_o, pubkey_cmp. destruct (Z.eqb_spec (memcmp (fst a) (fst b)) 0); cbn; lia. Qed.
Lemma le_o_trans : forall a b c, length (fst a) = length (fst b) -> length (fst b) = length (fst c) -> le_o a b -> le_o b c -> le_o a c.
Proof.
  intros a b c L1 L2 H1 H2. pose proof (memcmp_trans _ _ _ L1 L2 (cmp_keys _ _ H1) (cmp_keys _ _ H2)) as H.
  unfold le_o, pubkey_cmp in *. destruct (Z.eqb_spec (memcmp (fst a) (fst c)) 0) as [E|E]; cbn; [|lia].
  assert (a1 : fst a = fst c) by (apply memcmp_eq; [congruence|exact E]).
  assert (a2 : fst a = fst b).
  { apply memcmp_eq; [exact L1|]. pose proof (memcmp_anti (fst b) (fst c)) as A. pose proof (memcmp_anti (fst a) (fst b)) as A'.
    rewrite <- a1 in *. destruct (Z.eqb_spec (memcmp (fst a) (fst b)) 0), (Z.eqb_spec (memcmp (fst b) (fst a)) 0); cbn in *; lia. }
  rewrite <- a1, <- a2, memcmp_refl in *. cbn in *. lia.
Qed.

Lemma sorted_strong : forall l, Forall (fun o => length (fst o) = 32%nat) l -> Sorted le_o l -> StronglySorted le_o l.
Proof.
  induction l as [|x l IH]; intros F S; [constructor|]. inversion F as [|? ? Fx Fl]; subst. inversion S as [|? ? Sl Hd]; subst.
  specialize (IH Fl Sl). constructor; [exact IH|].
  destruct l as [|y l]; [constructor|]. inversion Hd; subst. inversion IH as [|? ? _ Hy]; subst. inversion Fl as [|? ? Fy Fl']; subst.
  constructor; [assumption|]. rewrite Forall_forall in *. intros z Hz. apply (le_o_trans x y z); [congruence|rewrite (Fl' z Hz); assumption|assumption|apply Hy, Hz].
Qed.

(** The keys to remove are those that are only on the interface. *)
Lemma removals_spec : forall arr, Forall (fun o => length (fst o) = 32%nat) arr -> StronglySorted le_o arr -> NoDup (map fst (filter (fun o => negb (snd o)) arr)) ->
  forall k, In k (removals arr) <-> In (k, false) arr /\ ~ In (k, true) arr.
Proof.
  induction arr as [|[k0 ff] arr IH]; intros F S N k; [cbn; tauto|].
  inversion F as [|? ? F0 Fl]; subst. inversion S as [|? ? Sl Hd]; subst. cbn [fst snd] in F0. rewrite Forall_forall in Hd, Fl.
  cbn [removals]. destruct ff.
  - cbn [filter snd negb] in N. rewrite IH; [|apply Forall_forall; assumption|assumption|assumption]. cbn [In]. split.
    + intros [A B]. split; [right; exact A|]. intros [E|E]; [|tauto]. injection E as ->.
      specialize (Hd _ A). unfold le_o, pubkey_cmp in Hd. cbn [fst snd] in Hd. rewrite memcmp_refl in Hd. cbn in Hd. lia.
    + intros [[E|A] B]; [discriminate|]. split; [exact A|]. intro C. apply B. right. exact C.
  - cbn [filter snd negb map fst] in N. inversion N as [|? ? N0 Nl]; subst.
    assert (Nk : ~ In (k0, false) arr).
    { intro H. apply N0. apply in_map_iff. exists (k0, false). split; [reflexivity|]. apply filter_In. split; [exact H|reflexivity]. }
    specialize (IH ltac:(apply Forall_forall; assumption) Sl Nl k).
    assert (C : match arr with [] => true | (k', ff') :: _ => negb ff' || negb (memcmp k0 k' =? 0) end = true <-> ~ In (k0, true) arr).
    { destruct arr as [|[k' ff'] arr]; [cbn; tauto|]. split.
      - intros H I. assert (Hh : le_o (k0, false) (k', ff')) by (apply Hd; left; reflexivity).
        assert (L' : length k' = 32%nat) by (apply (Fl (k', ff')); left; reflexivity).
        assert (E : k' = k0).
        { destruct I as [E|I]; [congruence|]. inversion Sl as [|? ? _ Hd']; subst. rewrite Forall_forall in Hd'. specialize (Hd' _ I).
          apply cmp_keys in Hh, Hd'. cbn [fst] in *. pose proof (memcmp_anti k0 k'). apply memcmp_eq; [congruence|lia]. }
        subst k'. rewrite memcmp_refl in H. destruct ff'; [discriminate|]. apply Nk. left. reflexivity.
      - intro H. destruct ff'; [|reflexivity]. cbn [negb orb]. destruct (Z.eqb_spec (memcmp k0 k') 0) as [E|E]; [|reflexivity].
        exfalso. apply H. left. f_equal. symmetry. apply memcmp_eq; [|exact E]. rewrite F0. symmetry. apply (Fl (k', true)). left. reflexivity. }
    match goal with |- In k (if ?b then _ else _) <-> _ => assert (C' : b = true <-> ~ In (k0, true) arr) by exact C; clear C; rename C' into C; destruct b end.
    + assert (Nt : ~ In (k0, true) arr) by (apply C; reflexivity). cbn [In]. split.
      *  intros [<-|H]; [split; [left; reflexivity|]; intros [E|E]; [discriminate|tauto]|].
        apply IH in H as [A D]. split; [right; exact A|]. intros [E|E]; [discriminate|tauto].
      * intros [[E|A] D]; [left; congruence|]. right. apply IH. split; [exact A|]. intro X. apply D. right. exact X.
    + rewrite IH. cbn [In]. split.
      * intros [A D]. split; [right; exact A|]. intros [E|E]; [discriminate|tauto].
      * intros [[E|A] D].
        { injection E as <-. exfalso. assert (X : ~ ~ In (k0, true) arr) by (intro X; apply C in X; discriminate). apply X. intro Y. apply D. right. exact Y. }
        split; [exact A|]. intro X. apply D. right. exact X.
Qed.

Lemma merge_removals : forall qsort F R, sorts pubkey_cmp qsort ->
  Forall (fun k => length k = 32%nat) F -> Forall (fun k => length k = 32%nat) R -> NoDup R ->
  forall k, In k (removals (qsort (map (fun k => (k, true)) F ++ map (fun k => (k, false)) R))) <-> In k R /\ ~ In k F.
Proof.
  intros qsort F R Q LF LR N k. set (arr := map (fun k => (k, true)) F ++ map (fun k => (k, false)) R).
  destruct (Q arr) as [P S].
  assert (A : Forall (fun o : origin => length (fst o) = 32%nat) arr).
  { unfold arr. apply Forall_app. split; apply Forall_forall; intros o Ho; apply in_map_iff in Ho as (x & <- & Hx); cbn [fst];
      [rewrite Forall_forall in LF; auto|rewrite Forall_forall in LR; auto]. }
  assert (I : forall o, In o (qsort arr) <-> In o arr) by (intro o; split; apply Permutation_in; [symmetry|]; exact P).
  rewrite removals_spec.
  - rewrite !I. unfold arr. rewrite !in_app_iff, !in_map_iff. split.
    + intros [[(x & E & _)|(x & E & Hx)] D]; [discriminate|]. injection E as ->. split; [exact Hx|]. intro H. apply D. left. exists k. auto.
    + intros [H D]. split; [right; exists k; auto|]. intros [(x & E & Hx)|(x & E & _)]; [|discriminate]. injection E as ->. auto.
  - apply Forall_forall. intros o Ho. rewrite Forall_forall in A. apply A, I, Ho.
  - apply sorted_strong; [|exact S]. apply Forall_forall. intros o Ho. rewrite Forall_forall in A. apply A, I, Ho.
  - assert (PF : forall l l' : list origin, Permutation l l' -> Permutation (filter (fun o => negb (snd o)) l) (filter (fun o => negb (snd o)) l')).
    { induction 1 as [|x l l' _ IH|x y l|l l' l'' _ IH1 _ IH2]; cbn [filter]; try reflexivity.
      - destruct (negb (snd x)); [constructor|]; exact IH.
      - destruct (negb (snd x)), (negb (snd y)); try reflexivity. constructor.
      - etransitivity; eassumption. }
    apply (Permutation_NoDup (Permutation_map fst (PF _ _ P))).
    assert (E : map fst (filter (fun o : origin => negb (snd o)) arr) = R).
    { unfold arr. rewrite filter_app, map_app. change R with ([] ++ R) at 2. f_equal.
      - clear. induction F as [|x F IH]; cbn; [reflexivity|exact IH].
      - clear. induction R as [|x R IH]; cbn; [reflexivity|f_equal; exact IH]. }
    change (NoDup (map fst (filter (fun o : origin => negb (snd o)) arr))). rewrite E. exact N.
Qed.
