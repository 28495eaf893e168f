From Coq Require Import String ZArith List Bool Lia.
From Verif Require Import Base Cstr CstrProofs Types ConfigSpec Config ConfigProofs2 Endpoint.
Import ListNotations.
Open Scope Z_scope.

(** * The buffer *)

Lemma strchr_from_spec : forall c v i, c <> 0 -> ~ In 0 v ->
  strchr_from c (v ++ [0]) i = Some (match split_first c v with Some (a, _) => Some (i + length a)%nat | None => None end).
Proof.
  intros c v. induction v as [|x v IH]; intros i Hc H0; cbn [app strchr_from split_first].
  - change (0 =? 0) with true. destruct (Z.eqb_spec 0 c); [congruence|]. reflexivity.
  - destruct (Z.eqb_spec x c).
    + cbn. rewrite Nat.add_0_r. reflexivity.
    + destruct (Z.eqb_spec x 0); [exfalso; apply H0; left; assumption|].
      rewrite IH; [|exact Hc|intro G; apply H0; right; exact G].
      destruct (split_first c v) as [[a b]|]; [|reflexivity]. cbn [length]. f_equal. f_equal. lia.
Qed.

Lemma strrchr_from_spec : forall c v i found, c <> 0 -> ~ In 0 v ->
  strrchr_from c (v ++ [0]) i found = Some (match split_last c v with Some (a, _) => Some (i + length a)%nat | None => found end).
Proof.
  intros c v. induction v as [|x v IH]; intros i found Hc H0; cbn [app strrchr_from split_last].
  - reflexivity.
  - destruct (Z.eqb_spec x 0); [exfalso; apply H0; left; assumption|].
    rewrite IH; [|exact Hc|intro G; apply H0; right; exact G].
    destruct (split_last c v) as [[a b]|].
    + cbn [length]. f_equal. f_equal. lia.
    + destruct (x =? c); [|reflexivity]. cbn. rewrite Nat.add_0_r. reflexivity.
Qed.

Lemma cstr_in_stop : forall a r, ~ In 0 a -> cstr_in (a ++ 0 :: r) = Some a.
Proof.
  induction a as [|x a IH]; intros r H; [reflexivity|]. cbn [app cstr_in].
  destruct (Z.eqb_spec x 0); [exfalso; apply H; left; assumption|].
  rewrite IH by (intro G; apply H; right; exact G). reflexivity.
Qed.

Lemma wr_at : forall a x b v, wr (a ++ x :: b) (length a) v = Some (a ++ v :: b).
Proof.
  intros a x b v. unfold wr. rewrite app_length. cbn [length]. destruct (Nat.ltb_spec (length a) (length a + S (length b))); [|lia].
  rewrite firstn_app, Nat.sub_diag, firstn_all. cbn [firstn]. rewrite app_nil_r. f_equal. f_equal. f_equal.
  rewrite skipn_app, (skipn_all2 a) by lia. cbn [app]. replace (S (length a) - length a)%nat with 1%nat by lia. reflexivity.
Qed.

Lemma rd_at : forall a x b, rd (a ++ x :: b) (length a) = Some x.
Proof. intros a x b. unfold rd. rewrite nth_error_app2 by lia. rewrite Nat.sub_diag. reflexivity. Qed.

Lemma skipn_at : forall (a b : list Z), skipn (length a) (a ++ b) = b.
Proof. intros a b. rewrite skipn_app, Nat.sub_diag, skipn_all. reflexivity. Qed.

(** The memory-level split is the list-level one, and is never out of bounds. *)
Lemma split_mem_spec : forall v, ~ In 0 v ->
  split_mem v = match split_endpoint v with Some (h, p) => SSplit h p | None => SReject end.
Proof.
  intros v H0. unfold split_mem.
  destruct v as [|c v]; [reflexivity|].
  change (rd ((c :: v) ++ [0]) 0) with (Some c). cbv iota.
  assert (Hc : c <> 0) by (intro E; apply H0; left; exact E).
  destruct (Z.eqb_spec c 0); [contradiction|].
  assert (E0 : split_endpoint (c :: v) =
    if c =? 91 then match split_first 93 (c :: v) with
                    | None => None
                    | Some (a, b) => match b with 58 :: c0 :: p => Some (tl a, c0 :: p) | _ => None end
                    end
    else match split_last 58 (c :: v) with
         | None => None
         | Some (a, b) => match b with [] => None | _ => Some (a, b) end
         end).
  { destruct (Z.eqb_spec c 91) as [->|N]; [reflexivity|].
    unfold split_endpoint. destruct c as [|q|q]; try reflexivity.
    repeat (destruct q as [q|q|]; try reflexivity). congruence. }
  rewrite E0. destruct (Z.eqb_spec c 91) as [->|N].
  - rewrite strchr_from_spec by (discriminate || exact H0).
    destruct (split_first 93 (91 :: v)) as [[a b]|] eqn:S; [|reflexivity].
    apply split_first_some in S as [S N]. rewrite S in *. cbn [Nat.add].
    rewrite <- app_assoc. cbn [app]. rewrite wr_at.
    assert (R1 : forall y r, rd (a ++ 0 :: y :: r) (length a + 1) = Some y).
    { intros y r. replace (a ++ 0 :: y :: r) with ((a ++ [0]) ++ y :: r) by (rewrite <- app_assoc; reflexivity).
      replace (length a + 1)%nat with (length (a ++ [0])) by (rewrite app_length; reflexivity). apply rd_at. }
    assert (R2 : forall x y r, rd (a ++ 0 :: x :: y :: r) (length a + 2) = Some y).
    { intros x y r. replace (a ++ 0 :: x :: y :: r) with ((a ++ [0; x]) ++ y :: r) by (rewrite <- app_assoc; reflexivity).
      replace (length a + 2)%nat with (length (a ++ [0; x])) by (rewrite app_length; reflexivity). apply rd_at. }
    assert (Ha : ~ In 0 a) by (intro G; apply H0, in_or_app; left; exact G).
    assert (Hb : ~ In 0 b) by (intro G; apply H0, in_or_app; right; right; exact G).
    destruct b as [|b0 b].
    + cbn [app]. rewrite R1. reflexivity.
    + cbn [app]. rewrite R1. destruct (Z.eqb_spec b0 58) as [->|Nb]; cbn [negb].
      * destruct b as [|b1 b].
        -- cbn [app]. rewrite R2. reflexivity.
        -- cbn [app]. rewrite R2. destruct (Z.eqb_spec b1 0); [exfalso; apply Hb; right; left; assumption|].
           unfold finish_split, cstr_at. destruct a as [|a0 a']; [discriminate S|].
           change (skipn 1 ((a0 :: a') ++ 0 :: 58 :: b1 :: b ++ [0])) with (a' ++ 0 :: 58 :: b1 :: b ++ [0]).
           rewrite cstr_in_stop by (intro G; apply Ha; right; exact G).
           replace (skipn (length (a0 :: a') + 2) ((a0 :: a') ++ 0 :: 58 :: b1 :: b ++ [0])) with ((b1 :: b) ++ [0]).
           2:{ replace ((a0 :: a') ++ 0 :: 58 :: b1 :: b ++ [0]) with (((a0 :: a') ++ [0; 58]) ++ (b1 :: b) ++ [0])
                 by (rewrite <- app_assoc; reflexivity).
               replace (length (a0 :: a') + 2)%nat with (length ((a0 :: a') ++ [0; 58])) by (rewrite app_length; reflexivity).
               rewrite skipn_at. reflexivity. }
           rewrite cstr_in_stop by (intro G; apply Hb; right; exact G). reflexivity.
      * destruct b0 as [|q|q]; try reflexivity. repeat (destruct q as [q|q|]; try reflexivity). congruence.
  - rewrite strrchr_from_spec by (discriminate || exact H0).
    destruct (split_last 58 (c :: v)) as [[a b]|] eqn:S; [|reflexivity].
    apply split_last_some in S as [S N']. rewrite S in *. cbn [Nat.add].
    rewrite <- app_assoc. cbn [app].
    assert (R1 : forall x y r, rd (a ++ x :: y :: r) (length a + 1) = Some y).
    { intros x y r. replace (a ++ x :: y :: r) with ((a ++ [x]) ++ y :: r) by (rewrite <- app_assoc; reflexivity).
      replace (length a + 1)%nat with (length (a ++ [x])) by (rewrite app_length; reflexivity). apply rd_at. }
    assert (Ha : ~ In 0 a) by (intro G; apply H0, in_or_app; left; exact G).
    assert (Hb : ~ In 0 b) by (intro G; apply H0, in_or_app; right; right; exact G).
    destruct b as [|b0 b].
    + cbn [app]. rewrite R1. reflexivity.
    + cbn [app]. rewrite R1. destruct (Z.eqb_spec b0 0); [exfalso; apply Hb; left; assumption|].
      rewrite wr_at. unfold finish_split, cstr_at. cbn [skipn]. rewrite cstr_in_stop by exact Ha.
      replace (skipn (length a + 1) (a ++ 0 :: b0 :: b ++ [0])) with ((b0 :: b) ++ [0]).
      2:{ replace (a ++ 0 :: b0 :: b ++ [0]) with ((a ++ [0]) ++ (b0 :: b) ++ [0]) by (rewrite <- app_assoc; reflexivity).
          replace (length a + 1)%nat with (length (a ++ [0])) by (rewrite app_length; reflexivity). rewrite skipn_at. reflexivity. }
      rewrite cstr_in_stop by exact Hb. reflexivity.
Qed.

(** * The loop *)

(** Specification of the delays: 1 s, then 6/5 of the previous one (rounded down to a microsecond), at most 20 s. *)
Fixpoint delay (i : nat) : Z :=
  match i with O => 1000000 | S j => Z.min 20000000 (delay j * 6 / 5) end.

Fixpoint delay_from (t : Z) (i : nat) : Z :=
  match i with O => t | S j => delay_from (Z.min 20000000 (t * 6 / 5)) j end.

Lemma delay_from_S : forall i t, delay_from t (S i) = Z.min 20000000 (delay_from t i * 6 / 5).
Proof. induction i as [|i IH]; intro t; [reflexivity|]. change (delay_from t (S (S i))) with (delay_from (Z.min 20000000 (t * 6 / 5)) (S i)). rewrite IH. reflexivity. Qed.

Lemma delay_from_delay : forall i, delay_from 1000000 i = delay i.
Proof. induction i as [|i IH]; [reflexivity|]. rewrite delay_from_S, IH. reflexivity. Qed.

Lemma next_range : forall t, 1000000 <= t <= 20000000 -> t <= Z.min 20000000 (t * 6 / 5) <= 20000000.
Proof. intros t H. assert (t <= t * 6 / 5) by (apply Z.div_le_lower_bound; lia). lia. Qed.

Lemma delay_range : forall i, 1000000 <= delay i <= 20000000 /\ delay i <= delay (S i).
Proof.
  induction i as [|i [IH1 IH2]].
  - vm_compute. intuition discriminate.
  - pose proof (next_range _ IH1) as R. change (Z.min 20000000 (delay i * 6 / 5)) with (delay (S i)) in R.
    split; [lia|]. assert (R1 : 1000000 <= delay (S i) <= 20000000) by lia. pose proof (next_range _ R1) as R2. cbn [delay] in *. lia.
Qed.

(** The number of the first look-up that decides, [m]: all before it are temporary failures that leave a retry;
    at [m] the outcome is final or there is no retry left. *)
Lemma lookup_loop_spec : forall fuel f retries t, -1 <= retries -> 1000000 <= t <= 20000000 ->
  match lookup_loop fuel f retries t with
  | Some (r, n, ds) =>
      exists m, n = S m /\ (m < fuel)%nat /\ (forall i, (i < m)%nat -> f i = LTemp) /\ (0 <= retries -> Z.of_nat m <= retries) /\
        ds = map (delay_from t) (seq 0 m) /\
        match f m with
        | LOk fam len ep => r = LrOk fam len ep
        | LPerm => r = LrFail
        | LTemp => r = LrFail /\ Z.of_nat m = retries
        end
  | None => (forall i, (i < fuel)%nat -> f i = LTemp) /\ (0 <= retries -> Z.of_nat fuel <= retries)
  end.
Proof.
  induction fuel as [|fuel IH]; intros f retries t Hr Ht; cbn [lookup_loop].
  - split; [intros i Hi; lia|simpl; lia].
  - destruct (f 0%nat) as [fam len ep| |] eqn:F.
    + exists 0%nat. rewrite F. split; [reflexivity|]. split; [lia|]. split; [intros i Hi; lia|]. split; [simpl; lia|]. split; [reflexivity|]. reflexivity.
    + exists 0%nat. rewrite F. split; [reflexivity|]. split; [lia|]. split; [intros i Hi; lia|]. split; [simpl; lia|]. split; [reflexivity|]. reflexivity.
    + destruct ((0 <=? retries) && (retries =? 0)) eqn:Z0.
      { apply andb_true_iff in Z0 as [_ Z0]. apply Z.eqb_eq in Z0.
        exists 0%nat. rewrite F. split; [reflexivity|]. split; [lia|]. split; [intros i Hi; lia|]. split; [simpl; lia|]. split; [reflexivity|]. simpl. auto. }
      unfold u32. rewrite Z.mod_small by lia.
      set (r' := if 0 <=? retries then retries - 1 else retries).
      assert (Hr' : -1 <= r' /\ (0 <= retries -> r' = retries - 1 /\ 0 <= r') /\ (retries < 0 -> r' = -1)).
      { unfold r'. destruct (Z.leb_spec 0 retries); [|lia]. destruct (Z.eqb_spec retries 0); [discriminate|]. lia. }
      destruct Hr' as (Hr1 & Hr2 & Hr3).
      pose proof (next_range t Ht) as R.
      specialize (IH (fun i => f (S i)) r' (Z.min 20000000 (t * 6 / 5)) Hr1 ltac:(lia)).
      destruct (lookup_loop fuel (fun i => f (S i)) r' (Z.min 20000000 (t * 6 / 5))) as [[[r n] ds]|].
      * destruct IH as (m & -> & Hm & Hf & Hret & -> & HR). exists (S m).
        split; [reflexivity|]. split; [lia|]. split.
        { intros [|i] Hi; [exact F|]. apply Hf. lia. }
        split; [intro P; specialize (Hr2 P); specialize (Hret ltac:(lia)); lia|].
        split. { cbn [seq map]. f_equal. rewrite <- seq_shift, map_map. reflexivity. }
        destruct (f (S m)); [exact HR|exact HR|]. destruct HR as [-> HR]. split; [reflexivity|].
        destruct (Z_lt_ge_dec retries 0) as [L|G]; [specialize (Hr3 L); lia|]. destruct (Hr2 ltac:(lia)). lia.
      * destruct IH as [IH1 IH2]. split.
        { intros [|i] Hi; [exact F|]. apply IH1. lia. }
        intro P. destruct (Hr2 P) as [E Q]. specialize (IH2 Q). lia.
Qed.

Lemma lookups_spec : forall fuel f retries, -1 <= retries ->
  match lookups fuel f retries with
  | Some (r, n, ds) =>
      exists m, n = S m /\ (m < fuel)%nat /\ (forall i, (i < m)%nat -> f i = LTemp) /\ (0 <= retries -> Z.of_nat m <= retries) /\
        ds = map delay (seq 0 m) /\
        match f m with
        | LOk fam len ep => r = LrOk fam len ep
        | LPerm => r = LrFail
        | LTemp => r = LrFail /\ Z.of_nat m = retries
        end
  | None => (forall i, (i < fuel)%nat -> f i = LTemp) /\ (0 <= retries -> Z.of_nat fuel <= retries)
  end.
Proof.
  intros fuel f retries Hr. unfold lookups. pose proof (lookup_loop_spec fuel f retries 1000000 Hr ltac:(lia)) as H.
  destruct (lookup_loop fuel f retries 1000000) as [[[r n] ds]|]; [|exact H].
  destruct H as (m & H1 & H2 & H3 & H4 & H5 & H6). exists m. repeat (split; [assumption|]). split; [|exact H6].
  rewrite H5. apply map_ext. apply delay_from_delay.
Qed.
