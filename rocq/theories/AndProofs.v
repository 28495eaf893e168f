(** Proofs about AndUsers.v. *)
From Coq Require Import String ZArith List Bool Lia Permutation Sorted.
From Verif Require Import Base Cstr CstrProofs AndUsers AndSpec.
Import ListNotations.
Open Scope Z_scope.

(** ** Scanning the list *)
Lemma strchrnul_comma : forall a m, ~ In 44 a -> ~ In 0 a -> strchrnul 44 (a ++ 44 :: m) = Some (a, 44 :: m).
Proof.
  induction a as [|x a IH]; intros m H1 H2; [reflexivity|]. cbn [app strchrnul].
  destruct (Z.eqb_spec x 44); [exfalso; apply H1; left; lia|]. destruct (Z.eqb_spec x 0); [exfalso; apply H2; left; lia|]. cbn [orb].
  rewrite IH; [reflexivity| |]; intro K; [apply H1|apply H2]; right; exact K.
Qed.
Lemma strchrnul_nul : forall a m, ~ In 44 a -> ~ In 0 a -> strchrnul 44 (a ++ 0 :: m) = Some (a, 0 :: m).
Proof.
  induction a as [|x a IH]; intros m H1 H2; [reflexivity|]. cbn [app strchrnul].
  destruct (Z.eqb_spec x 44); [exfalso; apply H1; left; lia|]. destruct (Z.eqb_spec x 0); [exfalso; apply H2; left; lia|]. cbn [orb].
  rewrite IH; [reflexivity| |]; intro K; [apply H1|apply H2]; right; exact K.
Qed.

Definition hit (name t : list Z) : bool := negb (beq t []) && beq t name.
Definition hits (name : list Z) (ts : list (list Z)) : nat := length (filter (hit name) ts).
Lemma hits_cons : forall name t ts, hits name (t :: ts) = ((if hit name t then 1 else 0) + hits name ts)%nat.
Proof. intros. unfold hits. cbn [filter]. destruct (hit name t); reflexivity. Qed.

Lemma split_case : forall s, (exists a b, s = a ++ 44 :: b /\ ~ In 44 a /\ split_all 44 s = a :: split_all 44 b) \/ (~ In 44 s /\ split_all 44 s = [s]).
Proof.
  intro s. destruct (split_first 44 s) as [[a b]|] eqn:E.
  - apply split_first_some in E as [-> E]. left. exists a, b. rewrite split_all_app by exact E. auto.
  - apply split_first_none in E. right. rewrite split_all_none by exact E. auto.
Qed.

Lemma found_spec : forall fuel name s more, (length s < fuel)%nat -> ~ In 0 s ->
  found fuel name (s ++ 0 :: 0 :: more) = Some (hits name (split_all 44 s)).
Proof.
  induction fuel as [|f IH]; intros name s more L N; [lia|]. cbn [found].
  destruct (split_case s) as [(a & b & -> & A & SP) | [A SP]]; rewrite SP.
  - rewrite <- app_assoc. cbn [app]. rewrite strchrnul_comma; [|exact A|intro K; apply N; apply in_or_app; left; exact K].
    rewrite app_length in L. cbn [length] in L. cbn [tl].
    rewrite IH; [|lia|intro K; apply N; apply in_or_app; right; right; exact K]. rewrite hits_cons. unfold hit.
    destruct a as [|x a]; [reflexivity|]. cbn [app].
    destruct x; [exfalso; apply N; left; reflexivity| |]; reflexivity.
  - rewrite strchrnul_nul by assumption. cbn [tl]. rewrite hits_cons. unfold hit.
    destruct s as [|x s]; [reflexivity|]. cbn [app]. destruct f as [|f']; [cbn in L; lia|].
    destruct x; [exfalso; apply N; left; reflexivity| |]; cbn [found strchrnul Z.eqb orb]; unfold hits; cbn [filter length]; reflexivity.
Qed.
(** Where the string is an object of its own, the scan leaves it. *)
Lemma found_past : forall fuel name s, ~ In 0 s -> s <> [] -> last s 0 <> 44 -> found fuel name (s ++ [0]) = None.
Proof.
  induction fuel as [|f IH]; intros name s N NE LA; [reflexivity|]. cbn [found].
  destruct (split_case s) as [(a & b & -> & A & SP) | [A SP]].
  - rewrite <- app_assoc. cbn [app]. rewrite strchrnul_comma; [|exact A|intro K; apply N; apply in_or_app; left; exact K]. cbn [tl].
    assert (B : b <> []) by (intro K; subst b; rewrite last_last in LA; congruence).
    rewrite IH; [|intro K; apply N; apply in_or_app; right; right; exact K|exact B|].
    + destruct a as [|x a]; [reflexivity|]. cbn [app]. destruct x; [exfalso; apply N; left; reflexivity| |]; reflexivity.
    + pose proof (app_removelast_last 0 B) as R. rewrite R in LA |- *. rewrite last_last.
      change (a ++ 44 :: removelast b ++ [last b 0]) with (a ++ ([44] ++ removelast b) ++ [last b 0]) in LA. rewrite app_assoc, last_last in LA. exact LA.
  - rewrite strchrnul_nul by assumption. cbn [tl].
    assert (Z0 : found f name [] = None) by (destruct f; reflexivity). rewrite Z0.
    destruct s as [|x s]; [congruence|]. cbn [app]. destruct x; [exfalso; apply N; left; reflexivity| |]; reflexivity.
Qed.

Lemma count_spec : forall fuel x s more, (length s < fuel)%nat -> ~ In 0 s -> count_from fuel (x :: s ++ 0 :: more) = Some (length (split_all 44 s)).
Proof.
  induction fuel as [|f IH]; intros x s more L N; [lia|]. cbn [count_from tl].
  destruct (split_case s) as [(a & b & -> & A & SP) | [A SP]]; rewrite SP.
  - rewrite <- app_assoc. cbn [app]. rewrite strchrnul_comma; [|exact A|intro K; apply N; apply in_or_app; left; exact K].
    rewrite app_length in L. cbn [length] in L.
    rewrite IH; [reflexivity|lia|intro K; apply N; apply in_or_app; right; right; exact K].
  - rewrite strchrnul_nul by assumption. reflexivity.
Qed.
Definition real_token (t : list Z) : bool := negb (beq t []).
Lemma capacity_spec : forall s more, s <> [] -> ~ In 0 s ->
  exists cap, capacity (s ++ 0 :: more) = Some cap /\ (S (length (filter real_token (split_all 44 s))) <= cap)%nat.
Proof.
  intros [|x s] more NE N; [congruence|]. cbn [app]. unfold capacity.
  rewrite count_spec; [|cbn [length]; rewrite app_length; lia|intro K; apply N; right; exact K].
  exists (S (length (split_all 44 s))). split; [reflexivity|]. apply le_n_S.
  assert (F : forall l, (length (filter real_token l) <= length l)%nat).
  { induction l as [|t l IH]; [cbn; lia|]. cbn [filter]. destruct (real_token t); cbn [length]; lia. }
  cbn [split_all]. destruct (Z.eqb_spec x 44) as [->|E].
  - cbn [filter]. change (real_token []) with false. cbn [filter]. apply F.
  - pose proof (split_all_nonempty 44 s) as M. destruct (split_all 44 s) as [|t ts]; [congruence|]. eapply Nat.le_trans; [apply F|]. cbn [length]. lia.
Qed.

(** ** The packages *)
Lemma package_of_line : forall ulmax p, 2 ^ 31 <= ulmax -> proper_package p -> package_of ulmax (package_line p) = Some (k_name p, k_uid p).
Proof.
  intros ulmax p M [N [U1 U2]]. unfold package_of, package_line.
  rewrite split_first_app by exact N.
  pose proof (print_dec_digits (k_uid p) ltac:(lia)) as D. rewrite Forall_forall in D.
  rewrite split_first_app by (intro K; apply D in K; lia).
  pose proof (print_num_nonempty 10 (k_uid p)) as NE. pose proof (print_dec_value (k_uid p) ltac:(lia)) as V. unfold print_dec in *.
  destruct (print_num 10 (k_uid p)) as [|c s] eqn:E; [congruence|].
  assert (C : 48 <= c <= 57) by (apply D; left; reflexivity).
  pose proof (strtoul10 ulmax c s C) as S10. rewrite V in S10.
  destruct (strtoul ulmax 10 (c :: s)) as [v e]. 
  assert (K : v = k_uid p /\ e = []).
  { destruct (Z.ltb_spec ulmax (k_uid p)); [lia|]. split; congruence. }
  destruct K as [-> ->]. unfold u32. rewrite Z.mod_small by lia.
  destruct (Z.eqb_spec (k_uid p) 0); [lia|]. reflexivity.
Qed.

Fixpoint total (ts : list (list Z)) (ps : list package) : nat :=
  match ps with [] => 0%nat | p :: ps' => (hits (k_name p) ts + total ts ps')%nat end.
Fixpoint picked (ts : list (list Z)) (ps : list package) : list Z :=
  match ps with [] => [] | p :: ps' => repeat (k_uid p) (hits (k_name p) ts) ++ picked ts ps' end.
Lemma picked_length : forall ts ps, length (picked ts ps) = total ts ps.
Proof. induction ps as [|p ps IH]; [reflexivity|]. cbn [picked total]. rewrite app_length, repeat_length, IH. reflexivity. Qed.

Lemma beq_true : forall a b, beq a b = true <-> a = b.
Proof. intros. apply beq_eq. Qed.

Lemma picked_in : forall ts ps u, In u (picked ts ps) <-> exists p, In p ps /\ k_name p <> [] /\ In (k_name p) ts /\ k_uid p = u.
Proof.
  induction ps as [|p ps IH]; intro u; cbn [picked].
  - split; [intros []|intros (? & [] & _)].
  - rewrite in_app_iff, IH. split.
    + intros [H|(q & Q & R)]; [|exists q; split; [right; exact Q|exact R]].
      exists p. split; [left; reflexivity|].
      assert (P : (0 < hits (k_name p) ts)%nat) by (destruct (hits (k_name p) ts); [destruct H|lia]).
      apply repeat_spec in H. unfold hits in P. destruct (filter (hit (k_name p)) ts) as [|t l] eqn:F; [cbn in P; lia|].
      assert (T : In t (filter (hit (k_name p)) ts)) by (rewrite F; left; reflexivity).
      apply filter_In in T as [T1 T2]. unfold hit in T2. apply andb_prop in T2 as [T2 T3]. apply beq_true in T3. subst t.
      split; [|split; [exact T1|congruence]]. intro K. rewrite K in T2. discriminate.
    + intros (q & [-> | Q] & NE & T & U); [|right; exists q; auto]. left.
      assert (P : In (k_name q) (filter (hit (k_name q)) ts)).
      { apply filter_In. split; [exact T|]. unfold hit. rewrite (proj2 (beq_true _ _) eq_refl), andb_true_r.
        destruct (beq (k_name q) []) eqn:B; [apply beq_true in B; congruence|reflexivity]. }
      unfold hits. destruct (filter (hit (k_name q)) ts); [destruct P|]. cbn [length repeat]. left. exact U.
Qed.

Lemma total_cons : forall t ts ps, total (t :: ts) ps = (length (filter (fun p => hit (k_name p) t) ps) + total ts ps)%nat.
Proof.
  induction ps as [|p ps IH]; [reflexivity|]. cbn [total filter]. rewrite hits_cons, IH. destruct (hit (k_name p) t); cbn [length]; lia.
Qed.
Lemma total_bound : forall ps ts, NoDup (map k_name ps) -> (total ts ps <= length (filter real_token ts))%nat.
Proof.
  intros ps ts N. induction ts as [|t ts IH].
  - assert (E : total [] ps = 0%nat) by (clear; induction ps as [|p ps IH]; [reflexivity|]; cbn [total]; rewrite IH; reflexivity). rewrite E. lia.
  - rewrite total_cons. cbn [filter].
    assert (B : (length (filter (fun p => hit (k_name p) t) ps) <= if real_token t then 1 else 0)%nat).
    { clear IH. induction ps as [|p ps IH]; [cbn; lia|]. cbn [map] in N. inversion N as [|? ? N1 N2]; subst. cbn [filter].
      destruct (hit (k_name p) t) eqn:E; [|exact (IH N2)].
      unfold hit in E. apply andb_prop in E as [E1 E2]. unfold real_token. rewrite E1. apply beq_true in E2. subst t.
      assert (Z0 : filter (fun q => hit (k_name q) (k_name p)) ps = []).
      { clear - N1. induction ps as [|q ps IH]; [reflexivity|]. cbn [filter]. destruct (hit (k_name q) (k_name p)) eqn:E.
        - exfalso. apply N1. left. unfold hit in E. apply andb_prop in E as [_ E]. apply beq_true in E. congruence.
        - apply IH. intro K. apply N1. right. exact K. }
      rewrite Z0. cbn. lia. }
    destruct (real_token t); cbn [length]; lia.
Qed.

Lemma collect_spec : forall ulmax s more ps room, 2 ^ 31 <= ulmax -> ~ In 0 s -> Forall proper_package ps -> (total (split_all 44 s) ps <= room)%nat ->
  collect ulmax (s ++ 0 :: 0 :: more) (map package_line ps) room = Is (picked (split_all 44 s) ps).
Proof.
  intros ulmax s more ps. induction ps as [|p ps IH]; intros room M N G R; [reflexivity|].
  inversion G as [|? ? G1 G2]; subst. cbn [map collect picked]. cbn [total] in R. rewrite package_of_line by assumption.
  rewrite found_spec; [|rewrite app_length; cbn [length]; lia|exact N].
  destruct (Nat.ltb_spec room (hits (k_name p) (split_all 44 s))); [lia|]. rewrite IH; [reflexivity|assumption..|lia].
Qed.

(** ** Sorting *)
Lemma s32_order : forall u v, 0 < u < 2 ^ 31 -> 0 < v < 2 ^ 31 -> (s32 (v - u) <? 0) = (v <? u).
Proof.
  intros u v U V. unfold s32, u32. destruct (Z.ltb_spec v u).
  - replace ((v - u) mod 2 ^ 32) with (v - u + 2 ^ 32) by (symmetry; rewrite <- (Z_mod_plus_full (v - u) 1); rewrite Z.mod_small by lia; lia).
    destruct (Z.ltb_spec (v - u + 2 ^ 32) (2 ^ 31)); [lia|]. apply Z.ltb_lt. lia.
  - rewrite Z.mod_small by lia. destruct (Z.ltb_spec (v - u) (2 ^ 31)); [|lia]. apply Z.ltb_ge. lia.
Qed.
Lemma insert_perm : forall u l, Permutation (insert u l) (u :: l).
Proof. induction l as [|v l IH]; [reflexivity|]. cbn [insert]. destruct (_ <? 0); [|reflexivity]. rewrite IH. apply perm_swap. Qed.
Lemma sort_perm : forall l, Permutation (sort_uids l) l.
Proof. induction l as [|u l IH]; [reflexivity|]. cbn. rewrite insert_perm. constructor. exact IH. Qed.
Lemma insert_sorted : forall u l, 0 < u < 2 ^ 31 -> Forall (fun v => 0 < v < 2 ^ 31) l -> StronglySorted Z.le l -> StronglySorted Z.le (insert u l).
Proof.
  intros u l U. induction l as [|v l IH]; intros F S; [constructor; constructor|].
  inversion F as [|? ? F1 F2]; subst. inversion S as [|? ? S1 S2]; subst. cbn [insert]. rewrite s32_order by assumption.
  destruct (Z.ltb_spec v u).
  - constructor; [apply IH; assumption|]. rewrite insert_perm. constructor; [lia|exact S2].
  - constructor; [exact S|]. constructor; [exact H|]. eapply Forall_impl; [|exact S2]. cbn. intros. lia.
Qed.
Lemma sort_sorted : forall l, Forall (fun v => 0 < v < 2 ^ 31) l -> StronglySorted Z.le (sort_uids l).
Proof.
  induction l as [|u l IH]; intro F; [constructor|]. inversion F; subst. cbn. apply insert_sorted; [assumption| |apply IH; assumption].
  change (fold_right insert [] l) with (sort_uids l). rewrite (sort_perm l). assumption.
Qed.

(** ** Ranges *)
Lemma between_spec : forall us zs start, 0 <= start -> StronglySorted Z.le us -> Forall (fun v => 0 < v < 2 ^ 31) us -> Forall (fun v => start - 1 <= v) us ->
  exists rs e, ranges_between start (us ++ 0 :: zs) = Some (rs, e) /\ start <= e /\ (e = start \/ In (e - 1) us) /\
    Forall (fun v => v < e) us /\ Forall (fun r => start <= fst r <= snd r /\ snd r < e) rs /\
    forall x, (exists r, In r rs /\ fst r <= x <= snd r) <-> start <= x < e /\ ~ In x us.
Proof.
  induction us as [|u us IH]; intros zs start S0 SO F G.
  - exists [], start. cbn [app ranges_between]. split; [reflexivity|]. split; [lia|]. split; [auto|]. split; [constructor|]. split; [constructor|].
    intro x. split; [intros (? & [] & _)|intros [? _]; lia].
  - inversion SO as [|? ? SO1 SO2]; subst. inversion F as [|? ? F1 F2]; subst. inversion G as [|? ? G1 G2]; subst. cbn [app ranges_between].
    destruct (Z.eqb_spec u 0); [lia|].
    assert (W1 : u32 (u + 1) = u + 1) by (unfold u32; apply Z.mod_small; lia).
    assert (W2 : u32 (u - 1) = u - 1) by (unfold u32; apply Z.mod_small; lia). rewrite W1, W2.
    destruct (IH zs (u + 1)) as (rs & e & E & L & LI & BU & BR & C); [lia|assumption..| |].
    { eapply Forall_impl; [|exact SO2]. cbn. intros. lia. }
    rewrite E. exists (if u - 1 <? start then rs else (start, u - 1) :: rs), e.
    assert (OLD : Forall (fun r => start <= fst r <= snd r /\ snd r < e) rs) by (eapply Forall_impl; [|exact BR]; cbn; intros; lia).
    assert (NU : forall x, In x us -> u <= x) by (rewrite Forall_forall in SO2; exact SO2).
    split; [reflexivity|]. split; [lia|]. split.
    { right. destruct LI as [-> | LI]; [left; lia|right; exact LI]. }
    split; [constructor; [lia|exact BU]|]. split.
    { destruct (Z.ltb_spec (u - 1) start); [exact OLD|]. constructor; [cbn; lia|exact OLD]. }
    intro x. destruct (Z.ltb_spec (u - 1) start) as [LT|GE].
    + rewrite C. split; intros [A B].
      * split; [lia|]. intros [K|K]; [lia|tauto].
      * split; [|intro K; apply B; right; exact K]. assert (x <> u) by (intro K; apply B; left; auto). lia.
    + split.
      * intros (r & [<- | I] & R); cbn in R.
        -- split; [lia|]. intros [K|K]; [lia|]. apply NU in K. lia.
        -- destruct (proj1 (C x)) as [A B]; [exists r; auto|]. split; [lia|]. intros [K|K]; [lia|tauto].
      * intros [A B]. destruct (Z.le_gt_cases (u + 1) x) as [H|H].
        -- destruct (proj2 (C x)) as (r & I & R); [split; [lia|intro K; apply B; right; exact K]|]. exists r. split; [right; exact I|exact R].
        -- exists (start, u - 1). split; [left; reflexivity|]. cbn. assert (x <> u) by (intro K; apply B; left; auto). lia.
Qed.
Lemma each_spec : forall us zs, Forall (fun v => 0 < v < 2 ^ 31) us -> each_uid (us ++ 0 :: zs) = Some (map (fun u => (u, u)) us).
Proof.
  induction us as [|u us IH]; intros zs F; [reflexivity|]. inversion F; subst. cbn [app each_uid map].
  destruct (Z.eqb_spec u 0); [lia|]. rewrite IH by assumption. reflexivity.
Qed.

(** ** Commands *)
Definition words_of (g : list (Z * Z)) : list Z := concat (map (fun r => str " " ++ range_word r) g).
Lemma range_same : forall r, range_text r = range_word r.
Proof. reflexivity. Qed.
Definition pending (g : list (Z * Z)) : option (list Z) := match g with [] => None | _ => Some (tl (words_of g)) end.
Lemma joined_pending : forall g r, joined (pending g) (range_text r) = tl (words_of (g ++ [r])).
Proof.
  intros [|r0 g] r; cbn [pending joined].
  - unfold words_of. cbn. rewrite app_nil_r. reflexivity.
  - unfold words_of. rewrite map_app, concat_app. cbn. rewrite app_nil_r, <- !app_assoc. reflexivity.
Qed.
Lemma users_command_line : forall netid g, g <> [] -> users_command netid (tl (words_of g)) = users_line netid g.
Proof. intros netid [|r g] NE; [congruence|]. reflexivity. Qed.

Lemma feed_spec : forall netid rs n g, 0 <= n < 2 ^ 32 -> Z.of_nat (length g) <= n mod 18 ->
  exists gs lst, feed netid n (pending g) rs = (map (users_line netid) gs, pending lst) /\
    concat gs ++ lst = g ++ rs /\ Forall (fun h => (1 <= length h <= 18)%nat) gs /\ (length lst <= 17)%nat.
Proof.
  induction rs as [|r rs IH]; intros n g N L; cbn [feed].
  - exists [], g. rewrite app_nil_r. pose proof (Z.mod_pos_bound n 18 ltac:(lia)). repeat split; [constructor|lia].
  - rewrite joined_pending. pose proof (Z.mod_pos_bound n 18 ltac:(lia)) as B.
    assert (U : 0 <= u32 (n + 1) < 2 ^ 32) by (unfold u32; apply Z.mod_pos_bound; lia).
    destruct (Z.eqb_spec (u32 (n + 1) mod 18) 0) as [E|E].
    + destruct (IH (u32 (n + 1)) []) as (gs & lst & F & C & G & LL); [exact U|cbn; lia|]. cbn [pending] in F. rewrite F.
      exists ((g ++ [r]) :: gs), lst. rewrite users_command_line by (destruct g; discriminate). split; [reflexivity|].
      cbn [app] in C. split; [cbn [concat]; rewrite <- !app_assoc, C; reflexivity|]. split; [|exact LL].
      constructor; [|exact G]. rewrite app_length. cbn [length]. lia.
    + assert (S1 : u32 (n + 1) mod 18 = n mod 18 + 1).
      { unfold u32 in *. destruct (Z.eq_dec (n + 1) (2 ^ 32)) as [K|K]; [rewrite K, Z_mod_same_full in E; exfalso; apply E; reflexivity|].
        rewrite (Z.mod_small (n + 1)) in * by lia. pose proof (Z.div_mod n 18 ltac:(lia)) as DM.
        destruct (Z.eq_dec (n mod 18) 17) as [K2|K2].
        - exfalso. apply E. symmetry. apply (Z.mod_unique _ _ (n / 18 + 1)); lia.
        - symmetry. apply (Z.mod_unique _ _ (n / 18)); lia. }
      destruct (IH (u32 (n + 1)) (g ++ [r])) as (gs & lst & F & C & G & LL); [exact U|rewrite app_length; cbn [length]; lia|].
      assert (P : pending (g ++ [r]) = Some (tl (words_of (g ++ [r])))) by (destruct g; reflexivity). rewrite P in F. rewrite F.
      exists gs, lst. rewrite C, <- app_assoc. auto.
Qed.
