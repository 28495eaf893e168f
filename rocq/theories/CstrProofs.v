(** Facts about the libc string functions. *)
From Coq Require Import ZArith List Bool Lia.
From Verif Require Import Base Cstr.
Import ListNotations.
Open Scope Z_scope.
Ltac Zify.zify_post_hook ::= Z.div_mod_to_equations.

(** * Numbers *)

(** Independent reading of a digit string: every character a digit, most significant first. *)
Fixpoint num_value (base acc : Z) (s : list Z) : option Z :=
  match s with
  | [] => Some acc
  | c :: s' => match digit_in base c with
               | Some v => num_value base (acc * base + v) s'
               | None => None
               end
  end.

Lemma take_digits_all : forall base s acc n,
  match num_value base acc s with
  | Some v => take_digits base acc n s = (v, (n + length s)%nat, [])
  | None => snd (take_digits base acc n s) <> []
  end.
Proof.
  induction s as [|c s IH]; intros acc n; simpl.
  - rewrite Nat.add_0_r. reflexivity.
  - destruct (digit_in base c) as [v|].
    + specialize (IH (acc * base + v) (S n)). destruct (num_value base (acc * base + v) s).
      * rewrite IH. do 2 f_equal. lia.
      * exact IH.
    + simpl. discriminate.
Qed.

Lemma take_digits_count : forall base s acc n, (n <= snd (fst (take_digits base acc n s)))%nat.
Proof.
  induction s as [|c s IH]; intros acc n; simpl; [lia|].
  destruct (digit_in base c); [|simpl; lia]. specialize (IH (acc * base + z) (S n)). lia.
Qed.

Lemma digit_in_10 : forall c, digit_in 10 c = if (48 <=? c) && (c <=? 57) then Some (c - 48) else None.
Proof.
  intro c. unfold digit_in.
  destruct (Z.leb_spec 48 c), (Z.leb_spec c 57), (Z.leb_spec 97 c), (Z.leb_spec c 122),
    (Z.leb_spec 65 c), (Z.leb_spec c 90); cbn [andb]; try lia;
  match goal with |- context [?a <? ?b] => destruct (Z.ltb_spec a b); try lia; reflexivity end.
Qed.

Lemma digit_in_range : forall base c v, digit_in base c = Some v -> 0 < base -> 0 <= v < base.
Proof.
  intros base c v H Hb. unfold digit_in in H.
  match type of H with (if ?x <? base then _ else _) = _ => destruct (Z.ltb_spec x base) as [L|L]; [|discriminate]; injection H as H end.
  destruct (Z.leb_spec 48 c), (Z.leb_spec c 57); simpl in *; try lia;
  destruct (Z.leb_spec 97 c), (Z.leb_spec c 122); simpl in *; try lia;
  destruct (Z.leb_spec 65 c), (Z.leb_spec c 90); simpl in *; lia.
Qed.

Lemma num_value_ge : forall base s acc v, 0 < base -> 0 <= acc -> num_value base acc s = Some v -> acc <= v.
Proof.
  induction s as [|c s IH]; intros acc v Hb Ha H; simpl in H.
  - injection H as <-. lia.
  - destruct (digit_in base c) as [d|] eqn:E; [|discriminate].
    apply digit_in_range in E; [|lia]. apply IH in H; [|lia|nia]. nia.
Qed.

(** strtoul in base 10 on a string starting with a digit. *)
Lemma strtoul10 : forall ulmax c s,
  48 <= c <= 57 ->
  match num_value 10 0 (c :: s) with
  | Some v => strtoul ulmax 10 (c :: s) = (if ulmax <? v then ulmax else v, [])
  | None => snd (strtoul ulmax 10 (c :: s)) <> []
  end.
Proof.
  intros ulmax c s Hc. unfold strtoul.
  assert (S1 : skip_spaces (c :: s) = c :: s).
  { simpl. unfold isspace. destruct (Z.leb_spec 9 c), (Z.leb_spec c 13), (Z.eqb_spec c 32); simpl; try reflexivity; lia. }
  rewrite S1.
  replace (match c :: s with 45 :: t => (true, t) | 43 :: t => (false, t) | _ => (false, c :: s) end) with (false, c :: s).
  2:{ destruct c as [|p|p]; try reflexivity. do 6 (destruct p as [p|p|]; try reflexivity; try (exfalso; lia)). }
  replace (match c :: s with
           | 48 :: x :: t => if (10 =? 16) && ((x =? 120) || (x =? 88)) then (t, Some (x :: t)) else (c :: s, None)
           | _ => (c :: s, @None (list Z)) end) with (c :: s, @None (list Z)).
  2:{ destruct s; destruct c as [|p|p]; try reflexivity. all: do 6 (destruct p as [p|p|]; try reflexivity). }
  pose proof (take_digits_all 10 (c :: s) 0 0) as T.
  pose proof (take_digits_count 10 (c :: s) 0 0) as N.
  assert (D : digit_in 10 c = Some (c - 48)).
  { rewrite digit_in_10. destruct (Z.leb_spec 48 c), (Z.leb_spec c 57); simpl; try lia. reflexivity. }
  destruct (num_value 10 0 (c :: s)) as [v|].
  - rewrite T. cbn [length Nat.add]. destruct (ulmax <? v); reflexivity.
  - destruct (take_digits 10 0 0 (c :: s)) as [[v n] rest] eqn:E. simpl in T.
    destruct n.
    + exfalso. simpl in E. rewrite D in E.
      pose proof (take_digits_count 10 s (c - 48) 1) as N'. rewrite E in N'. simpl in N'. lia.
    + destruct (ulmax <? v); exact T.
Qed.

(** strtoul in base 16 on "0x" followed by at least one character. *)
Lemma strtoul16 : forall ulmax c s,
  match num_value 16 0 (c :: s) with
  | Some v => strtoul ulmax 16 (48 :: 120 :: c :: s) = (if ulmax <? v then ulmax else v, [])
  | None => snd (strtoul ulmax 16 (48 :: 120 :: c :: s)) <> []
  end.
Proof.
  intros ulmax c s. unfold strtoul.
  change (skip_spaces (48 :: 120 :: c :: s)) with (48 :: 120 :: c :: s). cbn [Z.eqb Pos.eqb orb andb].
  pose proof (take_digits_all 16 (c :: s) 0 0) as T.
  destruct (num_value 16 0 (c :: s)) as [v|].
  - rewrite T. cbn [length Nat.add]. destruct (ulmax <? v); reflexivity.
  - destruct (take_digits 16 0 0 (c :: s)) as [[v n] rest] eqn:E. simpl in T.
    destruct n; [simpl; discriminate|]. destruct (ulmax <? v); exact T.
Qed.

(** * Printing numbers *)

Lemma digit_char_in : forall base d, 2 <= base <= 16 -> 0 <= d < base -> digit_in base (digit_char d) = Some d.
Proof.
  intros base d Hb Hd. unfold digit_char, digit_in. destruct (Z.ltb_spec d 10).
  - destruct (Z.leb_spec 48 (48 + d)), (Z.leb_spec (48 + d) 57); cbn [andb]; try lia.
    destruct (Z.ltb_spec (48 + d - 48) base); [f_equal; lia|exfalso; lia].
  - destruct (Z.leb_spec 48 (87 + d)), (Z.leb_spec (87 + d) 57); cbn [andb]; try lia.
    destruct (Z.leb_spec 97 (87 + d)), (Z.leb_spec (87 + d) 122); cbn [andb]; try lia.
    destruct (Z.ltb_spec (87 + d - 87) base); [f_equal; lia|exfalso; lia].
Qed.

Lemma num_value_app : forall base s t acc,
  num_value base acc (s ++ t) = match num_value base acc s with Some v => num_value base v t | None => None end.
Proof.
  induction s as [|c s IH]; intros t acc; simpl; [reflexivity|].
  destruct (digit_in base c); [apply IH|reflexivity].
Qed.

(** Digits without an accumulator. *)
Fixpoint digs (fuel : nat) (base n : Z) : list Z :=
  match fuel with
  | O => []
  | S f => (if n / base =? 0 then [] else digs f base (n / base)) ++ [digit_char (n mod base)]
  end.

Lemma print_aux_digs : forall fuel base n acc, print_aux fuel base n acc = digs fuel base n ++ acc.
Proof.
  induction fuel as [|f IH]; intros base n acc; simpl; [reflexivity|].
  destruct (n / base =? 0); simpl; [reflexivity|].
  rewrite IH, <- app_assoc. reflexivity.
Qed.

Lemma fuel_ok : forall base n, 2 <= base -> 0 <= n -> n < 2 ^ Z.of_nat (S (Z.to_nat (Z.log2 n))).
Proof.
  intros base n Hb Hn. destruct (Z.eq_dec n 0) as [->|H0]; [reflexivity|].
  pose proof (Z.log2_spec n ltac:(lia)). pose proof (Z.log2_nonneg n).
  replace (Z.of_nat (S (Z.to_nat (Z.log2 n)))) with (Z.succ (Z.log2 n)) by lia. lia.
Qed.

Lemma num_value_digs : forall fuel base n, 2 <= base <= 16 -> 0 <= n < 2 ^ Z.of_nat fuel -> (0 < fuel)%nat ->
  num_value base 0 (digs fuel base n) = Some n.
Proof.
  induction fuel as [|f IH]; intros base n Hb Hn Hf; [lia|].
  cbn [digs]. rewrite num_value_app.
  assert (M : 0 <= n mod base < base) by (apply Z.mod_pos_bound; lia).
  assert (DM : n = base * (n / base) + n mod base) by (apply Z.div_mod; lia).
  destruct (Z.eqb_spec (n / base) 0) as [E|E].
  - cbn [num_value]. rewrite digit_char_in by assumption || lia.
    f_equal. rewrite E in DM. set (r := n mod base) in *. clearbody r. lia.
  - assert (P : 0 <= n / base) by (apply Z.div_pos; lia).
    assert (B : n / base < 2 ^ Z.of_nat f).
    { apply Z.div_lt_upper_bound; [lia|].
      assert (2 ^ Z.of_nat (S f) = 2 * 2 ^ Z.of_nat f).
      { rewrite Nat2Z.inj_succ, Z.pow_succ_r by lia. reflexivity. }
      assert (0 < 2 ^ Z.of_nat f) by (apply Z.pow_pos_nonneg; lia). nia. }
    assert (F : (0 < f)%nat).
    { destruct f; [|lia]. simpl in B. lia. }
    rewrite IH by (assumption || lia). cbn [num_value]. rewrite digit_char_in by (assumption || lia).
    f_equal. rewrite DM at 3. set (r := n mod base) in *. set (q := n / base) in *. clearbody r q. lia.
Qed.

Lemma print_num_value : forall base n, 2 <= base <= 16 -> 0 <= n -> num_value base 0 (print_num base n) = Some n.
Proof.
  intros base n Hb Hn. unfold print_num. rewrite print_aux_digs, app_nil_r.
  apply num_value_digs; [lia| |lia]. split; [lia|]. apply (fuel_ok base); lia.
Qed.

Lemma digit_char_range : forall d, 0 <= d < 16 -> 48 <= digit_char d <= 57 \/ 97 <= digit_char d <= 102.
Proof. intros d H. unfold digit_char. destruct (Z.ltb_spec d 10); lia. Qed.

Lemma digs_chars : forall fuel base n, 2 <= base <= 16 -> 0 <= n ->
  Forall (fun c => 48 <= c <= 57 \/ 97 <= c <= 102) (digs fuel base n).
Proof.
  induction fuel as [|f IH]; intros base n Hb Hn; cbn [digs]; [constructor|].
  apply Forall_app. split.
  - destruct (n / base =? 0); [constructor|]. apply IH; [lia|]. apply Z.div_pos; lia.
  - constructor; [|constructor]. apply digit_char_range.
    pose proof (Z.mod_pos_bound n base ltac:(lia)). lia.
Qed.

Lemma digs_chars10 : forall fuel n, 0 <= n -> Forall (fun c => 48 <= c <= 57) (digs fuel 10 n).
Proof.
  induction fuel as [|f IH]; intros n Hn; cbn [digs]; [constructor|].
  apply Forall_app. split.
  - destruct (n / 10 =? 0); [constructor|]. apply IH. lia.
  - constructor; [|constructor]. unfold digit_char. destruct (Z.ltb_spec (n mod 10) 10); lia.
Qed.

Lemma print_dec_digits : forall n, 0 <= n -> Forall (fun c => 48 <= c <= 57) (print_dec n).
Proof. intros n H. unfold print_dec, print_num. rewrite print_aux_digs, app_nil_r. apply digs_chars10, H. Qed.

Lemma print_hex_digits : forall n, 0 <= n -> Forall (fun c => 48 <= c <= 57 \/ 97 <= c <= 102) (print_hex n).
Proof. intros n H. unfold print_hex, print_num. rewrite print_aux_digs, app_nil_r. apply digs_chars; lia. Qed.

Lemma print_num_nonempty : forall base n, print_num base n <> [].
Proof.
  intros base n. unfold print_num. rewrite print_aux_digs, app_nil_r. cbn [digs].
  intro H. apply app_eq_nil in H as [_ H]. discriminate.
Qed.

Lemma print_dec_value : forall n, 0 <= n -> num_value 10 0 (print_dec n) = Some n.
Proof. intros. apply print_num_value; lia. Qed.
Lemma print_hex_value : forall n, 0 <= n -> num_value 16 0 (print_hex n) = Some n.
Proof. intros. apply print_num_value; lia. Qed.

(** No leading zero unless the number is 0. *)
Lemma digs_head : forall fuel base n, 2 <= base <= 16 -> 0 < n < 2 ^ Z.of_nat fuel ->
  hd 48 (digs fuel base n) <> 48.
Proof.
  induction fuel as [|f IH]; intros base n Hb Hn; [simpl in Hn; lia|].
  cbn [digs]. destruct (Z.eqb_spec (n / base) 0) as [E|E].
  - assert (DM : n = base * (n / base) + n mod base) by (apply Z.div_mod; lia).
    pose proof (Z.mod_pos_bound n base ltac:(lia)).
    simpl. unfold digit_char. destruct (Z.ltb_spec (n mod base) 10); lia.
  - assert (P : 0 <= n / base) by (apply Z.div_pos; lia).
    assert (B : n / base < 2 ^ Z.of_nat f).
    { apply Z.div_lt_upper_bound; [lia|].
      assert (2 ^ Z.of_nat (S f) = 2 * 2 ^ Z.of_nat f).
      { rewrite Nat2Z.inj_succ, Z.pow_succ_r by lia. reflexivity. }
      assert (0 < 2 ^ Z.of_nat f) by (apply Z.pow_pos_nonneg; lia). nia. }
    specialize (IH base (n / base) Hb ltac:(lia)).
    destruct (digs f base (n / base)) as [|x l]; [simpl in IH; congruence|]. exact IH.
Qed.

Lemma print_num_head : forall base n, 2 <= base <= 16 -> 0 < n -> hd 48 (print_num base n) <> 48.
Proof.
  intros base n Hb Hn. unfold print_num. rewrite print_aux_digs, app_nil_r. apply digs_head; [lia|].
  split; [lia|]. apply (fuel_ok base); lia.
Qed.

(** Upper bound on the number of digits. *)
Lemma digs_length : forall k fuel base n, 2 <= base -> 0 <= n < base ^ Z.of_nat k -> (0 < k)%nat ->
  (length (digs fuel base n) <= k)%nat.
Proof.
  induction k as [|k IH]; intros fuel base n Hb Hn Hk; [lia|].
  destruct fuel as [|f]; [simpl; lia|]. cbn [digs]. rewrite app_length. cbn [length].
  destruct (Z.eqb_spec (n / base) 0) as [E|E]; [simpl; lia|].
  assert (P : 0 <= n / base) by (apply Z.div_pos; lia).
  assert (B : n / base < base ^ Z.of_nat k).
  { apply Z.div_lt_upper_bound; [lia|]. rewrite Nat2Z.inj_succ, Z.pow_succ_r in Hn by lia. lia. }
  assert (K : (0 < k)%nat). { destruct k; [|lia]. simpl in B. lia. }
  specialize (IH f base (n / base) Hb ltac:(lia) K). lia.
Qed.

Lemma print_num_length : forall k base n, 2 <= base -> 0 <= n < base ^ Z.of_nat k -> (0 < k)%nat ->
  (length (print_num base n) <= k)%nat.
Proof. intros. unfold print_num. rewrite print_aux_digs, app_nil_r. apply digs_length; assumption. Qed.

(** * Splitting *)

Lemma split_first_some : forall c s a b, split_first c s = Some (a, b) -> s = a ++ c :: b /\ ~ In c a.
Proof.
  intros c s. induction s as [|x s IH]; intros a b H; simpl in H; [discriminate|].
  destruct (Z.eqb_spec x c) as [->|E].
  - injection H as <- <-. auto.
  - destruct (split_first c s) as [[a' b']|]; [|discriminate]. injection H as <- <-.
    destruct (IH a' b' eq_refl) as [-> N]. split; [reflexivity|]. intros [G|G]; [congruence|auto].
Qed.

Lemma split_first_app : forall c a b, ~ In c a -> split_first c (a ++ c :: b) = Some (a, b).
Proof.
  induction a as [|x a IH]; intros b N; simpl.
  - rewrite Z.eqb_refl. reflexivity.
  - destruct (Z.eqb_spec x c) as [->|E]; [exfalso; apply N; left; reflexivity|].
    rewrite IH by (intro G; apply N; right; exact G). reflexivity.
Qed.

Lemma split_first_spec : forall c s a b, split_first c s = Some (a, b) <-> s = a ++ c :: b /\ ~ In c a.
Proof.
  intros c s a b. split; [apply split_first_some|]. intros [-> N]. apply split_first_app, N.
Qed.

Lemma split_first_none : forall c s, split_first c s = None <-> ~ In c s.
Proof.
  intros c s. split.
  - intros H N. apply in_split in N as (l1 & l2 & E).
    assert (exists a b, split_first c s = Some (a, b)) as (a & b & G); [|congruence].
    subst s. clear H. induction l1 as [|y l1 IH]; simpl.
    + rewrite Z.eqb_refl. eauto.
    + destruct (y =? c); [eauto|]. destruct IH as (a & b & ->). eauto.
  - intro N. destruct (split_first c s) as [[a b]|] eqn:E; [|reflexivity].
    apply split_first_some in E as [-> _]. exfalso. apply N, in_elt.
Qed.

Lemma split_last_some : forall c s a b, split_last c s = Some (a, b) -> s = a ++ c :: b /\ ~ In c b.
Proof.
  assert (NN : forall c s, split_last c s = None -> ~ In c s).
  { intros c s. induction s as [|x s IH]; simpl; [tauto|].
    destruct (split_last c s) as [[? ?]|]; [discriminate|]. destruct (Z.eqb_spec x c); [discriminate|].
    intros _ [G|G]; [congruence|]. apply IH; auto. }
  intros c s. induction s as [|x s IH]; intros a b H; simpl in H; [discriminate|].
  destruct (split_last c s) as [[a' b']|] eqn:F.
  - injection H as <- <-. destruct (IH a' b' eq_refl) as [-> N]. auto.
  - destruct (Z.eqb_spec x c) as [->|E]; [|discriminate]. injection H as <- <-.
    split; [reflexivity|]. apply NN, F.
Qed.

Lemma split_last_app : forall c a b, ~ In c b -> split_last c (a ++ c :: b) = Some (a, b).
Proof.
  induction a as [|x a IH]; intros b N; simpl.
  - destruct (split_last c b) as [[a' b']|] eqn:E.
    + apply split_last_some in E as [-> _]. exfalso. apply N, in_elt.
    + rewrite Z.eqb_refl. reflexivity.
  - rewrite IH by exact N. reflexivity.
Qed.

Lemma split_last_spec : forall c s a b, split_last c s = Some (a, b) <-> s = a ++ c :: b /\ ~ In c b.
Proof.
  intros c s a b. split; [apply split_last_some|]. intros [-> N]. apply split_last_app, N.
Qed.

Lemma split_last_none : forall c s, split_last c s = None <-> ~ In c s.
Proof.
  intros c s. split.
  - induction s as [|x s IH]; simpl; [tauto|].
    destruct (split_last c s) as [[? ?]|]; [discriminate|]. destruct (Z.eqb_spec x c); [discriminate|].
    intros _ [G|G]; [congruence|]. apply IH; auto.
  - intro N. destruct (split_last c s) as [[a b]|] eqn:E; [|reflexivity].
    apply split_last_some in E as [-> _]. exfalso. apply N, in_elt.
Qed.

Lemma split_all_nonempty : forall c s, split_all c s <> [].
Proof.
  intros c s. destruct s as [|x s]; simpl; [discriminate|]. destruct (x =? c); [discriminate|].
  destruct (split_all c s); discriminate.
Qed.

(** [join] is the inverse of [split_all]. *)
Fixpoint join (sep : list Z) (l : list (list Z)) : list Z :=
  match l with
  | [] => []
  | [x] => x
  | x :: l' => x ++ sep ++ join sep l'
  end.

Lemma join_cons : forall sep x l, l <> [] -> join sep (x :: l) = x ++ sep ++ join sep l.
Proof. intros sep x l H. destruct l; [congruence|reflexivity]. Qed.

Lemma join_split_all : forall c s, join [c] (split_all c s) = s.
Proof.
  intros c s. induction s as [|x s IH]; simpl; [reflexivity|].
  pose proof (split_all_nonempty c s) as NE.
  destruct (Z.eqb_spec x c) as [->|E].
  - rewrite join_cons by exact NE. rewrite IH. reflexivity.
  - destruct (split_all c s) as [|f fs] eqn:F; [congruence|].
    destruct fs as [|g fs]; simpl in *; [congruence|]. congruence.
Qed.

Lemma split_all_no_sep : forall c s, Forall (fun f => ~ In c f) (split_all c s).
Proof.
  intros c s. induction s as [|x s IH]; simpl; [constructor; [auto|constructor]|].
  destruct (Z.eqb_spec x c) as [->|E]; [constructor; auto|].
  destruct (split_all c s) as [|f fs]; [constructor; [simpl; tauto|constructor]|].
  inversion_clear IH. constructor; [simpl; tauto|assumption].
Qed.

Lemma split_all_app : forall c a b, ~ In c a -> split_all c (a ++ c :: b) = a :: split_all c b.
Proof.
  induction a as [|x a IH]; intros b H; simpl.
  - rewrite Z.eqb_refl. reflexivity.
  - destruct (Z.eqb_spec x c) as [->|E]; [exfalso; apply H; left; reflexivity|].
    rewrite IH by (intro G; apply H; right; exact G). reflexivity.
Qed.

Lemma split_all_none : forall c a, ~ In c a -> split_all c a = [a].
Proof.
  induction a as [|x a IH]; intro H; simpl; [reflexivity|].
  destruct (Z.eqb_spec x c) as [->|E]; [exfalso; apply H; left; reflexivity|].
  rewrite IH by (intro G; apply H; right; exact G). reflexivity.
Qed.

Lemma split_all_join : forall c l, l <> [] -> Forall (fun f => ~ In c f) l -> split_all c (join [c] l) = l.
Proof.
  intros c l. induction l as [|x l IH]; intros NE F; [congruence|].
  inversion_clear F as [|? ? Hx Hl]. destruct l as [|y l].
  - simpl. apply split_all_none, Hx.
  - rewrite join_cons by discriminate. cbn [app]. rewrite split_all_app by exact Hx.
    rewrite IH by (congruence || assumption). reflexivity.
Qed.

(** * Case folding *)

Lemma ci_eq_refl : forall a, ci_eq a a = true.
Proof. intro. unfold ci_eq. apply beq_refl. Qed.

Lemma has_char_In : forall c s, has_char c s = true <-> In c s.
Proof.
  intros c s. unfold has_char. rewrite existsb_exists. split.
  - intros (x & H & E). apply Z.eqb_eq in E. congruence.
  - intro H. exists c. split; [exact H|apply Z.eqb_refl].
Qed.
