(** Proofs about src/config.c: allowed IPs, endpoints. *)
From Coq Require Import String ZArith List Bool Lia.
From Verif Require Import Base Ctype Encoding EncodingSpec EncodingProofs Cstr CstrProofs Inet InetProofs Types
  NumSpec ConfigSpec Config ConfigProofs.
Import ListNotations.
Open Scope Z_scope.

(** * Host part *)

Definition num32 (ws : list Z) : Z := fold_left (fun n w => n * 2 ^ 32 + w) ws 0.

Lemma num32_snoc : forall ws w, num32 (ws ++ [w]) = num32 ws * 2 ^ 32 + w.
Proof. intros. unfold num32. rewrite fold_left_app. reflexivity. Qed.

Lemma num32_nonneg : forall ws, Forall (fun w => 0 <= w < 2 ^ 32) ws -> 0 <= num32 ws.
Proof.
  induction ws as [|w ws IH] using rev_ind; intro F; [unfold num32; simpl; lia|].
  rewrite num32_snoc. apply Forall_app in F as [F1 F2]. inversion_clear F2. specialize (IH F1). lia.
Qed.

Lemma mod_high : forall a b m, 0 <= b < 2 ^ 32 -> 0 <= m -> (a * 2 ^ 32 + b) mod 2 ^ (32 + m) = (a mod 2 ^ m) * 2 ^ 32 + b.
Proof.
  intros a b m Hb Hm. rewrite Z.pow_add_r by lia.
  assert (P : 0 < 2 ^ m) by (apply Z.pow_pos_nonneg; lia).
  pose proof (Z.div_mod a (2 ^ m) ltac:(lia)) as D. pose proof (Z.mod_pos_bound a (2 ^ m) P) as B.
  symmetry. apply (Z.mod_unique_pos _ _ (a / 2 ^ m)).
  - split; [nia|]. nia.
  - rewrite D at 1. ring.
Qed.

Lemma mod_low : forall a b m, 0 <= m <= 32 -> (a * 2 ^ 32 + b) mod 2 ^ m = b mod 2 ^ m.
Proof.
  intros a b m Hm. replace (2 ^ 32) with (2 ^ (32 - m) * 2 ^ m) by (rewrite <- Z.pow_add_r by lia; f_equal; lia).
  rewrite Z.add_comm, Z.mul_assoc. rewrite Z.mod_add; [reflexivity|].
  assert (0 < 2 ^ m) by (apply Z.pow_pos_nonneg; lia). lia.
Qed.

Lemma land_mask : forall w m, 0 <= m <= 32 -> Z.land w (Z.shiftr 0xffffffff (32 - m)) = w mod 2 ^ m.
Proof.
  intros w m Hm. change 0xffffffff with (Z.ones 32). rewrite Z.shiftr_div_pow2 by lia.
  rewrite Z.ones_div_pow2 by lia. replace (32 - (32 - m)) with m by lia. apply Z.land_ones. lia.
Qed.

Lemma netmask_loop_spec : forall i cidr ws, 0 <= cidr -> (i < length ws)%nat -> Forall (fun w => 0 <= w < 2 ^ 32) ws ->
  netmask_loop cidr ws i = true <->
  num32 (firstn (S i) ws) mod 2 ^ (Z.max 0 (32 * (Z.of_nat i + 1) - cidr)) = 0.
Proof.
  induction i as [|i IH]; intros cidr ws Hc Hi Hw.
  - destruct ws as [|w ws]; [simpl in Hi; lia|]. inversion_clear Hw as [|? ? Hw0 Hw'].
    cbn [netmask_loop nth firstn]. unfold num32. cbn [fold_left].
    destruct (Z.leb_spec (32 * (Z.of_nat 0 + 1)) cidr).
    + replace (Z.max 0 (32 * (Z.of_nat 0 + 1) - cidr)) with 0 by lia. rewrite Z.mod_1_r. tauto.
    + replace (Z.max 0 (32 * (Z.of_nat 0 + 1) - cidr)) with (32 - cidr) by lia.
      replace (0 * 2 ^ 32 + w) with w by lia.
      destruct (Z.ltb_spec (32 * Z.of_nat 0) cidr).
      * replace (cidr - 32 * Z.of_nat 0) with (32 - (32 - cidr)) by lia. rewrite land_mask by lia.
        destruct (Z.eqb_spec (w mod 2 ^ (32 - cidr)) 0); cbn [negb]; intuition congruence.
      * assert (cidr = 0) by lia. subst cidr. change (32 - 0) with 32. change 0xffffffff with (Z.ones 32).
        rewrite Z.land_ones by lia.
        destruct (Z.eqb_spec (w mod 2 ^ 32) 0); cbn [negb]; intuition congruence.
  - cbn [netmask_loop].
    assert (E : firstn (S (S i)) ws = firstn (S i) ws ++ [nth (S i) ws 0]).
    { clear - Hi. revert ws Hi. induction (S i) as [|k IH]; intros ws Hi.
      - destruct ws; [simpl in Hi; lia|reflexivity].
      - destruct ws as [|w ws]; [simpl in Hi; lia|]. cbn [firstn app nth]. f_equal. apply IH. simpl in Hi. lia. }
    rewrite E, num32_snoc.
    assert (W : 0 <= nth (S i) ws 0 < 2 ^ 32).
    { rewrite Forall_forall in Hw. apply Hw. apply nth_In. exact Hi. }
    set (w := nth (S i) ws 0) in *. set (P := num32 (firstn (S i) ws)) in *.
    assert (HP : 0 <= P).
    { apply num32_nonneg. rewrite Forall_forall in *. intros x Hx. apply Hw.
      rewrite <- (firstn_skipn (S i) ws). apply in_or_app. left. exact Hx. }
    destruct (Z.leb_spec (32 * (Z.of_nat (S i) + 1)) cidr).
    + replace (Z.max 0 (32 * (Z.of_nat (S i) + 1) - cidr)) with 0 by lia. rewrite Z.mod_1_r. tauto.
    + destruct (Z.ltb_spec (32 * Z.of_nat (S i)) cidr).
      * replace (Z.max 0 (32 * (Z.of_nat (S i) + 1) - cidr)) with (32 * (Z.of_nat (S i) + 1) - cidr) by lia.
        rewrite mod_low by lia.
        replace (cidr - 32 * Z.of_nat (S i)) with (32 - (32 * (Z.of_nat (S i) + 1) - cidr)) by lia.
        rewrite land_mask by lia.
        destruct (Z.eqb_spec (w mod 2 ^ (32 * (Z.of_nat (S i) + 1) - cidr)) 0) as [Z0|N0]; cbn [negb].
        -- assert (B : netmask_loop cidr ws i = true).
           { destruct i; cbn [netmask_loop]; match goal with |- context [?a <=? cidr] => destruct (Z.leb_spec a cidr); [reflexivity|lia] end. }
           rewrite B. tauto.
        -- intuition congruence.
      * replace (Z.max 0 (32 * (Z.of_nat (S i) + 1) - cidr)) with (32 + Z.max 0 (32 * (Z.of_nat i + 1) - cidr)) by lia.
        rewrite mod_high by lia.
        change 0xffffffff with (Z.ones 32). rewrite Z.land_ones by lia. rewrite (Z.mod_small w) by lia.
        specialize (IH cidr ws Hc ltac:(lia) Hw). fold P in IH.
        assert (Q : 0 <= P mod 2 ^ Z.max 0 (32 * (Z.of_nat i + 1) - cidr)).
        { apply Z.mod_pos_bound. apply Z.pow_pos_nonneg; lia. }
        destruct (Z.eqb_spec w 0); cbn [negb].
        -- rewrite IH. nia.
        -- split; [discriminate|]. nia.
Qed.

Lemma ip_words_num4 : forall b0 b1 b2 b3, addr_num [b0; b1; b2; b3] = num32 (ip_words [b0; b1; b2; b3]).
Proof. intros. unfold addr_num, num32. cbn [ip_words fold_left]. ring. Qed.

Lemma is_word32 : forall b0 b1 b2 b3, is_byte b0 -> is_byte b1 -> is_byte b2 -> is_byte b3 ->
  0 <= b0 * 16777216 + b1 * 65536 + b2 * 256 + b3 < 2 ^ 32.
Proof. unfold is_byte. intros. lia. Qed.

Ltac explode16 ip L :=
  let rec go n := match n with
    | O => destruct ip; [clear L|discriminate L]
    | S ?m => let x := fresh "b" in destruct ip as [|x ip]; [discriminate L|]; go m
    end in go 16%nat.

Lemma validate_netmask_correct : forall a, wf_aip a -> validate_netmask a = true <-> host_part a = 0.
Proof.
  intros [fam ip cidr] H. unfold wf_aip in H. cbn [a_family a_ip a_cidr] in H.
  unfold validate_netmask, host_part. cbn [a_family a_ip a_cidr].
  destruct H as [(-> & L & B & C)|(-> & L & B & C)].
  - change (AF_INET =? AF_INET) with true. cbv iota.
    destruct ip as [|b0 [|b1 [|b2 [|b3 [|? ?]]]]]; try discriminate.
    repeat match goal with H : Forall _ (_ :: _) |- _ => inversion_clear H end.
    rewrite netmask_loop_spec; [|lia|simpl; lia|cbn [ip_words]; constructor; [apply is_word32; assumption|constructor]].
    rewrite ip_words_num4. cbn [ip_words firstn length].
    replace (Z.max 0 (32 * (Z.of_nat 0 + 1) - cidr)) with (8 * Z.of_nat 4 - cidr) by lia. tauto.
  - change (AF_INET6 =? AF_INET) with false. change (AF_INET6 =? AF_INET6) with true. cbv iota.
    explode16 ip L.
    repeat match goal with H : Forall _ (_ :: _) |- _ => inversion_clear H end.
    rewrite netmask_loop_spec; [|lia|simpl; lia|cbn [ip_words]; repeat (constructor; [apply is_word32; assumption|]); constructor].
    cbn [ip_words firstn length].
    replace (Z.max 0 (32 * (Z.of_nat 3 + 1) - cidr)) with (8 * Z.of_nat 16 - cidr) by lia.
    match goal with |- num32 ?x mod _ = 0 <-> addr_num ?y mod _ = 0 => replace (addr_num y) with (num32 x) end; [tauto|].
    unfold addr_num, num32. cbn [fold_left]. ring.
Qed.

(** * Results of inet_pton are well formed *)

Lemma pton4_go_len : forall s (tmp : list Z) cur (saw : bool) (octets : nat) r,
  (if saw then S (length tmp) = octets else length tmp = octets) -> (octets <= 4)%nat ->
  (saw = false -> (octets <= 3)%nat) ->
  pton4_go s tmp cur saw octets = Some r -> length r = 4%nat.
Proof.
  induction s as [|c s IH]; intros tmp cur saw octets r L O NS H; cbn [pton4_go] in H.
  - destruct (Nat.ltb_spec octets 4); [discriminate|]. injection H as <-. rewrite app_length. cbn [length].
    destruct saw; [lia|]. specialize (NS eq_refl). lia.
  - destruct ((48 <=? c) && (c <=? 57)).
    + destruct (saw && (cur =? 0)); [discriminate|].
      destruct (255 <? cur * 10 + (c - 48)); [discriminate|].
      destruct saw.
      * refine (IH _ _ _ _ _ _ _ _ H); [exact L|exact O|discriminate].
      * destruct (Nat.ltb_spec 3 octets); [discriminate|].
        refine (IH _ _ _ _ _ _ _ _ H); [| |discriminate]; cbv iota; lia.
    + destruct ((c =? 46) && saw) eqn:D; [|discriminate]. apply andb_true_iff in D as [_ ->].
      destruct (Nat.eqb_spec octets 4); [discriminate|].
      refine (IH _ _ _ _ _ _ _ _ H); cbv iota; try rewrite app_length; cbn [length]; lia.
Qed.

Lemma inet_pton4_wf : forall s a, inet_pton4 s = Some a -> length a = 4%nat /\ Forall is_byte a.
Proof.
  intros s a H. unfold inet_pton4 in H. split.
  - refine (pton4_go_len _ _ _ _ _ _ _ _ _ H); cbn; lia.
  - refine (pton4_go_bytes _ _ _ _ _ _ _ _ H); [constructor|unfold is_byte; lia].
Qed.

Lemma some_inj : forall A (x y : A), Some x = Some y -> x = y.
Proof. intros A x y H. injection H as H. exact H. Qed.

Lemma pton6_finish_wf : forall xd val tp cp r, 0 <= val <= 65535 -> Forall is_byte tp -> (length tp <= 16)%nat ->
  match cp with Some k => (k <= length tp)%nat | None => True end ->
  pton6_finish xd val tp cp = Some r -> length r = 16%nat /\ Forall is_byte r.
Proof.
  intros xd val tp cp r Hv Ht Hl Hcp H. unfold pton6_finish in H. revert H.
  set (t' := match xd with O => Some tp | _ => _ end). intro H.
  destruct t' as [t|] eqn:E; [|discriminate]. subst t'.
  assert (T : Forall is_byte t /\ (length t <= 16)%nat /\ match cp with Some k => (k <= length t)%nat | None => True end).
  { destruct xd.
    - injection E as <-. auto.
    - destruct (Nat.ltb_spec 16 (length tp + 2)); [discriminate|]. injection E as <-.
      rewrite app_length. cbn [length]. split; [|split; [lia|destruct cp; [lia|exact I]]].
      apply Forall_app. split; [exact Ht|]. constructor; [|constructor; [|constructor]]; unfold is_byte.
      + split; [apply Z.div_pos; lia|]. apply Z.div_lt_upper_bound; lia.
      + apply Z.mod_pos_bound. lia. }
  destruct T as (T1 & T2 & T3). destruct cp as [k|].
  - destruct (Nat.eqb_spec (length t) 16); [discriminate|]. apply some_inj in H. subst r.
    rewrite !app_length, repeat_length, firstn_length, skipn_length. split; [lia|].
    rewrite <- (firstn_skipn k t) in T1. apply Forall_app in T1 as [T4 T5].
    apply Forall_app. split; [exact T4|]. apply Forall_app. split; [|exact T5].
    apply Forall_forall. intros x Hx. apply repeat_spec in Hx. subst. unfold is_byte. lia.
  - destruct (Nat.eqb_spec (length t) 16); [|discriminate]. injection H as <-. auto.
Qed.

Lemma pton6_go_wf : forall s cur xd val tp cp r, 0 <= val <= 65535 -> Forall is_byte tp -> (length tp <= 16)%nat ->
  match cp with Some k => (k <= length tp)%nat | None => True end ->
  pton6_go s cur xd val tp cp = Some r -> length r = 16%nat /\ Forall is_byte r.
Proof.
  induction s as [|c s IH]; intros cur xd val tp cp r Hv Ht Hl Hcp H; cbn [pton6_go] in H.
  - eapply pton6_finish_wf; eassumption.
  - destruct (digit_in 16 c) as [d|] eqn:D.
    + destruct (Nat.eqb xd 4); [discriminate|].
      destruct (Z.ltb_spec 65535 (val * 16 + d)); [discriminate|].
      apply digit_in_range in D; [|lia]. refine (IH _ _ _ _ _ _ _ _ _ _ H); [lia|assumption|assumption|assumption].
    + destruct (c =? 58).
      * destruct xd.
        -- destruct cp; [discriminate|]. refine (IH _ _ _ _ _ _ _ _ _ _ H); [assumption|assumption|assumption|simpl; lia].
        -- destruct s as [|c' s']; [discriminate|]. destruct (Nat.ltb_spec 16 (length tp + 2)); [discriminate|].
           refine (IH _ _ _ _ _ _ _ _ _ _ H).
           ++ lia.
           ++ apply Forall_app. split; [exact Ht|]. constructor; [|constructor; [|constructor]]; unfold is_byte.
              ** split; [apply Z.div_pos; lia|]. apply Z.div_lt_upper_bound; lia.
              ** apply Z.mod_pos_bound. lia.
           ++ rewrite app_length. simpl. lia.
           ++ destruct cp; [|exact I]. rewrite app_length. simpl. lia.
      * destruct ((c =? 46) && Nat.leb (length tp + 4) 16) eqn:Dt; [|discriminate].
        apply andb_true_iff in Dt as [_ Dt]. apply Nat.leb_le in Dt.
        destruct (inet_pton4 cur) as [q|] eqn:Q; [|discriminate]. apply inet_pton4_wf in Q as [Q1 Q2].
        refine (pton6_finish_wf _ _ _ _ _ _ _ _ _ H).
        -- lia.
        -- apply Forall_app. auto.
        -- rewrite app_length. lia.
        -- destruct cp; [|exact I]. rewrite app_length. lia.
Qed.

Lemma inet_pton6_wf : forall s a, inet_pton6 s = Some a -> length a = 16%nat /\ Forall is_byte a.
Proof.
  intros s a H.
  assert (G : exists s' , pton6_go s' s' 0 0 [] None = Some a).
  { unfold inet_pton6 in H. destruct s as [|c s]; [discriminate|].
    destruct (Z.eq_dec c 58) as [->|N].
    - destruct s as [|c' s']; [discriminate|]. destruct (Z.eq_dec c' 58) as [->|N'].
      + eauto.
      + exfalso. destruct c' as [|p|p]; try discriminate H. repeat (destruct p as [p|p|]; try discriminate H). congruence.
    - exists (c :: s). rewrite <- H. destruct c as [|p|p]; try reflexivity. repeat (destruct p as [p|p|]; try reflexivity). congruence. }
  destruct G as [s' G]. refine (pton6_go_wf _ _ _ _ _ _ _ _ _ _ _ G); [lia|constructor|simpl; lia|exact I].
Qed.

(** * One allowed IP *)

Lemma parse_ip_iff : forall s fam a, parse_ip s = Some (fam, a) <-> exists full, ip_value s fam a full.
Proof.
  intros s fam a. unfold parse_ip. destruct (has_char 58 s) eqn:C.
  - apply has_char_In in C. split.
    + destruct (inet_pton6 s) eqn:E; [|discriminate]. intro H. injection H as <- <-. exists 128. constructor; assumption.
    + intros [full H]. inversion H as [? ? N P|? ? N P]; subst; [contradiction|]. rewrite P. reflexivity.
  - assert (N : ~ In 58 s) by (intro G; apply has_char_In in G; congruence). split.
    + destruct (inet_pton4 s) eqn:E; [|discriminate]. intro H. injection H as <- <-. exists 32. constructor; assumption.
    + intros [full H]. inversion H as [? ? N' P|? ? N' P]; subst; [|contradiction]. rewrite P. reflexivity.
Qed.

Lemma ip_value_full : forall s fam a full, ip_value s fam a full ->
  (fam = AF_INET /\ full = 32) \/ (fam = AF_INET6 /\ full = 128).
Proof. intros s fam a full H. inversion H; auto. Qed.

Lemma ip_value_fun : forall s fam a full fam' a' full', ip_value s fam a full -> ip_value s fam' a' full' ->
  fam = fam' /\ a = a' /\ full = full'.
Proof. intros s fam a full fam' a' full' H H'. inversion H; inversion H'; subst; try contradiction; repeat split; congruence. Qed.

Lemma aip_value_fun : forall s x y, aip_value s x -> aip_value s y -> x = y.
Proof.
  intros s x y H H'. inversion H as [s1 f1 a1 u1 N1 I1|s1 m1 f1 a1 u1 c1 N1 I1 D1 L1]; subst;
    inversion H' as [s2 f2 a2 u2 N2 I2|s2 m2 f2 a2 u2 c2 N2 I2 D2 L2 E2]; subst.
  - destruct (ip_value_fun _ _ _ _ _ _ _ I1 I2) as (-> & -> & ->). reflexivity.
  - exfalso. apply N1, in_elt.
  - exfalso. apply N2, in_elt.
  - pose proof (split_first_app 47 s1 m1 N1) as S1. rewrite <- E2, split_first_app in S1 by exact N2.
    injection S1 as -> ->.
    destruct (ip_value_fun _ _ _ _ _ _ _ I1 I2) as (-> & -> & ->).
    apply decimal_iff in D1 as [_ D1]. apply decimal_iff in D2 as [_ D2]. congruence.
Qed.

Lemma parse_aip_iff : forall e s a, Forall is_byte s -> 255 < e_ulmax e ->
  (exists w, parse_aip e s = Some (a, w)) <-> aip_value s a.
Proof.
  intros e s a Hb Hu. unfold parse_aip, split_mask.
  destruct (split_first 47 s) as [[ip m]|] eqn:SF.
  - apply split_first_some in SF as [-> N]. apply Forall_app in Hb as [Hb1 Hb2]. inversion_clear Hb2 as [|? ? _ Hm].
    pose proof (strtoul_decimal e m Hm) as S.
    split.
    + intros [w H]. destruct (parse_ip ip) as [[fam addr]|] eqn:P; [|discriminate].
      apply parse_ip_iff in P as [full P]. pose proof (ip_value_full _ _ _ _ P) as FF.
      destruct (negb (char_is_digit (first_char e m))); [discriminate|].
      destruct (strtoul (e_ulmax e) 10 m) as [c [|? ?]]; [|discriminate].
      destruct m as [|m0 m]; [discriminate|]. destruct (num_value 10 0 (m0 :: m)) as [n|] eqn:NV; [|discriminate].
      injection S as ->.
      pose proof (num_value_ge 10 (m0 :: m) 0 n ltac:(lia) ltac:(lia) NV) as NN.
      set (c := if e_ulmax e <? n then e_ulmax e else n) in *.
      destruct ((32 <? c) && (fam =? AF_INET) || (128 <? c) && (fam =? AF_INET6)) eqn:R; [discriminate|].
      apply orb_false_iff in R as [R1 R2].
      injection H as <- _.
      assert (C : c <= full).
      { destruct FF as [[-> ->]|[-> ->]].
        - rewrite andb_true_r in R1. apply Z.ltb_ge in R1. exact R1.
        - rewrite andb_true_r in R2. apply Z.ltb_ge in R2. exact R2. }
      assert (E : c = n).
      { unfold c in *. destruct (Z.ltb_spec (e_ulmax e) n); [|reflexivity]. destruct FF as [[_ ->]|[_ ->]]; lia. }
      rewrite E in *. unfold u8. rewrite Z.mod_small by (destruct FF as [[_ ->]|[_ ->]]; lia).
      eapply av_mask; [exact N|exact P| |exact C]. apply decimal_iff. split; [discriminate|exact NV].
    + intro H. inversion H as [s1 f1 a1 u1 N1 I1|s1 m1 f1 a1 u1 c1 N1 I1 D1 L1 E1]; subst.
      * exfalso. apply N1, in_elt.
      * pose proof (split_first_app 47 s1 m1 N1) as S1. rewrite E1, split_first_app in S1 by exact N.
        injection S1 as -> ->. clear E1.
        assert (P : parse_ip s1 = Some (f1, a1)) by (apply parse_ip_iff; eauto). rewrite P.
        pose proof (ip_value_full _ _ _ _ I1) as FF.
        pose proof (decimal_nonneg _ _ D1) as NN.
        apply decimal_iff in D1 as [NE NV]. destruct m1 as [|m0 m1]; [congruence|]. rewrite NV in S.
        destruct (negb (char_is_digit (first_char e (m0 :: m1)))); [discriminate|].
        destruct (strtoul (e_ulmax e) 10 (m0 :: m1)) as [c [|? ?]]; [|discriminate]. injection S as ->.
        assert (L256 : c1 <= 128) by (destruct FF as [[_ ->]|[_ ->]]; lia).
        destruct (Z.ltb_spec (e_ulmax e) c1); [lia|].
        assert (R : (32 <? c1) && (f1 =? AF_INET) || (128 <? c1) && (f1 =? AF_INET6) = false).
        { destruct FF as [[-> ->]|[-> ->]]; destruct (Z.ltb_spec 32 c1), (Z.ltb_spec 128 c1); try lia; reflexivity. }
        rewrite R. unfold u8. rewrite Z.mod_small by lia. eexists. reflexivity.
  - apply split_first_none in SF. split.
    + intros [w H]. destruct (parse_ip s) as [[fam addr]|] eqn:P; [|discriminate].
      apply parse_ip_iff in P as [full P]. pose proof (ip_value_full _ _ _ _ P) as FF.
      destruct FF as [[-> ->]|[-> ->]]; cbn in H; injection H as <- _; apply av_plain; assumption.
    + intro H. inversion H as [s1 f1 a1 u1 N1 I1|s1 m1 f1 a1 u1 c1 N1 I1 D1 L1 E1]; subst.
      * assert (P : parse_ip s = Some (f1, a1)) by (apply parse_ip_iff; eauto). rewrite P.
        pose proof (ip_value_full _ _ _ _ I1) as FF.
        destruct FF as [[-> ->]|[-> ->]]; cbn; eexists; reflexivity.
      * exfalso. apply SF, in_elt.
Qed.

(** The warning is printed exactly for entries with a non-zero host part, and its mask text is not NULL. *)
Lemma aip_value_wf : forall s a, aip_value s a -> wf_aip a.
Proof.
  intros s a H.
  assert (G : forall s fam ip full c, ip_value s fam ip full -> 0 <= c <= full -> wf_aip (mk_aip fam ip c)).
  { intros s' fam ip full c I C. inversion I as [? ? N P|? ? N P]; subst.
    - apply inet_pton4_wf in P. left. cbn. tauto.
    - apply inet_pton6_wf in P. right. cbn. tauto. }
  inversion H as [s1 f1 a1 u1 N1 I1|s1 m1 f1 a1 u1 c1 N1 I1 D1 L1]; subst.
  - eapply G; [exact I1|]. apply ip_value_full in I1 as [[_ ->]|[_ ->]]; lia.
  - eapply G; [exact I1|]. apply decimal_nonneg in D1. lia.
Qed.

Lemma parse_aip_warning : forall e s a w, Forall is_byte s -> 255 < e_ulmax e -> parse_aip e s = Some (a, w) ->
  (host_part a = 0 -> w = None) /\ (host_part a <> 0 -> exists m, w = Some (Some m) /\ exists ip, s = ip ++ 47 :: m).
Proof.
  intros e s a w Hb Hu H.
  assert (V : aip_value s a) by (apply (parse_aip_iff e); eauto).
  assert (W : wf_aip a) by (eapply aip_value_wf; exact V).
  assert (Ew : w = if validate_netmask a then None else Some (snd (split_mask s))).
  { unfold parse_aip in H. destruct (split_mask s) as [ip mask]. destruct (parse_ip ip) as [[fam addr]|]; [|discriminate].
    match type of H with (match ?X with _ => _ end) = _ => destruct X as [c|]; [|discriminate] end.
    injection H as <- <-. reflexivity. }
  pose proof (validate_netmask_correct a W) as C. split.
  - intro Z0. apply C in Z0. rewrite Z0 in Ew. exact Ew.
  - intro N0. destruct (validate_netmask a); [exfalso; apply N0, C; reflexivity|]. subst w.
    inversion V as [s1 f1 a1 u1 N1 I1|s1 m1 f1 a1 u1 c1 N1 I1 D1 L1]; subst.
    + exfalso. apply N0. unfold host_part. cbn [a_ip a_cidr].
      inversion I1 as [? ? N P|? ? N P]; subst.
      * apply inet_pton4_wf in P as [-> _]. apply Z.mod_1_r.
      * apply inet_pton6_wf in P as [-> _]. apply Z.mod_1_r.
    + unfold split_mask. rewrite split_first_app by exact N1. cbn [snd]. eauto.
Qed.

(** * Lists of allowed IPs *)

Lemma parse_aip_list_iff : forall e fields l, Forall (Forall is_byte) fields -> 255 < e_ulmax e ->
  parse_aip_list e fields = Some l <-> Forall2 aip_value fields l.
Proof.
  intros e fields. induction fields as [|f fs IH]; intros l Hb Hu; cbn [parse_aip_list].
  - split; intro H; [injection H as <-; constructor|inversion H; reflexivity].
  - inversion_clear Hb as [|? ? Hf Hfs]. split.
    + intro H. destruct (parse_aip e f) as [[a w]|] eqn:P; [|discriminate].
      destruct (parse_aip_list e fs) as [r|] eqn:R; [|discriminate]. injection H as <-.
      constructor; [apply (parse_aip_iff e); eauto|]. apply IH; auto.
    + intro H. inversion H as [|? ? ? ? Ha Hr]; subst. apply (parse_aip_iff e) in Ha as [w ->]; try assumption.
      apply IH in Hr; try assumption. rewrite Hr. reflexivity.
Qed.

Lemma commas_join : forall fs, commas fs = join [44] fs.
Proof. induction fs as [|f fs IH]; [reflexivity|]. destruct fs; [reflexivity|]. cbn [commas join app] in *. rewrite IH. reflexivity. Qed.

Lemma join_Forall : forall (P : Z -> Prop) sep fs, Forall P (join sep fs) -> Forall (Forall P) fs.
Proof.
  intros P sep fs. induction fs as [|f fs IH]; intro H; [constructor|]. destruct fs as [|g fs].
  - constructor; [exact H|constructor].
  - rewrite join_cons in H by discriminate. apply Forall_app in H as [H1 H2]. apply Forall_app in H2 as [_ H2].
    constructor; [exact H1|apply IH, H2].
Qed.

Lemma split_all_Forall : forall (P : Z -> Prop) c s, Forall P s -> Forall (Forall P) (split_all c s).
Proof. intros P c s H. apply (join_Forall P [c]). rewrite join_split_all. exact H. Qed.

(** The new allowed IPs are appended and nothing else but the replace flag changes. *)
Lemma parse_allowedips_iff : forall e p v p', Forall is_byte v -> 255 < e_ulmax e ->
  parse_allowedips e p v = Some p' <->
  exists l, aips_value v l /\ p' = set_aips (p_aips p ++ l) (set_replace_aips true p).
Proof.
  intros e p v p' Hb Hu. unfold parse_allowedips. destruct v as [|c v].
  - split.
    + intro H. injection H as <-. exists []. split; [constructor|]. rewrite app_nil_r. destruct p; reflexivity.
    + intros (l & H & ->). inversion H as [|f fs l' F1 F2 NE E]; subst.
      * rewrite app_nil_r. destruct p; reflexivity.
      * contradiction.
  - split.
    + intro H. destruct (parse_aip_list e (split_all 44 (c :: v))) as [l|] eqn:P; [|discriminate]. injection H as <-.
      exists l. split; [|reflexivity].
      apply parse_aip_list_iff in P; [|apply split_all_Forall, Hb|exact Hu].
      destruct (split_all 44 (c :: v)) as [|f fs] eqn:S; [exfalso; eapply split_all_nonempty; exact S|].
      assert (E : commas (f :: fs) = c :: v) by (rewrite commas_join, <- S; apply join_split_all).
      rewrite <- E. apply avs_some; [rewrite <- S; apply split_all_no_sep|exact P|rewrite E; discriminate].
    + intros (l & H & ->). remember (c :: v) as w eqn:W. destruct H as [|f fs l F1 F2 NE]; [discriminate|]. 
      rewrite commas_join in *. rewrite split_all_join by (discriminate || exact F1).
      assert (P : parse_aip_list e (f :: fs) = Some l).
      { apply parse_aip_list_iff; [apply (join_Forall is_byte [44]); exact Hb|exact Hu|exact F2]. }
      rewrite P. reflexivity.
Qed.

(** * Endpoints *)

Lemma split_endpoint_iff : forall v h p, split_endpoint v = Some (h, p) <-> endpoint_split v h p.
Proof.
  assert (E0 : forall c v, split_endpoint (c :: v) =
    if c =? 91 then match split_first 93 (c :: v) with
                    | None => None
                    | Some (a, b) => match b with 58 :: c0 :: p => Some (tl a, c0 :: p) | _ => None end
                    end
    else match split_last 58 (c :: v) with
         | None => None
         | Some (a, b) => match b with [] => None | _ => Some (a, b) end
         end).
  { intros c v. destruct (Z.eqb_spec c 91) as [->|N]; [reflexivity|].
    unfold split_endpoint. destruct c as [|q|q]; try reflexivity.
    repeat (destruct q as [q|q|]; try reflexivity). congruence. }
  intros v h p. destruct v as [|c v].
  - split; [discriminate|]. intro H. inversion H; match goal with E : ?a ++ _ = [] |- _ => destruct a; discriminate E end.
  - rewrite E0. destruct (Z.eqb_spec c 91) as [->|N].
    + split.
      * intro H. destruct (split_first 93 (91 :: v)) as [[a b]|] eqn:S; [|discriminate].
        apply split_first_some in S as [S N].
        destruct b as [|b0 b]; [discriminate|]. destruct (Z.eq_dec b0 58) as [->|Nb].
        -- destruct b as [|b1 b]; [discriminate|]. injection H as <- <-.
           destruct a as [|a0 a]; [discriminate|]. cbn [app] in S. injection S as <- ->. cbn [tl].
           apply es_bracket; [intro G; apply N; right; exact G|discriminate].
        -- exfalso. destruct b0 as [|q|q]; try discriminate H. repeat (destruct q as [q|q|]; try discriminate H). congruence.
      * intro H. inversion H as [h' p' N1 N2 N3 E|h' p' N1 N2 E]; subst.
        -- exfalso. destruct h as [|h0 h]; [discriminate|]. cbn in E. injection E as -> _. cbn in N1. congruence.
        -- change (91 :: h ++ 93 :: 58 :: p) with ((91 :: h) ++ 93 :: 58 :: p). rewrite (split_first_app 93 (91 :: h)) by (intros [G|G]; [discriminate|contradiction]).
           destruct p as [|p0 p]; [congruence|]. reflexivity.
    + split.
      * intro H. destruct (split_last 58 (c :: v)) as [[a b]|] eqn:S; [|discriminate].
        apply split_last_some in S as [S N']. destruct b as [|b0 b]; [discriminate|]. injection H as <- <-.
        rewrite S. apply es_plain; [|exact N'|discriminate].
        destruct a as [|a0 a]; cbn in S |- *; [lia|]. injection S as -> _. exact N.
      * intro H. inversion H as [h' p' N1 N2 N3 E|h' p' N1 N2 E]; subst.
        -- rewrite E. rewrite <- E. rewrite split_last_app by exact N2. destruct p; [congruence|reflexivity].
        -- congruence.
Qed.

Lemma parse_endpoint_iff : forall e v ep, parse_endpoint e v = Some ep <->
  exists h p, endpoint_split v h p /\ e_resolve e h p = Some ep.
Proof.
  intros e v ep. unfold parse_endpoint. destruct (split_endpoint v) as [[h p]|] eqn:S.
  - apply split_endpoint_iff in S. split; [eauto|]. intros (h' & p' & S' & R).
    apply split_endpoint_iff in S. apply split_endpoint_iff in S'. congruence.
  - split; [discriminate|]. intros (h & p & S' & _). apply split_endpoint_iff in S'. congruence.
Qed.

Lemma parse_key_iff : forall e v k, Forall is_byte v -> parse_key e v = Some k <-> key_value v k.
Proof. intros e v k H. unfold parse_key, key_value. apply key_from_base64_iff, H. Qed.
