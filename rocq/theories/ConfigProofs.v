(** Proofs about src/config.c: values. *)
From Coq Require Import String ZArith List Bool Lia.
From Verif Require Import Base Ctype Encoding EncodingSpec EncodingProofs Cstr CstrProofs Inet InetProofs Types
  NumSpec ConfigSpec Config.
Import ListNotations.
Open Scope Z_scope.

(** * Numerals *)

Lemma dec_digit_in : forall c v, dec_digit c v <-> digit_in 10 c = Some v.
Proof.
  intros c v. unfold dec_digit. rewrite digit_in_10.
  destruct (Z.leb_spec 48 c), (Z.leb_spec c 57); cbn [andb]; split; intro G; try discriminate; try lia.
  - f_equal. lia.
  - injection G as <-. lia.
Qed.

Lemma hex_digit_in : forall c v, hex_digit c v <-> digit_in 16 c = Some v.
Proof.
  intros c v. unfold hex_digit, digit_in.
  destruct (Z.leb_spec 48 c), (Z.leb_spec c 57), (Z.leb_spec 97 c), (Z.leb_spec c 122),
    (Z.leb_spec 65 c), (Z.leb_spec c 90); cbn [andb]; try lia;
  match goal with |- context [?a <? ?b] => destruct (Z.ltb_spec a b) end;
  split; intro G; try discriminate; try lia; try (f_equal; lia); injection G as <-; lia.
Qed.

Lemma numeral_iff : forall digit base, (forall c v, digit c v <-> digit_in base c = Some v) ->
  forall s n, numeral digit base s n <-> s <> [] /\ num_value base 0 s = Some n.
Proof.
  intros digit base HD s n. split.
  - induction 1 as [c v H|s n c v H [IH1 IH2] Hc].
    + split; [discriminate|]. simpl. apply HD in H. rewrite H. f_equal.
    + split; [destruct s; discriminate|]. rewrite num_value_app, IH2. simpl. apply HD in Hc. rewrite Hc. reflexivity.
  - revert n. induction s as [|c s IH] using rev_ind; intros n [NE H]; [congruence|].
    rewrite num_value_app in H. destruct (num_value base 0 s) as [m|] eqn:E; [|discriminate].
    simpl in H. destruct (digit_in base c) as [v|] eqn:D; [|discriminate]. injection H as <-.
    destruct s as [|c' s].
    + simpl in E. injection E as <-. replace (0 * base + v) with v by lia. apply num_one, HD, D.
    + apply num_more; [|apply HD, D]. apply IH. split; [discriminate|reflexivity].
Qed.

Lemma decimal_iff : forall s n, decimal s n <-> s <> [] /\ num_value 10 0 s = Some n.
Proof. apply numeral_iff, dec_digit_in. Qed.
Lemma hexadecimal_iff : forall s n, hexadecimal s n <-> s <> [] /\ num_value 16 0 s = Some n.
Proof. apply numeral_iff, hex_digit_in. Qed.

Lemma decimal_nonneg : forall s n, decimal s n -> 0 <= n.
Proof. intros s n H. apply decimal_iff in H as [_ H]. apply num_value_ge in H; lia. Qed.

Lemma first_digit : forall e c s, is_byte c -> char_is_digit (first_char e (c :: s)) = (48 <=? c) && (c <=? 57).
Proof.
  intros e c s Hc. unfold first_char, char_val. unfold is_byte in Hc.
  destruct (e_sg e); cbn [andb]; [|apply char_is_digit_eq; lia].
  destruct (Z.leb_spec 128 c); [|apply char_is_digit_eq; lia].
  rewrite char_is_digit_eq by lia.
  destruct (Z.leb_spec 48 (c - 256)), (Z.leb_spec 48 c), (Z.leb_spec c 57); cbn; lia.
Qed.

(** strtoul in base 10 with a first-digit check accepts exactly decimal numerals (up to saturation). *)
Lemma strtoul_decimal : forall e v, Forall is_byte v ->
  (if negb (char_is_digit (first_char e v)) then None
   else let '(ret, rest) := strtoul (e_ulmax e) 10 v in match rest with [] => Some ret | _ => None end)
  = match v, num_value 10 0 v with
    | [], _ => None
    | _, Some n => Some (if e_ulmax e <? n then e_ulmax e else n)
    | _, None => None
    end.
Proof.
  intros e v Hb. destruct v as [|c v]; [reflexivity|]. inversion_clear Hb as [|? ? Hc Hv].
  rewrite first_digit by exact Hc.
  destruct ((48 <=? c) && (c <=? 57)) eqn:D; cbn [negb].
  - rewrite andb_true_iff, !Z.leb_le in D.
    pose proof (strtoul10 (e_ulmax e) c v D) as S. destruct (num_value 10 0 (c :: v)) as [n|].
    + rewrite S. reflexivity.
    + destruct (strtoul (e_ulmax e) 10 (c :: v)) as [ret [|? ?]]; [simpl in S; congruence|reflexivity].
  - cbn [num_value]. rewrite digit_in_10, D. reflexivity.
Qed.

Lemma off_not_decimal : forall v n, ci_eq v (str "off") = true -> num_value 10 0 v = Some n -> v <> [] -> False.
Proof.
  intros v n H N NE. unfold ci_eq in H. apply beq_eq in H. destruct v as [|c v]; [congruence|].
  cbn in H. injection H as H _. cbn [num_value] in N. rewrite digit_in_10 in N.
  destruct ((48 <=? c) && (c <=? 57)) eqn:D; [|discriminate]. rewrite andb_true_iff, !Z.leb_le in D.
  unfold lower in H. destruct ((65 <=? c) && (c <=? 90)) eqn:U; [rewrite andb_true_iff, !Z.leb_le in U|]; lia.
Qed.

Lemma ci_eq_ci : forall a b, ci_eq a b = true <-> ci a b.
Proof. intros a b. apply beq_eq. Qed.

(** * PersistentKeepalive *)
Lemma parse_keepalive_iff : forall e v n, Forall is_byte v -> 65535 < e_ulmax e ->
  parse_keepalive e v = Some n <-> keepalive_value v n.
Proof.
  intros e v n Hb Hu. unfold parse_keepalive.
  destruct (ci_eq v (str "off")) eqn:Off.
  - split.
    + intro H. injection H as <-. apply ka_off, ci_eq_ci, Off.
    + intro H. inversion H as [? ?|? ? D L]; subst; [reflexivity|]. exfalso.
      apply decimal_iff in D as [NE D]. eapply off_not_decimal; eassumption.
  - pose proof (strtoul_decimal e v Hb) as S.
    destruct (negb (char_is_digit (first_char e v))).
    + split; [discriminate|]. intro H. exfalso. inversion H as [? O|? ? D L]; subst.
      * apply ci_eq_ci in O. congruence.
      * apply decimal_iff in D as [NE D]. destruct v; [congruence|]. rewrite D in S. discriminate.
    + destruct (strtoul (e_ulmax e) 10 v) as [ret rest].
      destruct rest as [|r rest].
      * destruct v as [|c v]; [discriminate|]. destruct (num_value 10 0 (c :: v)) as [m|] eqn:N; [|discriminate].
        injection S as ->. split.
        -- intro H. destruct (Z.ltb_spec (e_ulmax e) m).
           ++ destruct (Z.ltb_spec 65535 (e_ulmax e)); [discriminate|lia].
           ++ destruct (Z.ltb_spec 65535 m); [discriminate|]. injection H as <-.
              apply ka_dec; [|lia]. apply decimal_iff. split; [discriminate|exact N].
        -- intro H. inversion H as [? O|? ? D L]; subst.
           ++ apply ci_eq_ci in O. congruence.
           ++ apply decimal_iff in D as [_ D]. rewrite D in N. injection N as ->.
              destruct (Z.ltb_spec (e_ulmax e) m); [lia|]. destruct (Z.ltb_spec 65535 m); [lia|]. reflexivity.
      * split; [discriminate|]. intro H. exfalso. inversion H as [? O|? ? D L]; subst.
        -- apply ci_eq_ci in O. congruence.
        -- apply decimal_iff in D as [NE D]. destruct v; [congruence|]. rewrite D in S. discriminate.
Qed.

(** * FwMark *)
Lemma hex_prefix_dec : forall v, (exists a t, v = 48 :: 120 :: a :: t) \/
  (match v with 48 :: 120 :: _ :: _ => 16 | _ => 10 end) = 10.
Proof.
  intro v. destruct v as [|c0 [|c1 [|c2 v]]].
  - right. reflexivity.
  - right. destruct c0; try reflexivity. repeat (destruct p; try reflexivity).
  - right. destruct c0; try reflexivity. repeat (destruct p; try reflexivity).
    all: destruct c1; try reflexivity; repeat (destruct p; try reflexivity).
  - destruct (Z.eq_dec c0 48) as [->|N0].
    + destruct (Z.eq_dec c1 120) as [->|N1]; [left; eauto|]. right.
      destruct c1; try reflexivity. repeat (destruct p; try reflexivity). congruence.
    + right. destruct c0; try reflexivity. repeat (destruct p; try reflexivity). congruence.
Qed.

Lemma decimal_not_hexprefix : forall a t n, decimal (48 :: 120 :: a :: t) n -> False.
Proof. intros a t n H. apply decimal_iff in H as [_ H]. cbn in H. discriminate. Qed.

Lemma parse_fwmark_iff : forall e v n, Forall is_byte v -> 0xffffffff < e_ulmax e ->
  parse_fwmark e v = Some n <-> fwmark_value v n.
Proof.
  intros e v n Hb Hu. unfold parse_fwmark.
  destruct (ci_eq v (str "off")) eqn:Off.
  - split.
    + intro H. injection H as <-. apply fw_off, ci_eq_ci, Off.
    + intro H. inversion H as [? ?|? ? D L|h m D L]; subst; [reflexivity| |]; exfalso.
      * apply decimal_iff in D as [NE D]. eapply off_not_decimal; eassumption.
      * apply ci_eq_ci in Off. unfold ci in Off. cbn in Off. discriminate.
  - destruct (hex_prefix_dec v) as [(a & t & ->)|Base].
    + change (str "0x") with [48; 120]. 
      assert (FD : char_is_digit (first_char e (48 :: 120 :: a :: t)) = true).
      { rewrite first_digit by (unfold is_byte; lia). reflexivity. }
      rewrite FD. cbn [negb].
      pose proof (strtoul16 (e_ulmax e) a t) as S.
      destruct (num_value 16 0 (a :: t)) as [m|] eqn:N.
      * rewrite S. split.
        -- intro H. destruct (Z.ltb_spec (e_ulmax e) m).
           ++ destruct (Z.ltb_spec 0xffffffff (e_ulmax e)); [discriminate|lia].
           ++ destruct (Z.ltb_spec 0xffffffff m); [discriminate|]. injection H as <-.
              apply (fw_hex (a :: t)); [|lia]. apply hexadecimal_iff. split; [discriminate|exact N].
        -- intro H. inversion H as [? O|? ? D L|h k D L E]; subst.
           ++ apply ci_eq_ci in O. congruence.
           ++ exfalso. eapply decimal_not_hexprefix, D.
           ++ apply hexadecimal_iff in D as [_ D]. rewrite D in N. injection N as ->.
              destruct (Z.ltb_spec (e_ulmax e) m); [lia|]. destruct (Z.ltb_spec 0xffffffff m); [lia|]. reflexivity.
      * destruct (strtoul (e_ulmax e) 16 (48 :: 120 :: a :: t)) as [ret [|r rest]]; [simpl in S; congruence|].
        split; [discriminate|]. intro H. exfalso. inversion H as [? O|? ? D L|h k D L E]; subst.
        -- apply ci_eq_ci in O. congruence.
        -- eapply decimal_not_hexprefix, D.
        -- apply hexadecimal_iff in D as [_ D]. congruence.
    + rewrite Base. pose proof (strtoul_decimal e v Hb) as S.
      assert (NH : forall h m, hexadecimal h m -> v <> str "0x" ++ h).
      { intros h m D ->. apply hexadecimal_iff in D as [NE _]. destruct h; [congruence|]. discriminate Base. }
      destruct (negb (char_is_digit (first_char e v))).
      * split; [discriminate|]. intro H. exfalso. inversion H as [? O|? ? D L|h k D L E]; subst.
        -- apply ci_eq_ci in O. congruence.
        -- apply decimal_iff in D as [NE D]. destruct v; [congruence|]. rewrite D in S. discriminate.
        -- eapply NH; [exact D|reflexivity].
      * destruct (strtoul (e_ulmax e) 10 v) as [ret rest].
        destruct rest as [|r rest].
        -- destruct v as [|c v]; [discriminate|]. destruct (num_value 10 0 (c :: v)) as [m|] eqn:N; [|discriminate].
           injection S as ->. split.
           ++ intro H. destruct (Z.ltb_spec (e_ulmax e) m).
              ** destruct (Z.ltb_spec 0xffffffff (e_ulmax e)); [discriminate|lia].
              ** destruct (Z.ltb_spec 0xffffffff m); [discriminate|]. injection H as <-.
                 apply fw_dec; [|lia]. apply decimal_iff. split; [discriminate|exact N].
           ++ intro H. inversion H as [? O|? ? D L|h k D L E]; subst.
              ** apply ci_eq_ci in O. congruence.
              ** apply decimal_iff in D as [_ D]. rewrite D in N. injection N as ->.
                 destruct (Z.ltb_spec (e_ulmax e) m); [lia|]. destruct (Z.ltb_spec 0xffffffff m); [lia|]. reflexivity.
              ** exfalso. eapply NH; [exact D|]. first [reflexivity | symmetry; exact E | cbn; congruence].
        -- split; [discriminate|]. intro H. exfalso. inversion H as [? O|? ? D L|h k D L E]; subst.
           ++ apply ci_eq_ci in O. congruence.
           ++ apply decimal_iff in D as [NE D]. destruct v; [congruence|]. rewrite D in S. discriminate.
           ++ eapply NH; [exact D|reflexivity].
Qed.
