(** Facts about the netlink writer and the attribute streams it produces. *)
From Coq Require Import ZArith List Bool Lia.
From Verif Require Import Base Types NlSpec Nl.
Import ListNotations.
Open Scope Z_scope.

Lemma len_app : forall a b, len (a ++ b) = len a + len b.
Proof. intros. unfold len. rewrite app_length. lia. Qed.
Lemma len_cons : forall x a, len (x :: a) = 1 + len a.
Proof. intros. unfold len. cbn [length]. lia. Qed.
Lemma len_nil : len [] = 0.
Proof. reflexivity. Qed.
Lemma len_nonneg : forall a, 0 <= len a.
Proof. intros. unfold len. lia. Qed.
Lemma len_repeat : forall x n, len (repeat x n) = Z.of_nat n.
Proof. intros. unfold len. rewrite repeat_length. reflexivity. Qed.
#[export] Hint Rewrite len_app len_cons len_nil len_repeat : len.

Lemma le_length : forall n v, length (le n v) = n.
Proof. induction n as [|n IH]; intro v; cbn [le length]; [reflexivity|]. rewrite IH. reflexivity. Qed.
Lemma len_le : forall n v, len (le n v) = Z.of_nat n.
Proof. intros. unfold len. rewrite le_length. reflexivity. Qed.
#[export] Hint Rewrite len_le : len.

Lemma le_val_le : forall n v, le_val (le n v) = v mod 256 ^ Z.of_nat n.
Proof.
  induction n as [|n IH]; intro v.
  - cbn. rewrite Z.mod_1_r. reflexivity.
  - cbn [le le_val]. rewrite IH.
    replace (256 ^ Z.of_nat (S n)) with (256 * 256 ^ Z.of_nat n) by (rewrite Nat2Z.inj_succ, Z.pow_succ_r; lia).
    rewrite Z.rem_mul_r by lia. reflexivity.
Qed.
Lemma le_val_le_id : forall n v, 0 <= v < 256 ^ Z.of_nat n -> le_val (le n v) = v.
Proof. intros n v H. rewrite le_val_le. apply Z.mod_small. exact H. Qed.
Lemma le_bytes : forall n v, Forall is_byte (le n v).
Proof.
  induction n as [|n IH]; intro v; cbn [le]; constructor; [|apply IH].
  unfold is_byte. apply Z.mod_pos_bound. lia.
Qed.

Lemma align_up4 : forall n, align n = up4 n.
Proof.
  intro n. unfold align, up4. rewrite <- Z.ldiff_land. change 3 with (Z.ones 2) at 2.
  rewrite Z.ldiff_ones_r by lia. rewrite Z.shiftl_mul_pow2, Z.shiftr_div_pow2 by lia. reflexivity.
Qed.
Lemma up4_range : forall n, n <= up4 n < n + 4.
Proof. intro n. unfold up4. pose proof (Z.div_mod (n + 3) 4 ltac:(lia)). pose proof (Z.mod_pos_bound (n + 3) 4 ltac:(lia)). lia. Qed.
Lemma up4_mult : forall n, (4 | up4 n).
Proof. intro n. unfold up4. exists ((n + 3) / 4). reflexivity. Qed.
Lemma up4_add : forall m n, (4 | m) -> up4 (m + n) = m + up4 n.
Proof.
  intros m n (k & ->). unfold up4. replace (k * 4 + n + 3) with (n + 3 + k * 4) by lia.
  rewrite Z.div_add by lia. lia.
Qed.
Lemma up4_id : forall n, (4 | n) -> up4 n = n.
Proof. intros n H. replace n with (n + 0) at 1 by lia. rewrite up4_add by exact H. reflexivity || (cbn; lia). Qed.

(** One attribute. *)
Definition enc (t : Z) (d : list Z) : list Z :=
  le 2 (4 + len d) ++ le 2 t ++ d ++ repeat 0 (Z.to_nat (up4 (len d) - len d)).

Lemma len_enc : forall t d, len (enc t d) = 4 + up4 (len d).
Proof.
  intros t d. unfold enc. autorewrite with len. pose proof (up4_range (len d)). lia.
Qed.
#[export] Hint Rewrite len_enc : len.
Lemma enc_mult : forall t d, (4 | len (enc t d)).
Proof. intros. rewrite len_enc. apply Z.divide_add_r; [exists 1; reflexivity|apply up4_mult]. Qed.

Lemma attr_put_enc : forall B b t d, len d < 65532 ->
  attr_put B b t d = append B b (enc t d).
Proof.
  intros B b t d H. unfold attr_put, enc. rewrite align_up4. unfold u16.
  rewrite Z.mod_small by (pose proof (len_nonneg d); lia). reflexivity.
Qed.

(** A sequence of check writes [w] writes [c] if it fits, and otherwise stops after some part of it. *)
Definition writes (B : Z) (w : list Z -> option wr) (c : list Z) : Prop :=
  forall b, len b <= B ->
    if len b + len c <=? B then w b = Some (Fit (b ++ c)) else exists x, w b = Some (Full (b ++ x)).

Lemma writes_nil : forall B, writes B (fun b => Some (Fit b)) [].
Proof.
  intros B b Hb. rewrite len_nil, Z.add_0_r, app_nil_r. destruct (Z.leb_spec (len b) B); [reflexivity|lia].
Qed.

Lemma writes_put : forall B t d, len d < 65532 -> writes B (fun b => attr_put_check B b t d) (enc t d).
Proof.
  intros B t d Hd b Hb. unfold attr_put_check. rewrite attr_put_enc by exact Hd. unfold append. rewrite len_enc, align_up4.
  destruct (Z.leb_spec (len b + (4 + up4 (len d))) B) as [H1|H1], (Z.ltb_spec B (len b + 4 + up4 (len d))) as [H2|H2]; try lia.
  - reflexivity.
  - exists []. rewrite app_nil_r. reflexivity.
Qed.

Lemma writes_if : forall B (c : bool) w1 w2 x1 x2, writes B w1 x1 -> writes B w2 x2 ->
  writes B (fun b => if c then w1 b else w2 b) (if c then x1 else x2).
Proof. intros B c w1 w2 x1 x2 H1 H2. destruct c; assumption. Qed.

(** Message header of a nest, as written by nest_start. *)
Definition nest_hdr (t : Z) : list Z := le 2 0 ++ le 2 (Z.lor (2 ^ 15) t).

Lemma nest_start_check_spec : forall B b t, len b <= B ->
  nest_start_check B b t = if len b + 4 <=? B then Some (Fit (b ++ nest_hdr t)) else Some (Full b).
Proof.
  intros B b t Hb. unfold nest_start_check, nest_start, append, nest_hdr. autorewrite with len.
  destruct (Z.leb_spec (len b + 4) B), (Z.ltb_spec B (len b + 4)); try lia; [|reflexivity].
  destruct (Z.leb_spec (len b + (Z.of_nat 2 + Z.of_nat 2)) B); [reflexivity|lia].
Qed.

Lemma firstn_app_exact : forall A (a b : list A), firstn (length a) (a ++ b) = a.
Proof. intros. rewrite firstn_app, Nat.sub_diag, firstn_all. cbn. apply app_nil_r. Qed.
Lemma skipn_app_exact : forall A (a b : list A), skipn (length a) (a ++ b) = b.
Proof. intros. rewrite skipn_app, Nat.sub_diag, skipn_all. reflexivity. Qed.

Lemma nest_cancel_app : forall b x, nest_cancel (b ++ x) (length b) = b.
Proof. intros. unfold nest_cancel. apply firstn_app_exact. Qed.

Lemma nest_end_app : forall b t body, (4 | len body) -> len body < 65532 ->
  nest_end (b ++ nest_hdr t ++ body) (length b) = b ++ enc (Z.lor (2 ^ 15) t) body.
Proof.
  intros b t body H4 Hl. unfold nest_end, enc. rewrite firstn_app_exact.
  f_equal. rewrite up4_id by exact H4. rewrite Z.sub_diag. cbn [Z.to_nat repeat]. rewrite app_nil_r.
  replace (length b + 2)%nat with (length (b ++ le 2 0)) by (rewrite app_length, le_length; reflexivity).
  unfold nest_hdr. rewrite !app_assoc. rewrite <- (app_assoc (b ++ le 2 0)). rewrite skipn_app_exact.
  rewrite <- !app_assoc. f_equal. unfold u16, len. rewrite !app_length, !le_length.
  rewrite Z.mod_small by (unfold len in Hl; lia). f_equal. lia.
Qed.

(** Attribute streams. *)
Lemma stream_fuel : forall f b, (length b < f)%nat -> forall f', (length b < f')%nat -> stream f b = stream f' b.
Proof.
  induction f as [|f IH]; intros b Hf f' Hf'; [lia|]. destruct f' as [|f']; [lia|].
  cbn [stream]. destruct b as [|l0 [|l1 [|t0 [|t1 rest]]]]; try reflexivity.
  destruct ((4 <=? l0 + 256 * l1) && (l0 + 256 * l1 <=? len (l0 :: l1 :: t0 :: t1 :: rest))) eqn:E; [|reflexivity].
  apply andb_true_iff in E as [E1 E2]. apply Z.leb_le in E1. f_equal.
  pose proof (up4_range (l0 + 256 * l1)).
  apply IH; rewrite skipn_length; cbn [length] in *; lia.
Qed.

Lemma attrs_nil : attrs [] = [].
Proof. reflexivity. Qed.

Lemma attrs_enc : forall t d rest, 0 <= t < 65536 -> len d < 65532 ->
  attrs (enc t d ++ rest) = (t mod 2 ^ 14, d) :: attrs rest.
Proof.
  intros t d rest Ht Hd. unfold attrs at 1. pose proof (len_nonneg d) as Hd0. pose proof (up4_range (len d)) as Hu.
  set (B := enc t d ++ rest). assert (HB : B = enc t d ++ rest) by reflexivity.
  unfold enc in HB. change (le 2 (4 + len d)) with ([(4 + len d) mod 256; (4 + len d) / 256 mod 256]) in HB.
  change (le 2 t) with ([t mod 256; t / 256 mod 256]) in HB. cbn [app] in HB.
  rewrite HB. cbn [stream]. rewrite <- HB.
  assert (E1 : (4 + len d) mod 256 + 256 * ((4 + len d) / 256 mod 256) = 4 + len d) by (Z.to_euclidean_division_equations; lia).
  assert (E2 : t mod 256 + 256 * (t / 256 mod 256) = t) by (Z.to_euclidean_division_equations; lia).
  rewrite E1, E2.
  assert (EB : len B = 4 + up4 (len d) + len rest) by (unfold B; autorewrite with len; lia).
  pose proof (len_nonneg rest).
  destruct (Z.leb_spec 4 (4 + len d)); [|lia]. destruct (Z.leb_spec (4 + len d) (len B)); [|lia]. cbn [andb].
  f_equal.
  - f_equal. replace (4 + len d - 4) with (len d) by lia. unfold len at 1. rewrite Nat2Z.id.
    rewrite <- app_assoc. apply firstn_app_exact.
  - replace (up4 (4 + len d)) with (4 + up4 (len d)) by (symmetry; apply up4_add; exists 1; reflexivity).
    replace (Z.to_nat (4 + up4 (len d))) with (length (enc t d)) by (rewrite <- len_enc with (t := t); unfold len; lia).
    unfold B. rewrite skipn_app_exact. apply stream_fuel; [|lia].
    rewrite app_length. pose proof (len_enc t d). unfold len in *. lia.
Qed.

Lemma attrs_enc1 : forall t d, 0 <= t < 65536 -> len d < 65532 -> attrs (enc t d) = [(t mod 2 ^ 14, d)].
Proof. intros. rewrite <- (app_nil_r (enc t d)), attrs_enc by assumption. reflexivity. Qed.

Lemma nested_type : forall t, 0 <= t < 2 ^ 14 -> 0 <= Z.lor (2 ^ 15) t < 65536 /\ Z.lor (2 ^ 15) t mod 2 ^ 14 = t.
Proof.
  intros t Ht. assert (E : Z.lor (2 ^ 15) t = 2 ^ 15 + t).
  { rewrite <- Z.lxor_lor, Z.add_nocarry_lxor; [reflexivity| |];
    apply Z.bits_inj'; intros n Hn; rewrite Z.land_spec, Z.bits_0, Z.pow2_bits_eqb by lia;
    destruct (Z.eqb_spec 15 n) as [<-|]; try reflexivity; cbn [andb];
    destruct (Z.eq_dec t 0) as [->|Hz]; try apply Z.bits_0; apply Z.bits_above_log2; try lia;
    apply Z.log2_lt_pow2; change (2 ^ 15) with 32768; change (2 ^ 14) with 16384 in Ht; lia. }
  rewrite E. split; [change (2 ^ 15) with 32768; change (2 ^ 14) with 16384 in Ht; lia|].
  replace (2 ^ 15 + t) with (t + 2 * 2 ^ 14) by (change (2 ^ 15) with (2 * 2 ^ 14); lia).
  rewrite Z.mod_add by lia. apply Z.mod_small. exact Ht.
Qed.
