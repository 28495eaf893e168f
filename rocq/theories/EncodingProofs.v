(** Proofs about src/encoding.c and src/ctype.h. *)
From Coq Require Import String ZArith List Bool Lia.
From Verif Require Import Base Ctype Encoding EncodingSpec.
Import ListNotations.
Open Scope Z_scope.
Ltac Zify.zify_post_hook ::= Z.div_mod_to_equations.

(** * Character classes *)

Lemma space_sweep : forallb (fun c => Bool.eqb (char_is_space c)
   ((c =? 9) || (c =? 10) || (c =? 11) || (c =? 12) || (c =? 13) || (c =? 32))) (zrange (-128) 384) = true.
Proof. vm_compute. reflexivity. Qed.

Lemma char_is_space_correct : forall c, -128 <= c < 256 -> char_is_space c = true <-> space_spec c.
Proof.
  intros c Hc. pose proof (zrange_forallb _ _ _ space_sweep c ltac:(simpl; lia)) as H.
  apply eqb_prop in H. rewrite H. unfold space_spec. rewrite !orb_true_iff, !Z.eqb_eq. lia.
Qed.

Lemma digit_sweep : forallb (fun c => Bool.eqb (char_is_digit c)
   ((48 <=? c) && (c <=? 57))) (zrange (-128) 384) = true.
Proof. vm_compute. reflexivity. Qed.

Lemma char_is_digit_eq : forall c, -128 <= c < 256 -> char_is_digit c = (48 <=? c) && (c <=? 57).
Proof.
  intros c Hc. pose proof (zrange_forallb _ _ _ digit_sweep c ltac:(simpl; lia)) as H.
  apply eqb_prop in H. exact H.
Qed.

Lemma char_is_digit_correct : forall c, -128 <= c < 256 -> char_is_digit c = true <-> digit_spec c.
Proof.
  intros c Hc. rewrite char_is_digit_eq by lia. unfold digit_spec. rewrite andb_true_iff, !Z.leb_le. lia.
Qed.

Lemma alpha_sweep : forallb (fun c => Bool.eqb (char_is_alpha c)
   (((65 <=? c) && (c <=? 90)) || ((97 <=? c) && (c <=? 122)))) (zrange (-128) 384) = true.
Proof. vm_compute. reflexivity. Qed.

Lemma char_is_alpha_correct : forall c, -128 <= c < 256 -> char_is_alpha c = true <-> alpha_spec c.
Proof.
  intros c Hc. pose proof (zrange_forallb _ _ _ alpha_sweep c ltac:(simpl; lia)) as H.
  apply eqb_prop in H. rewrite H. unfold alpha_spec.
  rewrite orb_true_iff, !andb_true_iff, !Z.leb_le. lia.
Qed.

(** * Base64, one character *)

Lemma b64_out_sweep : forallb (fun d => (b64_out d =? b64_char d)) (zrange 0 64) = true.
Proof. vm_compute. reflexivity. Qed.

Lemma b64_out_char : forall d, 0 <= d < 64 -> b64_out d = b64_char d.
Proof. intros d H. apply Z.eqb_eq. apply (zrange_forallb _ _ _ b64_out_sweep). simpl; lia. Qed.

(** [b64_in] inverts [b64_char] and is -1 outside of the alphabet. *)
Lemma b64_in_sweep : forallb (fun sg => forallb (fun c =>
   let d := b64_in (char_val sg c) in
   ((0 <=? d) && (d <? 64) && (b64_char d =? c)) || ((d =? -1) && negb (existsb (Z.eqb c) b64_alphabet)))
   (zrange 0 256)) [true; false] = true.
Proof. vm_compute. reflexivity. Qed.

Lemma b64_in_char_sweep : forallb (fun sg => forallb (fun d => b64_in (char_val sg (b64_char d)) =? d)
   (zrange 0 64)) [true; false] = true.
Proof. vm_compute. reflexivity. Qed.

Definition b64d (sg : bool) (c : Z) : Z := b64_in (char_val sg c).

Lemma b64d_cases : forall sg c, is_byte c ->
  (0 <= b64d sg c < 64 /\ b64_char (b64d sg c) = c) \/ b64d sg c = -1.
Proof.
  intros sg c Hc. pose proof b64_in_sweep as S. rewrite forallb_forall in S.
  assert (Hin : In sg [true; false]) by (destruct sg; simpl; auto).
  specialize (S sg Hin). pose proof (byte_sweep _ S c Hc) as H. simpl in H. fold (b64d sg c) in H.
  apply orb_true_iff in H as [H|H].
  - rewrite !andb_true_iff, Z.leb_le, Z.ltb_lt, Z.eqb_eq in H. left; lia.
  - rewrite andb_true_iff, Z.eqb_eq in H. right; tauto.
Qed.

Lemma b64d_char : forall sg d, 0 <= d < 64 -> b64d sg (b64_char d) = d.
Proof.
  intros sg d Hd. pose proof b64_in_char_sweep as S. rewrite forallb_forall in S.
  assert (Hin : In sg [true; false]) by (destruct sg; simpl; auto).
  specialize (S sg Hin). pose proof (zrange_forallb _ _ _ S d ltac:(simpl; lia)) as H.
  apply Z.eqb_eq in H. exact H.
Qed.

Lemma b64_char_sweep : forallb (fun d => is_byteb (b64_char d) && negb (b64_char d =? 0)) (zrange 0 64) = true.
Proof. vm_compute. reflexivity. Qed.

Lemma b64_char_is_char : forall d, 0 <= d < 64 -> is_char (b64_char d).
Proof.
  intros d Hd. pose proof (zrange_forallb _ _ _ b64_char_sweep d ltac:(simpl; lia)) as H. cbv beta in H.
  unfold is_byteb in H. rewrite !andb_true_iff, negb_true_iff, Z.leb_le, Z.ltb_lt, Z.eqb_neq in H.
  unfold is_char. lia.
Qed.

Lemma b64_char_is_byte : forall d, 0 <= d < 64 -> is_byte (b64_char d).
Proof. intros d H. apply b64_char_is_char in H. unfold is_char, is_byte in *. lia. Qed.

(** * Bit facts *)

Lemma land_63 : forall x, Z.land x 63 = x mod 64.
Proof. intro x. change 63 with (Z.ones 6). rewrite Z.land_ones by lia. reflexivity. Qed.
Lemma land_255 : forall x, Z.land x 255 = x mod 256.
Proof. intro x. change 255 with (Z.ones 8). rewrite Z.land_ones by lia. reflexivity. Qed.
Lemma land_15 : forall x, Z.land x 15 = x mod 16.
Proof. intro x. change 15 with (Z.ones 4). rewrite Z.land_ones by lia. reflexivity. Qed.

Lemma land_shiftl_small : forall a b k, 0 <= k -> 0 <= b < 2 ^ k -> Z.land (Z.shiftl a k) b = 0.
Proof.
  intros a b k Hk Hb. apply Z.bits_inj'. intros n Hn. rewrite Z.land_spec, Z.bits_0.
  destruct (Z.ltb_spec n k).
  - rewrite Z.shiftl_spec_low by lia. reflexivity.
  - assert (Z.testbit b n = false) as ->; [|apply andb_false_r].
    destruct (Z.eq_dec b 0) as [->|Hb0]; [apply Z.bits_0|].
    apply Z.bits_above_log2; [lia|]. apply Z.log2_lt_pow2; [lia|].
    apply Z.lt_le_trans with (2 ^ k); [lia|]. apply Z.pow_le_mono_r; lia.
Qed.

Lemma lor_shiftl_add : forall a b k, 0 <= k -> 0 <= b < 2 ^ k -> Z.lor (Z.shiftl a k) b = a * 2 ^ k + b.
Proof.
  intros a b k Hk Hb. rewrite <- (Z.lxor_lor _ _ (land_shiftl_small a b k Hk Hb)).
  rewrite <- Z.add_nocarry_lxor by (apply land_shiftl_small; lia).
  rewrite Z.shiftl_mul_pow2 by lia. reflexivity.
Qed.

(** * Base64, one group *)

Lemma encode_base64_spec : forall a b c, is_byte a -> is_byte b -> is_byte c ->
  encode_base64 a b c =
    (let n := a * 65536 + b * 256 + c in
     [b64_char (n / 262144); b64_char (n / 4096 mod 64); b64_char (n / 64 mod 64); b64_char (n mod 64)]).
Proof.
  intros a b c Ha Hb Hc. unfold is_byte in *. unfold encode_base64. cbn [map]. cbv zeta.
  rewrite !land_63, !Z.shiftr_div_pow2 by lia.
  rewrite (lor_shiftl_add a (b / 2 ^ 4) 4) by lia.
  rewrite (lor_shiftl_add b (c / 2 ^ 6) 2) by lia.
  rewrite !b64_out_char by lia.
  repeat (f_equal; [f_equal; lia|]). f_equal. f_equal. lia.
Qed.

Lemma decode_base64_nonneg : forall sg c0 c1 c2 c3,
  0 <= b64d sg c0 < 64 -> 0 <= b64d sg c1 < 64 -> 0 <= b64d sg c2 < 64 -> 0 <= b64d sg c3 < 64 ->
  decode_base64 sg c0 c1 c2 c3 =
    b64d sg c0 * 262144 + b64d sg c1 * 4096 + b64d sg c2 * 64 + b64d sg c3.
Proof.
  intros sg c0 c1 c2 c3 H0 H1 H2 H3. unfold decode_base64. cbv zeta. fold (b64d sg c0) (b64d sg c1) (b64d sg c2) (b64d sg c3).
  rewrite Z.lor_0_l, Z.shiftl_0_r.
  rewrite <- !Z.lor_assoc.
  rewrite (lor_shiftl_add (b64d sg c2)) by lia.
  rewrite (lor_shiftl_add (b64d sg c1)) by lia.
  rewrite (lor_shiftl_add (b64d sg c0)) by lia.
  lia.
Qed.

Lemma decode_base64_range : forall sg c0 c1 c2 c3, is_byte c0 -> is_byte c1 -> is_byte c2 -> is_byte c3 ->
  - 2 ^ 24 <= decode_base64 sg c0 c1 c2 c3 < 2 ^ 24.
Proof.
  intros sg c0 c1 c2 c3 H0 H1 H2 H3.
  assert (D : forall c k, is_byte c -> 0 <= k <= 18 -> - 2 ^ 24 <= Z.shiftl (b64d sg c) k < 2 ^ 24).
  { intros c k Hc Hk. rewrite Z.shiftl_mul_pow2 by lia.
    assert (1 <= 2 ^ k <= 2 ^ 18).
    { split; [change 1 with (2 ^ 0)|]; apply Z.pow_le_mono_r; lia. }
    destruct (b64d_cases sg c Hc) as [[? ?]| ->]; nia. }
  assert (L : forall x y, - 2 ^ 24 <= x < 2 ^ 24 -> - 2 ^ 24 <= y < 2 ^ 24 -> - 2 ^ 24 <= Z.lor x y < 2 ^ 24).
  { intros x y Hx Hy.
    assert (B : forall z, - 2 ^ 24 <= z < 2 ^ 24 <-> Z.shiftr z 24 = 0 \/ Z.shiftr z 24 = -1).
    { intro z. rewrite Z.shiftr_div_pow2 by lia. lia. }
    apply B in Hx. apply B in Hy. apply B. rewrite Z.shiftr_lor.
    destruct Hx as [-> | ->], Hy as [-> | ->]; cbn; auto. }
  unfold decode_base64. cbv zeta. fold (b64d sg c0) (b64d sg c1) (b64d sg c2) (b64d sg c3).
  repeat apply L; try (apply D; [assumption|lia]). lia.
Qed.

Lemma decode_base64_neg : forall sg c0 c1 c2 c3, is_byte c0 -> is_byte c1 -> is_byte c2 -> is_byte c3 ->
  0 <= decode_base64 sg c0 c1 c2 c3 ->
  0 <= b64d sg c0 /\ 0 <= b64d sg c1 /\ 0 <= b64d sg c2 /\ 0 <= b64d sg c3.
Proof.
  intros sg c0 c1 c2 c3 H0 H1 H2 H3. unfold decode_base64. cbv zeta.
  fold (b64d sg c0) (b64d sg c1) (b64d sg c2) (b64d sg c3).
  rewrite !Z.lor_nonneg, !Z.shiftl_nonneg. tauto.
Qed.

(** A group decodes to a non-negative number iff it is the encoding of three bytes, and then the number
    is those bytes. *)
Lemma decode_group_inv : forall sg c0 c1 c2 c3, is_byte c0 -> is_byte c1 -> is_byte c2 -> is_byte c3 ->
  0 <= decode_base64 sg c0 c1 c2 c3 ->
  exists n, 0 <= n < 2 ^ 24 /\ decode_base64 sg c0 c1 c2 c3 = n /\
    c0 = b64_char (n / 262144) /\ c1 = b64_char (n / 4096 mod 64) /\
    c2 = b64_char (n / 64 mod 64) /\ c3 = b64_char (n mod 64).
Proof.
  intros sg c0 c1 c2 c3 H0 H1 H2 H3 Hv.
  destruct (decode_base64_neg sg c0 c1 c2 c3 H0 H1 H2 H3 Hv) as (P0 & P1 & P2 & P3).
  destruct (b64d_cases sg c0 H0) as [[D0 E0]|?]; [|lia].
  destruct (b64d_cases sg c1 H1) as [[D1 E1]|?]; [|lia].
  destruct (b64d_cases sg c2 H2) as [[D2 E2]|?]; [|lia].
  destruct (b64d_cases sg c3 H3) as [[D3 E3]|?]; [|lia].
  rewrite decode_base64_nonneg by assumption.
  set (n := b64d sg c0 * 262144 + b64d sg c1 * 4096 + b64d sg c2 * 64 + b64d sg c3).
  exists n. split; [unfold n; lia|]. split; [reflexivity|].
  rewrite <- E0 at 1. rewrite <- E1 at 1. rewrite <- E2 at 1. rewrite <- E3 at 1.
  repeat split; f_equal; unfold n; lia.
Qed.

Lemma decode_group_enc : forall sg n, 0 <= n < 2 ^ 24 ->
  decode_base64 sg (b64_char (n / 262144)) (b64_char (n / 4096 mod 64)) (b64_char (n / 64 mod 64)) (b64_char (n mod 64)) = n.
Proof.
  intros sg n Hn. rewrite decode_base64_nonneg; rewrite !b64d_char by lia; lia.
Qed.

Lemma sign_bit : forall v, - 2 ^ 24 <= v < 2 ^ 24 -> Z.shiftr (u32 v) 31 = if v <? 0 then 1 else 0.
Proof.
  intros v Hv. unfold u32. rewrite Z.shiftr_div_pow2 by lia. destruct (Z.ltb_spec v 0); lia.
Qed.

Lemma ret_fold : forall vals r, Forall (fun v => - 2 ^ 24 <= v < 2 ^ 24) vals -> (r = 0 \/ r = 1) ->
  let R := fold_left (fun ret v => u8 (Z.lor ret (Z.shiftr (u32 v) 31))) vals r in
  (R = 0 \/ R = 1) /\ (R = 0 <-> r = 0 /\ Forall (fun v => 0 <= v) vals).
Proof.
  induction vals as [|v vals IH]; intros r Hb Hr; simpl.
  - split; [exact Hr|]. split; [intros ->; auto|tauto].
  - inversion Hb; subst. rewrite sign_bit by assumption.
    set (r' := u8 (Z.lor r (if v <? 0 then 1 else 0))).
    assert (Hr' : r' = if (r =? 0) && negb (v <? 0) then 0 else 1).
    { unfold r'. destruct Hr as [-> | ->]; destruct (v <? 0); reflexivity. }
    destruct (IH r') as [I1 I2]; [assumption| |].
    { rewrite Hr'. destruct (_ && _); auto. }
    split; [exact I1|]. rewrite I2, Hr'. clear - Hr.
    destruct Hr as [-> | ->]; destruct (Z.ltb_spec v 0); simpl; split; intros [A B]; try discriminate; auto.
    + inversion B; lia.
    + inversion B; auto.
Qed.

Lemma ret_bool : forall r, 0 <= r < 256 -> (Z.land 1 (Z.shiftr (r - 1) 8) =? 0) = negb (r =? 0).
Proof.
  intros r Hr. destruct (Z.eqb_spec r 0) as [->|H]; [reflexivity|].
  assert (Z.shiftr (r - 1) 8 = 0) as ->; [|reflexivity].
  rewrite Z.shiftr_div_pow2 by lia. lia.
Qed.

Lemma bytes_of_24 : forall n, 0 <= n < 2 ^ 24 ->
  exists a b c, is_byte a /\ is_byte b /\ is_byte c /\ n = a * 65536 + b * 256 + c /\
    Z.land (Z.shiftr n 16) 255 = a /\ Z.land (Z.shiftr n 8) 255 = b /\ Z.land n 255 = c.
Proof.
  intros n Hn. exists (n / 65536), (n / 256 mod 256), (n mod 256). unfold is_byte.
  rewrite !land_255, !Z.shiftr_div_pow2 by lia. lia.
Qed.

Lemma group_bytes : forall a b c, is_byte a -> is_byte b -> is_byte c ->
  let n := a * 65536 + b * 256 + c in
  0 <= n < 2 ^ 24 /\ Z.land (Z.shiftr n 16) 255 = a /\ Z.land (Z.shiftr n 8) 255 = b /\ Z.land n 255 = c.
Proof.
  intros a b c Ha Hb Hc. unfold is_byte in *. cbv zeta. rewrite !land_255, !Z.shiftr_div_pow2 by lia. lia.
Qed.

Ltac explode l H :=
  match type of H with
  | length ?x = 0%nat => destruct x; [clear H|discriminate H]
  | length ?x = S _ =>
      let a := fresh "x" in let t := fresh "t" in
      destruct x as [|a t]; [discriminate H|]; cbn [length] in H; apply Nat.succ_inj in H; explode t H
  end.

Lemma key_to_base64_rfc : forall k, is_key k -> key_to_base64 k = rfc4648 k.
Proof.
  intros k [Hlen Hb]. explode k Hlen.
  repeat match goal with H : Forall _ (_ :: _) |- _ => inversion_clear H end.
  unfold key_to_base64.
  cbn [seq flat_map at_ nth Nat.mul Nat.add app].
  rewrite !encode_base64_spec by (assumption || (unfold is_byte; lia)).
  cbv zeta. cbn [app firstn rfc4648].
  replace (x29 * 65536 + x30 * 256 + 0) with (x29 * 65536 + x30 * 256) by lia. reflexivity.
Qed.

Lemma rfc4648_length_key : forall k, is_key k -> length (rfc4648 k) = 44%nat.
Proof. intros k [Hlen Hb]. explode k Hlen. reflexivity. Qed.

Lemma key_to_base64_length : forall k, length k = 32%nat -> length (key_to_base64 k) = 44%nat.
Proof. intros k Hlen. explode k Hlen. reflexivity. Qed.

(** The ten full groups, by structural recursion. *)
Fixpoint dec_list (sg : bool) (s : list Z) : list Z :=
  match s with
  | a :: b :: c :: d :: s' => decode_base64 sg a b c d :: dec_list sg s'
  | _ => []
  end.

Definition val_bytes (v : Z) : list Z := [ Z.land (Z.shiftr v 16) 255; Z.land (Z.shiftr v 8) 255; Z.land v 255 ].

Lemma dec_list_range : forall n sg s, length s = (4 * n)%nat -> Forall is_byte s ->
  Forall (fun v => - 2 ^ 24 <= v < 2 ^ 24) (dec_list sg s).
Proof.
  induction n as [|n IH]; intros sg s Hs Hb.
  - destruct s; [constructor|discriminate].
  - destruct s as [|a [|b [|c [|d s]]]]; try (simpl in Hs; lia).
    repeat match goal with H : Forall _ (_ :: _) |- _ => inversion_clear H end.
    cbn [dec_list]. constructor; [apply decode_base64_range; assumption|].
    apply IH; [simpl in Hs; lia|assumption].
Qed.

Lemma dec_list_inv : forall n sg s, length s = (4 * n)%nat -> Forall is_byte s ->
  Forall (fun v => 0 <= v) (dec_list sg s) ->
  let k := flat_map val_bytes (dec_list sg s) in
  length k = (3 * n)%nat /\ Forall is_byte k /\ forall r, rfc4648 (k ++ r) = s ++ rfc4648 r.
Proof.
  induction n as [|n IH]; intros sg s Hs Hb Hv.
  - destruct s; [|discriminate]. cbn. auto.
  - destruct s as [|c0 [|c1 [|c2 [|c3 s]]]]; try (simpl in Hs; lia).
    repeat match goal with H : Forall is_byte (_ :: _) |- _ => inversion_clear H end.
    cbn [dec_list] in Hv. inversion_clear Hv as [|? ? Hv0 Hv'].
    apply decode_group_inv in Hv0; try assumption.
    destruct Hv0 as (m & Rm & Em & E0 & E1 & E2 & E3).
    destruct (bytes_of_24 m Rm) as (a & b & c & Ha & Hbb & Hc & Hm & Ea & Eb & Ec).
    destruct (IH sg s ltac:(simpl in Hs; lia) ltac:(assumption) Hv') as (I1 & I2 & I3).
    cbn [dec_list flat_map]. rewrite Em. unfold val_bytes at 1 3 5. rewrite Ea, Eb, Ec.
    cbn [app length]. rewrite I1. split; [lia|]. split; [auto|].
    intro r. cbn [rfc4648]. rewrite I3. rewrite <- Hm, <- E0, <- E1, <- E2, <- E3. reflexivity.
Qed.

Lemma dec_list_enc : forall n sg k r, length k = (3 * n)%nat -> Forall is_byte k ->
  exists s, rfc4648 (k ++ r) = s ++ rfc4648 r /\ length s = (4 * n)%nat /\ Forall is_byte s /\
    Forall (fun v => 0 <= v) (dec_list sg s) /\ flat_map val_bytes (dec_list sg s) = k.
Proof.
  induction n as [|n IH]; intros sg k r Hk Hb.
  - destruct k; [|discriminate]. exists []. cbn. auto.
  - destruct k as [|a [|b [|c k]]]; try (simpl in Hk; lia).
    repeat match goal with H : Forall is_byte (_ :: _) |- _ => inversion_clear H end.
    destruct (IH sg k r ltac:(simpl in Hk; lia) ltac:(assumption)) as (s & I1 & I2 & I3 & I4 & I5).
    destruct (group_bytes a b c ltac:(assumption) ltac:(assumption) ltac:(assumption)) as (Rn & Ea & Eb & Ec).
    set (m := a * 65536 + b * 256 + c) in *.
    exists (b64_char (m / 262144) :: b64_char (m / 4096 mod 64) :: b64_char (m / 64 mod 64) :: b64_char (m mod 64) :: s).
    cbn [rfc4648 app]. fold m. rewrite I1. split; [reflexivity|].
    split; [cbn [length]; lia|].
    split; [repeat (constructor; [apply b64_char_is_byte; lia|]); assumption|].
    cbn [dec_list flat_map]. rewrite decode_group_enc by exact Rn. rewrite I5.
    split; [constructor; [lia|assumption]|]. unfold val_bytes. rewrite Ea, Eb, Ec. reflexivity.
Qed.

(** [key_from_base64] with the structural loop. *)
Lemma key_from_base64_struct : forall sg s c0 c1 c2,
  length s = 40%nat ->
  key_from_base64 sg (s ++ [c0; c1; c2; 61]) =
  (let vals := dec_list sg s in
   let ret1 := fold_left (fun ret v => u8 (Z.lor ret (Z.shiftr (u32 v) 31))) vals 0 in
   let v := decode_base64 sg c0 c1 c2 65 in
   let ret2 := u8 (Z.lor ret1 (Z.lor (Z.shiftr (u32 v) 31) (Z.land v 255))) in
   if Z.land 1 (Z.shiftr (ret2 - 1) 8) =? 0 then None
   else Some (flat_map val_bytes vals ++ [ Z.land (Z.shiftr v 16) 255; Z.land (Z.shiftr v 8) 255 ])).
Proof. intros sg s c0 c1 c2 H. explode s H. reflexivity. Qed.

Lemma lor_zero_u8 : forall r1 v, (r1 = 0 \/ r1 = 1) -> - 2 ^ 24 <= v < 2 ^ 24 ->
  let r := u8 (Z.lor r1 (Z.lor (Z.shiftr (u32 v) 31) (Z.land v 255))) in
  0 <= r < 256 /\ (r = 0 <-> r1 = 0 /\ 0 <= v /\ v mod 256 = 0).
Proof.
  intros r1 v Hr Hv. cbv zeta. split; [unfold u8; lia|].
  rewrite sign_bit by exact Hv. rewrite land_255.
  set (w := v mod 256). assert (Hw : 0 <= w < 256) by (unfold w; lia).
  assert (E : u8 (Z.lor r1 (Z.lor (if v <? 0 then 1 else 0) w)) = Z.lor r1 (Z.lor (if v <? 0 then 1 else 0) w)).
  { unfold u8. set (x := Z.lor _ _).
    assert (S : Z.shiftr x 8 = 0).
    { unfold x. rewrite !Z.shiftr_lor.
      assert (Z.shiftr w 8 = 0) as -> by (rewrite Z.shiftr_div_pow2 by lia; lia).
      destruct Hr as [-> | ->]; destruct (v <? 0); reflexivity. }
    rewrite Z.shiftr_div_pow2 in S by lia. lia. }
  rewrite E, !Z.lor_eq_0_iff. destruct (Z.ltb_spec v 0); lia.
Qed.

Lemma split_key_text : forall s, length s = 44%nat -> nth 43 s 0 = 61 ->
  exists s' c0 c1 c2, length s' = 40%nat /\ s = s' ++ [c0; c1; c2; 61].
Proof.
  intros s Hlen H43.
  exists (firstn 40 s), (nth 40 s 0), (nth 41 s 0), (nth 42 s 0).
  split; [rewrite firstn_length; lia|]. rewrite <- H43. explode s Hlen. reflexivity.
Qed.

Lemma last_group_enc : forall a b, is_byte a -> is_byte b ->
  let n := a * 65536 + b * 256 in
  0 <= n < 2 ^ 24 /\ n mod 64 = 0 /\ n mod 256 = 0
  /\ Z.land (Z.shiftr n 16) 255 = a /\ Z.land (Z.shiftr n 8) 255 = b.
Proof.
  intros a b Ha Hb. cbv zeta. rewrite !land_255, !Z.shiftr_div_pow2 by lia. unfold is_byte in *. lia.
Qed.

Lemma key_from_base64_enc : forall sg k, is_key k -> key_from_base64 sg (rfc4648 k) = Some k.
Proof.
  intros sg k [Hlen Hb].
  assert (Ek : k = firstn 30 k ++ [nth 30 k 0; nth 31 k 0]).
  { clear Hb. explode k Hlen. reflexivity. }
  assert (H1 : Forall is_byte (firstn 30 k) /\ is_byte (nth 30 k 0) /\ is_byte (nth 31 k 0)).
  { rewrite Ek in Hb. apply Forall_app in Hb as [A B].
    inversion_clear B as [|? ? B1 B2]. inversion_clear B2 as [|? ? B3 B4]. auto. }
  assert (L30 : length (firstn 30 k) = (3 * 10)%nat) by (rewrite firstn_length; lia).
  set (a := nth 30 k 0) in *. set (b := nth 31 k 0) in *. set (k0 := firstn 30 k) in *.
  destruct H1 as (Hk0 & Ha & Hbb). rewrite Ek. clearbody k0 a b. clear Ek Hlen Hb k.
  destruct (dec_list_enc 10 sg k0 [a; b] L30 Hk0) as (s & E1 & E2 & E3 & E4 & E5).
  rewrite E1. cbn [rfc4648]. rewrite key_from_base64_struct by exact E2.
  destruct (last_group_enc a b Ha Hbb) as (Rn & M64 & M256 & Ea & Eb).
  set (n := a * 65536 + b * 256) in *.
  change 65 with (b64_char 0).
  replace (b64_char 0) with (b64_char (n mod 64)) by (rewrite M64; reflexivity).
  rewrite decode_group_enc by exact Rn. cbv zeta. rewrite E5, Ea, Eb.
  destruct (ret_fold (dec_list sg s) 0 (dec_list_range 10 sg s E2 E3) (or_introl eq_refl)) as [I1 I2].
  set (r1 := fold_left _ _ 0) in *.
  assert (R1 : r1 = 0) by (apply I2; auto).
  destruct (lor_zero_u8 r1 n I1 ltac:(lia)) as [J1 J2].
  rewrite ret_bool by exact J1.
  assert (J : u8 (Z.lor r1 (Z.lor (Z.shiftr (u32 n) 31) (Z.land n 255))) = 0) by (apply J2; repeat split; [exact R1|lia|exact M256]).
  rewrite J. reflexivity.
Qed.

Lemma key_from_base64_inv : forall sg s k, Forall is_byte s ->
  key_from_base64 sg s = Some k -> is_key k /\ s = rfc4648 k.
Proof.
  intros sg s k Hs H.
  assert (E1 : length s = 44%nat /\ nth 43 s 0 = 61).
  { unfold key_from_base64 in H. fold (at_ s 43).
    destruct (Nat.eqb_spec (length s) 44); [|discriminate].
    destruct (Z.eqb_spec (at_ s 43) 61); [|discriminate]. auto. }
  destruct E1 as [E1 E2]. destruct (split_key_text s E1 E2) as (s' & c0 & c1 & c2 & L & ->).
  rewrite key_from_base64_struct in H by exact L. cbv zeta in H.
  apply Forall_app in Hs as [Hs' Hc].
  inversion_clear Hc as [|? ? B0 Hc']. inversion_clear Hc' as [|? ? B1 Hc]. inversion_clear Hc as [|? ? B2 _].
  assert (B65 : is_byte 65) by (unfold is_byte; lia).
  destruct (ret_fold (dec_list sg s') 0 (dec_list_range 10 sg s' L Hs') (or_introl eq_refl)) as [I1 I2].
  set (r1 := fold_left _ _ 0) in *.
  pose proof (decode_base64_range sg c0 c1 c2 65 B0 B1 B2 B65) as RV.
  destruct (lor_zero_u8 r1 _ I1 RV) as [J1 J2].
  rewrite ret_bool in H by exact J1.
  destruct (Z.eqb_spec (u8 (Z.lor r1 (Z.lor (Z.shiftr (u32 (decode_base64 sg c0 c1 c2 65)) 31)
     (Z.land (decode_base64 sg c0 c1 c2 65) 255)))) 0) as [E|E]; [|discriminate].
  cbn [negb] in H. apply J2 in E as (E3 & E4 & E5). apply I2 in E3 as [_ E3].
  destruct (dec_list_inv 10 sg s' L Hs' E3) as (K1 & K2 & K3).
  apply decode_group_inv in E4; try assumption.
  destruct E4 as (n & Rn & En & F0 & F1 & F2 & F3).
  rewrite En in *. destruct (bytes_of_24 n Rn) as (a & b & c & Ha & Hb & Hc & Hn & Ea & Eb & Ec).
  rewrite land_255, E5 in Ec. subst c. rewrite Z.add_0_r in Hn. rewrite Ea, Eb in H. injection H as <-.
  split.
  - split; [rewrite app_length, K1; reflexivity|]. apply Forall_app. split; [exact K2|]. auto.
  - rewrite K3. cbn [rfc4648]. rewrite <- Hn, <- F0, <- F1, <- F2. reflexivity.
Qed.

Lemma key_from_base64_iff : forall sg s k, Forall is_byte s ->
  key_from_base64 sg s = Some k <-> is_key k /\ s = rfc4648 k.
Proof.
  intros sg s k Hs. split.
  - apply key_from_base64_inv, Hs.
  - intros [Hk ->]. apply key_from_base64_enc, Hk.
Qed.

Lemma base64_roundtrip : forall sg k, is_key k -> key_from_base64 sg (key_to_base64 k) = Some k.
Proof. intros sg k H. rewrite key_to_base64_rfc by exact H. apply key_from_base64_enc, H. Qed.

