(** Proofs about the hexadecimal codec and the zero test of src/encoding.c. *)
From Coq Require Import String ZArith List Bool Lia.
From Verif Require Import Base Encoding EncodingSpec EncodingProofs.
Import ListNotations.
Open Scope Z_scope.
Ltac Zify.zify_post_hook ::= Z.div_mod_to_equations.

(** * Hex *)

Lemma hex_out_sweep : forallb (fun d => hex_out d =? nth (Z.to_nat d) hex_lower 0) (zrange 0 16) = true.
Proof. vm_compute. reflexivity. Qed.

Lemma hex_out_spec : forall d, 0 <= d < 16 -> hex_out d = nth (Z.to_nat d) hex_lower 0.
Proof. intros d H. apply Z.eqb_eq. apply (zrange_forallb _ _ _ hex_out_sweep). simpl; lia. Qed.

Lemma key_to_hex_spec : forall k, is_key k -> key_to_hex k = hex_spec k.
Proof.
  intros k [Hlen Hb].
  assert (E : key_to_hex k = flat_map (fun b => [hex_out (Z.shiftr b 4); hex_out (Z.land b 15)]) k).
  { clear Hb. explode k Hlen. unfold key_to_hex, at_. cbn [seq flat_map app nth]. reflexivity. }
  rewrite E. clear E Hlen. unfold hex_spec.
  induction Hb as [|b k Hb Hk IH]; [reflexivity|]. cbn [flat_map]. rewrite IH.
  rewrite land_15, Z.shiftr_div_pow2 by lia. change (2 ^ 4) with 16. unfold is_byte in Hb.
  rewrite !hex_out_spec by lia. reflexivity.
Qed.

Lemma hex_in_sweep : forallb (fun c =>
   match hexval c with
   | Some v => (fst (hex_in c) =? v) && (snd (hex_in c) =? 0) && (0 <=? v) && (v <? 16)
   | None => snd (hex_in c) =? -1
   end) (zrange 0 256) = true.
Proof. vm_compute. reflexivity. Qed.

Lemma hex_in_cases : forall c, is_byte c ->
  match hexval c with
  | Some v => hex_in c = (v, 0) /\ 0 <= v < 16
  | None => snd (hex_in c) = -1
  end.
Proof.
  intros c Hc. pose proof (byte_sweep _ hex_in_sweep c Hc) as H. cbv beta in H.
  destruct (hexval c) as [v|].
  - rewrite !andb_true_iff, !Z.eqb_eq, Z.leb_le, Z.ltb_lt in H. destruct (hex_in c); simpl in H.
    destruct H as (((-> & ->) & ?) & ?). split; [reflexivity|lia].
  - apply Z.eqb_eq in H. exact H.
Qed.

(** The loop of [key_from_hex] over the characters from pair [i] on. *)
Definition hex_step (s : list Z) (acc : list Z * Z) (i : nat) : list Z * Z :=
  let '(key, ret) := acc in
  let '(v0, e0) := hex_in (at_ s (i * 2)) in
  let '(v1, e1) := hex_in (at_ s (i * 2 + 1)) in
  (key ++ [ u8 (Z.lor (u8 (v0 * 16)) v1) ], u8 (Z.lor (u8 (Z.lor ret e0)) e1)).

Lemma hex_loop : forall n i (pre s : list Z) key ret, length pre = (2 * i)%nat -> length s = (2 * n)%nat ->
  Forall is_byte s -> (ret = 0 \/ ret = 255) ->
  let '(key', ret') := fold_left (hex_step (pre ++ s)) (seq i n) (key, ret) in
  (ret' = 0 \/ ret' = 255) /\
  match unhex s with
  | Some k => ret' = ret /\ key' = key ++ k
  | None => ret' = 255
  end.
Proof.
  induction n as [|n IH]; intros i pre s key ret Hpre Hs Hb Hret.
  - destruct s; [|discriminate]. simpl. rewrite app_nil_r. auto.
  - destruct s as [|a [|b s]]; try (simpl in Hs; lia).
    inversion_clear Hb as [|? ? Ha Hb']. inversion_clear Hb' as [|? ? Hbb Hb].
    cbn [seq fold_left].
    unfold hex_step at 2. unfold at_.
    rewrite (app_nth2 pre) by lia. rewrite (app_nth2 pre) by lia.
    replace (i * 2 - length pre)%nat with 0%nat by lia.
    replace (i * 2 + 1 - length pre)%nat with 1%nat by lia. cbn [nth].
    pose proof (hex_in_cases a Ha) as Ca. pose proof (hex_in_cases b Hbb) as Cb.
    destruct (hex_in a) as [v0 e0] eqn:Ea, (hex_in b) as [v1 e1] eqn:Eb.
    assert (Es : pre ++ a :: b :: s = (pre ++ [a; b]) ++ s) by (rewrite <- app_assoc; reflexivity).
    rewrite Es.
    assert (Hr : u8 (Z.lor (u8 (Z.lor ret e0)) e1) =
      match hexval a, hexval b with Some _, Some _ => ret | _, _ => 255 end).
    { destruct (hexval a); [destruct Ca as [Ca _]; injection Ca as -> ->|simpl in Ca; subst e0];
      (destruct (hexval b); [destruct Cb as [Cb _]; injection Cb as -> ->|simpl in Cb; subst e1]);
      destruct Hret as [-> | ->]; reflexivity. }
    specialize (IH (S i) (pre ++ [a; b]) s (key ++ [u8 (Z.lor (u8 (v0 * 16)) v1)])
                  (u8 (Z.lor (u8 (Z.lor ret e0)) e1))).
    rewrite app_length in IH. cbn [length] in IH.
    specialize (IH ltac:(lia) ltac:(simpl in Hs; lia) Hb).
    rewrite Hr in *.
    assert (Hret' : match hexval a, hexval b with Some _, Some _ => ret | _, _ => 255 end = 0 \/
                    match hexval a, hexval b with Some _, Some _ => ret | _, _ => 255 end = 255).
    { destruct (hexval a), (hexval b); auto. }
    specialize (IH Hret').
    destruct (fold_left _ _ _) as [key' ret'].
    destruct IH as [I1 I2]. split; [exact I1|].
    cbn [unhex].
    destruct (hexval a) as [x|]; [destruct (hexval b) as [y|]|].
    + destruct Ca as [Ca Rx], Cb as [Cb Ry]. injection Ca as -> ->. injection Cb as -> ->.
      destruct (unhex s) as [k|].
      * destruct I2 as [-> ->]. split; [reflexivity|]. rewrite <- app_assoc. cbn [app]. do 2 f_equal.
        unfold u8. rewrite (Z.mod_small (x * 16)) by lia.
        assert (L16 : Z.lor (x * 16) y = x * 16 + y).
        { change 16 with (2 ^ 4). rewrite <- Z.shiftl_mul_pow2 by lia. rewrite lor_shiftl_add by lia.
          rewrite Z.shiftl_mul_pow2 by lia. reflexivity. }
        rewrite L16, Z.mod_small; lia.
      * exact I2.
    + destruct (unhex s); intuition.
    + destruct (unhex s); intuition.
Qed.

Lemma unhex_length : forall n s k, length s = (2 * n)%nat -> unhex s = Some k -> length k = n.
Proof.
  induction n as [|n IH]; intros s k Hs H.
  - destruct s; [|discriminate]. injection H as <-. reflexivity.
  - destruct s as [|a [|b s]]; try (simpl in Hs; lia). cbn [unhex] in H.
    destruct (hexval a); [|discriminate]. destruct (hexval b); [|discriminate].
    destruct (unhex s) as [k'|] eqn:E; [|discriminate]. injection H as <-. simpl. f_equal.
    apply (IH s); [simpl in Hs; lia|exact E].
Qed.

Lemma key_from_hex_spec : forall s, Forall is_byte s ->
  key_from_hex s = if Nat.eqb (length s) 64 then unhex s else None.
Proof.
  intros s Hb. unfold key_from_hex.
  destruct (Nat.eqb_spec (length s) 64) as [E|E]; cbn [negb]; [|reflexivity].
  pose proof (hex_loop 32 0 [] s [] 0 eq_refl ltac:(rewrite E; reflexivity) Hb (or_introl eq_refl)) as H.
  rewrite app_nil_l in H. unfold hex_step in H.
  destruct (fold_left _ _ _) as [key' ret']. destruct H as [H1 H2].
  destruct (unhex s) as [k|].
  - destruct H2 as [-> ->]. reflexivity.
  - rewrite H2. reflexivity.
Qed.

Lemma hexval_sweep : forallb (fun d => match hexval (nth (Z.to_nat d) hex_lower 0) with Some v => v =? d | None => false end)
  (zrange 0 16) = true.
Proof. vm_compute. reflexivity. Qed.
Lemma hexval_lower : forall d, 0 <= d < 16 -> hexval (nth (Z.to_nat d) hex_lower 0) = Some d.
Proof.
  intros d H. pose proof (zrange_forallb _ _ _ hexval_sweep d ltac:(simpl; lia)) as S. cbv beta in S.
  destruct (hexval _); [|discriminate]. apply Z.eqb_eq in S. congruence.
Qed.

Lemma unhex_hex : forall k, Forall is_byte k -> unhex (hex_spec k) = Some k.
Proof.
  induction k as [|b k IH]; intro H; [reflexivity|]. inversion_clear H as [|? ? Hb Hk].
  unfold hex_spec. cbn [flat_map app unhex]. unfold is_byte in Hb. rewrite !hexval_lower by lia.
  unfold hex_spec in IH. rewrite IH by exact Hk. do 2 f_equal. lia.
Qed.

Lemma hex_lower_byte : forallb is_byteb hex_lower = true.
Proof. reflexivity. Qed.

Lemma hex_spec_length : forall k, length (hex_spec k) = (2 * length k)%nat.
Proof. induction k; simpl in *; [reflexivity|]. rewrite IHk. lia. Qed.

Lemma hex_spec_bytes : forall k, Forall is_byte k -> Forall is_byte (hex_spec k).
Proof.
  assert (G : forall d, 0 <= d < 16 -> is_byte (nth (Z.to_nat d) hex_lower 0)).
  { intros d H. pose proof hex_lower_byte as S. rewrite forallb_forall in S.
    specialize (S (nth (Z.to_nat d) hex_lower 0)). unfold is_byteb in S. rewrite andb_true_iff, Z.leb_le, Z.ltb_lt in S.
    apply S. apply nth_In. change (length hex_lower) with 16%nat. lia. }
  induction k as [|b k IH]; intro H; [constructor|]. inversion_clear H. unfold is_byte in H0.
  unfold hex_spec. cbn [flat_map app]. constructor; [apply G; lia|]. constructor; [apply G; lia|]. apply IH; assumption.
Qed.

Lemma hex_roundtrip : forall k, is_key k -> key_from_hex (key_to_hex k) = Some k.
Proof.
  intros k H. rewrite key_to_hex_spec by exact H. destruct H as [H1 H2].
  rewrite key_from_hex_spec by (apply hex_spec_bytes, H2).
  rewrite hex_spec_length, H1. cbn [Nat.mul Nat.add Nat.eqb]. apply unhex_hex, H2.
Qed.

(** * Zero test *)
Lemma lor_fold_zero : forall l a, 0 <= a < 256 -> Forall is_byte l ->
  let r := fold_left Z.lor l a in 0 <= r < 256 /\ (r = 0 <-> a = 0 /\ Forall (eq 0) l).
Proof.
  induction l as [|x l IH]; intros a Ha Hl; simpl.
  - split; [lia|]. split; [auto|tauto].
  - inversion_clear Hl as [|? ? Hx Hl']. unfold is_byte in Hx.
    assert (R : 0 <= Z.lor a x < 256).
    { split; [apply Z.lor_nonneg; lia|].
      assert (S : Z.shiftr (Z.lor a x) 8 = 0).
      { rewrite Z.shiftr_lor, !Z.shiftr_div_pow2 by lia. rewrite !Z.div_small by lia. reflexivity. }
      assert (0 <= Z.lor a x) by (apply Z.lor_nonneg; lia).
      rewrite Z.shiftr_div_pow2 in S by lia. lia. }
    destruct (IH (Z.lor a x) R Hl') as [I1 I2]. split; [exact I1|].
    rewrite I2, Z.lor_eq_0_iff. split.
    + intros [[-> ->] F]. auto.
    + intros [-> F]. inversion_clear F. auto.
Qed.

Lemma key_is_zero_correct : forall k, is_key k -> key_is_zero k = true <-> k = repeat 0 32.
Proof.
  intros k [Hlen Hb]. unfold key_is_zero.
  assert (E : fold_left (fun acc i => Z.lor acc (at_ k i)) (seq 0 32) 0 = fold_left Z.lor k 0).
  { clear Hb. explode k Hlen. unfold at_. cbn [seq fold_left nth]. reflexivity. }
  rewrite E. clear E.
  destruct (lor_fold_zero k 0 ltac:(lia) Hb) as [R I]. rewrite ret_bool by exact R. rewrite negb_involutive, Z.eqb_eq, I.
  split.
  - intros [_ F]. rewrite <- Hlen. clear - F. induction F; simpl; congruence.
  - intros ->. split; [reflexivity|]. clear. cbn. repeat constructor.
Qed.
