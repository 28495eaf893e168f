(** The characters of printed addresses, numbers and keys. *)
From Coq Require Import String ZArith List Bool Lia.
From Verif Require Import Base Encoding EncodingSpec HexProofs Cstr CstrProofs Inet InetProofs Types ConfigProofs2.
Import ListNotations.
Open Scope Z_scope.

Definition addr_char (c : Z) : Prop := 46 <= c <= 58 /\ c <> 47 \/ 97 <= c <= 102.

Lemma dec_addr : forall n, 0 <= n -> Forall addr_char (print_dec n).
Proof. intros n H. eapply Forall_impl; [|apply print_dec_digits, H]. intros c Hc. left. simpl in Hc. lia. Qed.
Lemma hex_addr : forall n, 0 <= n -> Forall addr_char (print_hex n).
Proof. intros n H. eapply Forall_impl; [|apply print_hex_digits, H]. intros c Hc. unfold addr_char. simpl in Hc. lia. Qed.

Lemma ntop4_chars : forall a, Forall is_byte a -> Forall (fun c => 48 <= c <= 57 \/ c = 46) (inet_ntop4 a).
Proof.
  intros a H. assert (D : forall x, is_byte x -> Forall (fun c => 48 <= c <= 57 \/ c = 46) (print_dec x)).
  { intros x [Hx _]. eapply Forall_impl; [|apply print_dec_digits, Hx]. intros; left; assumption. }
  unfold inet_ntop4. repeat (destruct a as [|? a]; [solve [constructor]|]).
  destruct a; [|solve [constructor]].
  repeat match goal with X : Forall _ (_ :: _) |- _ => inversion_clear X end.
  apply Forall_app; split; [apply D; assumption|]. constructor; [right; reflexivity|].
  apply Forall_app; split; [apply D; assumption|]. constructor; [right; reflexivity|].
  apply Forall_app; split; [apply D; assumption|]. constructor; [right; reflexivity|].
  apply D; assumption.
Qed.
Lemma ntop4_addr : forall a, Forall is_byte a -> Forall addr_char (inet_ntop4 a).
Proof. intros a H. eapply Forall_impl; [|apply ntop4_chars, H]. intros c Hc. unfold addr_char. simpl in Hc. lia. Qed.

Lemma words_nonneg : forall n b, (length b <= n)%nat -> Forall is_byte b -> Forall (fun w => 0 <= w) (words b).
Proof.
  induction n as [|n IH]; intros b L H; destruct b as [|x [|y b]]; try solve [constructor]; cbn [length] in L; [lia|].
  inversion_clear H as [|? ? Hx H']. inversion_clear H' as [|? ? Hy Hb]. unfold is_byte in *. constructor; [lia|]. apply IH; [lia|assumption].
Qed.

Lemma ntop6_go_chars : forall ws i run w5 v4, Forall (fun w => 0 <= w) ws -> Forall addr_char v4 -> Forall addr_char (ntop6_go i ws run w5 v4).
Proof.
  assert (C : addr_char 58) by (left; lia).
  induction ws as [|w ws IH]; intros i run w5 v4 H Hv; cbn [ntop6_go]; [constructor|].
  inversion_clear H as [|? ? Hw Hws]. cbv zeta. destruct (match run with Some (b, l) => _ | None => _ end).
  - apply Forall_app. split; [|apply IH; assumption].
    destruct run as [[b l]|]; [|constructor]. destruct (Nat.eqb i b); [constructor; [exact C|constructor]|constructor].
  - apply Forall_app. split; [destruct (Nat.eqb i 0); [constructor|constructor; [exact C|constructor]]|].
    destruct (Nat.eqb i 6 && _); [exact Hv|]. apply Forall_app. split; [apply hex_addr, Hw|apply IH; assumption].
Qed.

Lemma ntop6_chars : forall a, Forall is_byte a -> Forall addr_char (inet_ntop6 a).
Proof.
  intros a H. unfold inet_ntop6. cbv zeta. apply Forall_app. split.
  - apply ntop6_go_chars; [apply (words_nonneg (length a)); [lia|exact H]|]. apply ntop4_addr.
    rewrite <- (firstn_skipn 12 a) in H. apply Forall_app in H. tauto.
  - destruct (zero_run (words a)) as [[b l]|]; [|constructor]. destruct (Nat.eqb (b + l) 8); [constructor; [left; lia|constructor]|constructor].
Qed.

(** What inet_pton(AF_INET6) accepts has a colon. *)
Lemma pton6_nocolon : forall s cur xd val, ~ In 58 s -> pton6_go s cur xd val [] None = None.
Proof.
  assert (F : forall xd val, pton6_finish xd val [] None = None).
  { intros xd val. unfold pton6_finish. destruct xd; reflexivity. }
  induction s as [|ch s IH]; intros cur xd val N; cbn [pton6_go]; [apply F|].
  assert (N' : ~ In 58 s) by (intro G; apply N; right; exact G).
  destruct (digit_in 16 ch).
  - destruct (Nat.eqb xd 4); [reflexivity|]. cbv zeta. destruct (65535 <? _); [reflexivity|]. apply IH, N'.
  - destruct (Z.eqb_spec ch 58) as [->|_]; [exfalso; apply N; left; reflexivity|].
    destruct ((ch =? 46) && _); [|reflexivity]. destruct (inet_pton4 cur) as [q|] eqn:E; [|reflexivity].
    cbn [app]. apply inet_pton4_wf in E as [E _]. unfold pton6_finish. rewrite E. reflexivity.
Qed.

Lemma pton6_colon_in : forall s a, inet_pton6 s = Some a -> In 58 s.
Proof.
  intros s a H. destruct (in_dec Z.eq_dec 58 s) as [G|G]; [exact G|exfalso].
  destruct s as [|c s]; [discriminate|]. assert (Nc : c <> 58) by (intros ->; apply G; left; reflexivity).
  rewrite inet_pton6_start in H by exact Nc. rewrite pton6_nocolon in H by exact G. discriminate.
Qed.

Lemma ntop6_colon_in : forall a, bytes_n 16 a -> In 58 (inet_ntop6 a).
Proof. intros a H. apply (pton6_colon_in _ a), inet6_roundtrip, H. Qed.

Lemma hex_lower_chars : forallb (fun c => (48 <=? c) && (c <=? 102) && negb (c =? 61) && negb (c =? 91) && negb (c =? 58)) hex_lower = true.
Proof. vm_compute. reflexivity. Qed.
Definition key_char (c : Z) : Prop := 48 <= c <= 102 /\ c <> 61 /\ c <> 91 /\ c <> 58.
Lemma hex_chars : forall k, is_key k -> Forall key_char (key_to_hex k).
Proof.
  intros k H. rewrite key_to_hex_spec by exact H. destruct H as [_ H].
  assert (N : forall d, 0 <= d < 16 -> key_char (nth (Z.to_nat d) hex_lower 0)).
  { intros d Hd. pose proof hex_lower_chars as S. rewrite forallb_forall in S.
    specialize (S (nth (Z.to_nat d) hex_lower 0)). assert (I : In (nth (Z.to_nat d) hex_lower 0) hex_lower).
    { apply nth_In. change (length hex_lower) with 16%nat. lia. }
    apply S in I. rewrite !andb_true_iff, !negb_true_iff, !Z.leb_le, !Z.eqb_neq in I. unfold key_char. lia. }
  unfold hex_spec. induction H as [|b k Hb Hk IH]; cbn [flat_map]; [constructor|].
  unfold is_byte in Hb. cbn [app]. constructor; [apply N; Z.to_euclidean_division_equations; lia|].
  constructor; [apply N; Z.to_euclidean_division_equations; lia|exact IH].
Qed.

(** Not containing a character. *)
Lemma not_in_by : forall (P : Z -> Prop) c s, Forall P s -> ~ P c -> ~ In c s.
Proof. intros P c s H N I. rewrite Forall_forall in H. apply N, H, I. Qed.
