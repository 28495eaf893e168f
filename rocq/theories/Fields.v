(** Memory blocks with bounds, and structures as sequences of fields. *)
From Coq Require Import ZArith List Bool Lia.
From Verif Require Import Base Types NlSpec NlProofs.
Import ListNotations.
Open Scope Z_scope.

(** Reading [n] bytes at [a], writing [x] at [a]; [None]: outside of the block. *)
Definition peek (b : list Z) (a n : Z) : option (list Z) :=
  if (0 <=? a) && (0 <=? n) && (a + n <=? len b) then Some (firstn (Z.to_nat n) (skipn (Z.to_nat a) b)) else None.
Definition poke (b : list Z) (a : Z) (x : list Z) : option (list Z) :=
  if (0 <=? a) && (a + len x <=? len b) then Some (firstn (Z.to_nat a) b ++ x ++ skipn (Z.to_nat (a + len x)) b) else None.
(** [|=] on an integer of [n] bytes. *)
Definition or_bits (b : list Z) (a n bits : Z) : option (list Z) :=
  match peek b a n with Some v => poke b a (le (Z.to_nat n) (Z.lor (le_val v) bits)) | None => None end.

Notation "'let*' x := e 'in' f" := (match e with Some x => f | None => None end) (at level 200, x pattern, right associativity).

Lemma peek_at : forall P x R a n, a = len P -> n = len x -> peek (P ++ x ++ R) a n = Some x.
Proof.
  intros P x R a n -> ->. unfold peek. pose proof (len_nonneg P). pose proof (len_nonneg x). pose proof (len_nonneg R).
  rewrite !len_app. destruct (Z.leb_spec 0 (len P)); [|lia]. destruct (Z.leb_spec 0 (len x)); [|lia]. destruct (Z.leb_spec (len P + len x) (len P + (len x + len R))); [|lia].
  cbn [andb]. unfold len. rewrite !Nat2Z.id. rewrite skipn_app_exact, firstn_app_exact. reflexivity.
Qed.
Lemma poke_at : forall P x R a y, a = len P -> len y = len x -> poke (P ++ x ++ R) a y = Some (P ++ y ++ R).
Proof.
  intros P x R a y -> E. unfold poke. pose proof (len_nonneg P). pose proof (len_nonneg x). pose proof (len_nonneg R).
  rewrite !len_app. destruct (Z.leb_spec 0 (len P)); [|lia]. destruct (Z.leb_spec (len P + len y) (len P + (len x + len R))); [|lia].
  cbn [andb]. unfold len in *. rewrite Nat2Z.id, firstn_app_exact. replace (Z.to_nat (Z.of_nat (length P) + Z.of_nat (length y))) with (length (P ++ x)) by (rewrite app_length; lia). rewrite (app_assoc P x R), skipn_app_exact. reflexivity.
Qed.

(** The fields of a structure, from address [len P] on. *)
Lemma split_fields : forall i (Fs : list (list Z)), (i < length Fs)%nat -> concat Fs = concat (firstn i Fs) ++ nth i Fs [] ++ concat (skipn (S i) Fs).
Proof.
  induction i as [|i IH]; intros [|F Fs] H; cbn in H; try lia; [reflexivity|].
  cbn [concat firstn nth]. rewrite (IH Fs) by lia. rewrite <- app_assoc. reflexivity.
Qed.
Lemma peek_field : forall P Fs R i a n, (i < length Fs)%nat -> a = len P + len (concat (firstn i Fs)) -> n = len (nth i Fs []) ->
  peek (P ++ concat Fs ++ R) a n = Some (nth i Fs []).
Proof.
  intros P Fs R i a n Hi Ha Hn. rewrite (split_fields i Fs Hi). rewrite <- !app_assoc. rewrite (app_assoc P). apply peek_at; [rewrite len_app; exact Ha|exact Hn].
Qed.
Lemma poke_field : forall P Fs R i a y, (i < length Fs)%nat -> a = len P + len (concat (firstn i Fs)) -> len y = len (nth i Fs []) ->
  poke (P ++ concat Fs ++ R) a y = Some (P ++ concat (firstn i Fs ++ y :: skipn (S i) Fs) ++ R).
Proof.
  intros P Fs R i a y Hi Ha Hn. rewrite (split_fields i Fs Hi). rewrite <- !app_assoc. rewrite (app_assoc P). rewrite (poke_at (P ++ concat (firstn i Fs))); [|rewrite len_app; exact Ha|exact Hn].
  rewrite concat_app. cbn [concat]. rewrite <- !app_assoc. reflexivity.
Qed.
Lemma or_bits_field : forall P Fs R i a n bits v, (i < length Fs)%nat -> a = len P + len (concat (firstn i Fs)) -> nth i Fs [] = le (Z.to_nat n) v -> 0 <= n ->
  0 <= v < 256 ^ n ->
  or_bits (P ++ concat Fs ++ R) a n bits = Some (P ++ concat (firstn i Fs ++ le (Z.to_nat n) (Z.lor v bits) :: skipn (S i) Fs) ++ R).
Proof.
  intros P Fs R i a n bits v Hi Ha Hv Hn Hr. unfold or_bits. rewrite (peek_field P Fs R i a n Hi Ha).
  2: { rewrite Hv, len_le. lia. }
  rewrite Hv, le_val_le_id by (rewrite Z2Nat.id by lia; exact Hr). apply poke_field; [exact Hi|exact Ha|]. rewrite Hv, !len_le. reflexivity.
Qed.
