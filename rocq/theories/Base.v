(** Bytes, C integers, and small helpers shared by every model file.

    A byte is a [Z] in 0..255; a C string is the [list Z] of its bytes without the
    terminating NUL.  [char] may be signed or unsigned depending on the platform, so
    functions that compute with [char] take [sg : bool] (true: signed). *)
From Coq Require Import String Ascii ZArith List Bool Lia.
Import ListNotations.
Open Scope Z_scope.

Definition is_byte (b : Z) : Prop := 0 <= b < 256.
Definition is_byteb (b : Z) : bool := (0 <=? b) && (b <? 256).

(** A C string: bytes other than NUL. *)
Definition is_char (b : Z) : Prop := 0 < b < 256.

(** String literals as byte lists. *)
Definition str (s : string) : list Z :=
  map (fun c => Z.of_N (N_of_ascii c)) (list_ascii_of_string s).

(** Value of a [char] object holding byte [b] after integer promotion. *)
Definition char_val (sg : bool) (b : Z) : Z :=
  if sg && (128 <=? b) then b - 256 else b.

(** Conversions to unsigned types. *)
Definition u8 (z : Z) : Z := z mod 2 ^ 8.
Definition u16 (z : Z) : Z := z mod 2 ^ 16.
Definition u32 (z : Z) : Z := z mod 2 ^ 32.
Definition u64 (z : Z) : Z := z mod 2 ^ 64.

Definition all_bytes : list Z := map Z.of_nat (seq 0 256).
Definition zrange (lo : Z) (n : nat) : list Z := map (fun i => lo + Z.of_nat i) (seq 0 n).

Lemma zrange_In : forall lo n x, In x (zrange lo n) <-> lo <= x < lo + Z.of_nat n.
Proof.
  intros lo n x. unfold zrange. rewrite in_map_iff. split.
  - intros (i & <- & Hi). apply in_seq in Hi. lia.
  - intros H. exists (Z.to_nat (x - lo)). split; [lia|]. apply in_seq. lia.
Qed.

Lemma zrange_forallb : forall lo n (f : Z -> bool),
  forallb f (zrange lo n) = true -> forall x, lo <= x < lo + Z.of_nat n -> f x = true.
Proof.
  intros lo n f H x Hx. rewrite forallb_forall in H. apply H, zrange_In, Hx.
Qed.

Lemma byte_sweep : forall f : Z -> bool,
  forallb f (zrange 0 256) = true -> forall b, is_byte b -> f b = true.
Proof. intros f H b Hb. apply (zrange_forallb 0 256 f H). unfold is_byte in Hb. lia. Qed.

(** Equality of byte strings. *)
Fixpoint beq (a b : list Z) : bool :=
  match a, b with
  | [], [] => true
  | x :: a', y :: b' => (x =? y) && beq a' b'
  | _, _ => false
  end.

Lemma beq_eq : forall a b, beq a b = true <-> a = b.
Proof.
  induction a as [|x a IH]; destruct b as [|y b]; simpl; split; intro H;
    try reflexivity; try discriminate.
  - apply andb_true_iff in H as [H1 H2]. apply Z.eqb_eq in H1. apply IH in H2. congruence.
  - inversion H; subst. rewrite Z.eqb_refl. simpl. apply IH. reflexivity.
Qed.

Lemma beq_refl : forall a, beq a a = true.
Proof. intro a. apply beq_eq. reflexivity. Qed.

Lemma beq_neq : forall a b, beq a b = false <-> a <> b.
Proof.
  intros a b. rewrite <- beq_eq. destruct (beq a b); split; intro H; congruence.
Qed.

Lemma list_Z_eq_dec : forall a b : list Z, {a = b} + {a <> b}.
Proof. apply list_eq_dec, Z.eq_dec. Qed.

(** The ASCII lower-casing used by the "C" locale strcasecmp. *)
Definition lower (c : Z) : Z := if (65 <=? c) && (c <=? 90) then c + 32 else c.
Definition lowers (s : list Z) : list Z := map lower s.
