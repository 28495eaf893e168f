(** C01-C04: key texts and character classes.  Statements use only the model's entry points and EncodingSpec. *)
From Coq Require Import String ZArith List Bool Lia.
From Verif Require Import Base Ctype Encoding EncodingSpec EncodingProofs HexProofs.
Import ListNotations.
Open Scope Z_scope.

(** C01 *)
Theorem C01_base64_rfc4648 : forall k, is_key k -> key_to_base64 k = rfc4648 k /\ length (key_to_base64 k) = 44%nat.
Proof. intros k H. split; [apply key_to_base64_rfc, H|apply key_to_base64_length, H]. Qed.

Theorem C01_base64_roundtrip : forall sg k, is_key k -> key_from_base64 sg (key_to_base64 k) = Some k.
Proof. exact base64_roundtrip. Qed.

(** C02: for either signedness of char, any length, any bytes. *)
Theorem C02_base64_reader_exact : forall sg s k, Forall is_byte s ->
  key_from_base64 sg s = Some k <-> is_key k /\ s = rfc4648 k.
Proof. exact key_from_base64_iff. Qed.

Theorem C02_base64_unambiguous : forall sg s s' k, Forall is_byte s -> Forall is_byte s' ->
  key_from_base64 sg s = Some k -> key_from_base64 sg s' = Some k -> s = s'.
Proof.
  intros sg s s' k H H' A B. apply key_from_base64_iff in A as [_ ->]; [|exact H].
  apply key_from_base64_iff in B as [_ ->]; [|exact H']. reflexivity.
Qed.

(** C03 *)
Theorem C03_hex_text : forall k, is_key k -> key_to_hex k = hex_spec k /\ length (key_to_hex k) = 64%nat.
Proof.
  intros k H. rewrite key_to_hex_spec by exact H. split; [reflexivity|]. rewrite hex_spec_length. destruct H as [-> _]. reflexivity.
Qed.

Theorem C03_hex_roundtrip : forall k, is_key k -> key_from_hex (key_to_hex k) = Some k.
Proof. exact hex_roundtrip. Qed.

Theorem C03_hex_reader_exact : forall s k, Forall is_byte s ->
  key_from_hex s = Some k <-> length s = 64%nat /\ unhex s = Some k.
Proof.
  intros s k H. rewrite key_from_hex_spec by exact H. destruct (Nat.eqb_spec (length s) 64) as [L|L].
  - split; [auto|tauto].
  - split; [discriminate|tauto].
Qed.

(** C04 *)
Theorem C04_zero_key : forall k, is_key k -> key_is_zero k = true <-> k = repeat 0 32.
Proof. exact key_is_zero_correct. Qed.

Theorem C04_char_is_space : forall c, -128 <= c < 256 -> char_is_space c = true <-> c = 9 \/ c = 10 \/ c = 11 \/ c = 12 \/ c = 13 \/ c = 32.
Proof. exact char_is_space_correct. Qed.
Theorem C04_char_is_digit : forall c, -128 <= c < 256 -> char_is_digit c = true <-> 48 <= c <= 57.
Proof. exact char_is_digit_correct. Qed.
Theorem C04_char_is_alpha : forall c, -128 <= c < 256 -> char_is_alpha c = true <-> (65 <= c <= 90 \/ 97 <= c <= 122).
Proof. exact char_is_alpha_correct. Qed.

(** Non-trivial instances of the hypotheses. *)
Definition demo_key : list Z := zrange 224 32.
Example demo_key_is_key : is_key demo_key.
Proof.
  split; [reflexivity|]. apply Forall_forall. intros x Hx. apply zrange_In in Hx. unfold is_byte. lia.
Qed.
Example demo_b64 : key_to_base64 demo_key = str "4OHi4+Tl5ufo6err7O3u7/Dx8vP09fb3+Pn6+/z9/v8=".
Proof. reflexivity. Qed.
Example demo_b64_rejects : key_from_base64 true (str "4OHi4+Tl5ufo6err7O3u7/Dx8vP09fb3+Pn6+/z9/v9=") = None
  /\ key_from_base64 true (repeat 255 44) = None
  /\ key_from_base64 false (str "AAAA=") = None.
Proof. repeat split. Qed.
Example demo_hex : key_from_hex (key_to_hex demo_key) = Some demo_key /\ key_is_zero demo_key = false.
Proof. split; reflexivity. Qed.

Print Assumptions C01_base64_rfc4648.
Print Assumptions C01_base64_roundtrip.
Print Assumptions C02_base64_reader_exact.
Print Assumptions C02_base64_unambiguous.
Print Assumptions C03_hex_text.
Print Assumptions C03_hex_roundtrip.
Print Assumptions C03_hex_reader_exact.
Print Assumptions C04_zero_key.
Print Assumptions C04_char_is_space.
Print Assumptions C04_char_is_digit.
Print Assumptions C04_char_is_alpha.
