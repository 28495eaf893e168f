(** C33: colours. *)
From Coq Require Import String ZArith List Bool Lia Arith.
From Verif Require Import Base Ctype Terminal TerminalSpec.
Import ListNotations.
Open Scope Z_scope.

Lemma alpha_letter : forall sg c, is_byte c -> char_is_alpha (char_val sg c) = letter c.
Proof.
  intros sg c H. apply Bool.eqb_prop. destruct sg.
  - apply (byte_sweep (fun c => Bool.eqb (char_is_alpha (char_val true c)) (letter c))); [vm_compute; reflexivity|exact H].
  - apply (byte_sweep (fun c => Bool.eqb (char_is_alpha (char_val false c)) (letter c))); [vm_compute; reflexivity|exact H].
Qed.

Definition nz (s : list Z) : list Z := filter (fun c => negb (c =? 0)) s.
Lemma emit_nz : forall n s, (length s <= n)%nat -> emit n s = nz s.
Proof.
  assert (C : forall s, nz s = cstring s ++ nz (skipn (length (cstring s)) s)).
  { induction s as [|c s IH]; [reflexivity|]. cbn [nz filter cstring]. destruct (c =? 0) eqn:E; cbn [negb length skipn app].
    - unfold nz. cbn [filter]. rewrite E. reflexivity.
    - f_equal. exact IH. }
  assert (K : forall s, nz (skip_nul s) = nz s).
  { induction s as [|c s IH]; [reflexivity|]. cbn [skip_nul nz filter]. destruct (c =? 0) eqn:E; cbn [negb]; [exact IH|]. unfold nz. cbn [filter]. rewrite E. reflexivity. }
  assert (KL : forall s, (length (skip_nul s) <= length s)%nat).
  { induction s as [|c s IH]; [reflexivity|]. cbn [skip_nul]. destruct (c =? 0); cbn [length]; lia. }
  induction n as [|n IH]; intros s L; [destruct s; [reflexivity|cbn in L; lia]|]. cbn [emit]. destruct s as [|c s]; [reflexivity|].
  rewrite (C (c :: s)). f_equal. rewrite IH, K; [reflexivity|].
  destruct (Z.eqb_spec c 0) as [->|N].
  - cbn [cstring Z.eqb length skipn skip_nul]. specialize (KL s). cbn [length] in L. change (0 =? 0) with true. cbv iota. lia.
  - cbn [cstring]. apply Z.eqb_neq in N. rewrite N. cbn [length skipn]. specialize (KL (skipn (length (cstring s)) s)). rewrite skipn_length in KL. cbn [length] in L. lia.
Qed.

(** The wiped bytes and what is left. *)
Lemma wipe_zeros : forall sg s, Forall is_byte s -> exists k, wipe sg s = repeat 0 k ++ after_letter s /\ length s = (k + length (after_letter s))%nat.
Proof.
  intros sg. induction s as [|c s IH]; intro B; [exists O; auto|]. inversion B as [|? ? Bc Bs]; subst. cbn [wipe after_letter]. rewrite alpha_letter by exact Bc.
  destruct (letter c); [exists 1%nat; split; [reflexivity|cbn; lia]|]. destruct (IH Bs) as (k & E & L). exists (S k). split; [cbn; rewrite E; reflexivity|cbn; lia].
Qed.
Lemma after_letter_bytes : forall P s, Forall P s -> Forall P (after_letter s).
Proof. intros P s. induction 1 as [|c s Hc Hs IH]; [constructor|]. cbn [after_letter]. destruct (letter c); [exact Hs|exact IH]. Qed.
Lemma after_letter_len : forall s, s <> [] -> (length (after_letter s) < length s)%nat.
Proof.
  induction s as [|c s IH]; intro H; [congruence|]. cbn [after_letter length]. destruct (letter c); [lia|]. destruct s as [|d s]; [cbn; lia|]. specialize (IH ltac:(discriminate)). lia.
Qed.

Lemma scan_zeros : forall sg k n s, (k + length s <= n)%nat -> nz (scan sg n (repeat 0 k ++ s)) = nz (scan sg (n - k) s).
Proof.
  intros sg. induction k as [|k IH]; intros n s L; [rewrite Nat.sub_0_r; reflexivity|]. destruct n as [|n]; [lia|]. cbn [repeat app].
  assert (D : (2 <= length (repeat 0%Z k ++ s))%nat \/ (length (repeat 0%Z k ++ s) < 2)%nat) by lia. destruct D as [D|D].
  - destruct (repeat 0 k ++ s) as [|b [|c t]] eqn:E; cbn [length] in D; try lia. cbn [scan]. change (0 =? 27) with false. cbn [andb nz filter]. change (0 =? 0) with true. cbn [negb].
    fold (nz (scan sg n (b :: c :: t))). rewrite <- E. rewrite IH by lia. reflexivity.
  - assert (S1 : scan sg (S n) (0 :: repeat 0 k ++ s) = 0 :: repeat 0 k ++ s) by (cbn [scan]; destruct (repeat 0 k ++ s) as [|b [|c t]]; cbn [length] in D; try reflexivity; lia).
    rewrite S1. assert (S2 : scan sg (S n - S k) s = s).
    { rewrite app_length, repeat_length in D. destruct (S n - S k)%nat; [reflexivity|]. destruct s as [|a [|b [|c t]]]; cbn [length] in *; try reflexivity; lia. }
    rewrite S2. cbn [nz filter]. change (0 =? 0) with true. cbn [negb]. clear. induction k as [|k IH]; [reflexivity|]. cbn. exact IH.
Qed.

Lemma scan_stripped : forall m n sg s, (length s <= m)%nat -> (length s <= n)%nat -> Forall is_char s -> stripped s (nz (scan sg n s)).
Proof.
  induction m as [|m IH]; intros n sg s Lm Ln C; [destruct s; [destruct n; constructor|cbn in Lm; lia]|].
  assert (Keep : forall c t, 0 < c < 256 -> nz (c :: t) = c :: nz t) by (intros c t H; unfold nz; cbn [filter]; destruct (Z.eqb_spec c 0); [lia|reflexivity]).
  destruct s as [|a [|b [|c t]]].
  - destruct n; constructor.
  - assert (E : scan sg n [a] = [a]) by (destruct n; reflexivity). rewrite E. inversion C; subst. rewrite Keep by assumption. apply st_keep; [right; left; cbn; lia|constructor].
  - assert (E : scan sg n [a; b] = [a; b]) by (destruct n; reflexivity). rewrite E. inversion C as [|? ? Ca C']; subst. inversion C' as [|? ? Cb _]; subst. rewrite !Keep by assumption.
    apply st_keep; [right; right; reflexivity|]. apply st_keep; [right; left; cbn; lia|constructor].
  - destruct n as [|n]; [cbn in Ln; lia|]. cbn [scan]. inversion C as [|? ? Ca C']; subst. inversion C' as [|? ? Cb C'']; subst. destruct (Z.eqb_spec a 27) as [->|Na]; [destruct (Z.eqb_spec b 91) as [->|Nb]|]; cbn [andb].
    + apply st_code; [discriminate|].
      assert (B : Forall is_byte (c :: t)) by (eapply Forall_impl; [|exact C'']; unfold is_char, is_byte; intros; lia).
      destruct (wipe_zeros sg (c :: t) B) as (k & E & L). rewrite E. change (0 :: repeat 0 k ++ after_letter (c :: t)) with (repeat 0 (S k) ++ after_letter (c :: t)).
      assert (Z0 : forall l, nz (0 :: l) = nz l) by reflexivity. rewrite Z0. cbn [length] in *. rewrite scan_zeros by lia.
      apply IH; [lia|lia|apply after_letter_bytes, C''].
    + rewrite Keep by assumption. apply st_keep; [right; left; cbn; exact Nb|]. apply IH; [cbn [length] in *; lia|cbn [length] in *; lia|exact C'].
    + rewrite Keep by assumption. apply st_keep; [left; exact Na|]. apply IH; [cbn [length] in *; lia|cbn [length] in *; lia|exact C'].
Qed.
Lemma scan_length : forall sg n s, Forall is_byte s -> length (scan sg n s) = length s.
Proof.
  assert (WB : forall sg s, Forall is_byte s -> Forall is_byte (wipe sg s)).
  { intros sg s. induction 1 as [|c s Hc Hs IH]; [constructor|]. cbn [wipe]. destruct (char_is_alpha _); constructor; try assumption; unfold is_byte; lia. }
  assert (WL : forall sg s, length (wipe sg s) = length s).
  { intros sg. induction s as [|c s IH]; [reflexivity|]. cbn [wipe]. destruct (char_is_alpha _); cbn [length]; lia. }
  intros sg. induction n as [|n IH]; intros s B; [reflexivity|]. cbn [scan]. destruct s as [|a [|b [|c t]]]; try reflexivity.
  inversion B as [|? ? Ba B']; subst. inversion B' as [|? ? Bb B'']; subst. destruct (_ && _).
  - cbn [length]. rewrite IH by (constructor; [unfold is_byte; lia|apply WB, B'']). cbn [length]. rewrite WL. reflexivity.
  - cbn [length]. rewrite IH by exact B'. reflexivity.
Qed.

(** C33, any text: without colours, what is printed is the text without its escape sequences. *)
Theorem C33_stripped : forall sg text, Forall is_char text -> stripped text (terminal_printf sg false text).
Proof.
  intros sg text C. unfold terminal_printf. rewrite emit_nz by lia. apply (scan_stripped (length text)); [lia|lia|exact C].
Qed.
(** [stripped] determines the result. *)
Theorem C33_stripped_unique : forall s t t', stripped s t -> stripped s t' -> t = t'.
Proof.
  intros s t t' H. revert t'. induction H as [|c s t K H IH|s t N H IH]; intros t' H'.
  - inversion H'. reflexivity.
  - inversion H' as [|c' s' t'' K' H''|s' t'' N' H'']; subst; [f_equal; apply IH, H''|]. cbn [hd length] in K. destruct K as [K|[K|K]]; try congruence. destruct s'; [congruence|cbn in K; lia].
  - inversion H' as [|c' s' t'' K' H''|s' t'' N' H'']; subst; [|apply IH, H'']. cbn [hd length] in K'. destruct K' as [K|[K|K]]; try congruence. destruct s; [congruence|cbn in K; lia].
Qed.

Lemma uncoloured_stripped : forall l, Forall piece_ok l -> Forall is_char (coloured l) -> stripped (coloured l) (uncoloured l).
Proof.
  induction 1 as [|p l Hp Hl IH]; intro C; [constructor|]. unfold coloured, uncoloured in *. cbn [flat_map] in *. apply Forall_app in C as [Cp Cl]. specialize (IH Cl).
  destruct p as [t|ps f]; cbn [piece_text plain_text piece_ok] in *.
  - clear Cp. induction t as [|c t IHt]; [exact IH|]. cbn [app]. apply st_keep; [left; intros ->; apply Hp; left; reflexivity|]. apply IHt. intro I. apply Hp. right. exact I.
  - cbn [app]. apply st_code; [destruct ps; discriminate|]. destruct Hp as [Hps Hf].
    assert (A : after_letter ((ps ++ [f]) ++ flat_map piece_text l) = flat_map piece_text l).
    { clear - Hps Hf. rewrite <- app_assoc. cbn [app]. induction Hps as [|c ps Hc _ IH]; cbn [app after_letter]; [rewrite Hf; reflexivity|rewrite Hc; exact IH]. }
    rewrite A. exact IH.
Qed.
(** C33, a text with colours: exactly the colour codes are removed, wherever they are. *)
Theorem C33_uncoloured : forall sg l, Forall piece_ok l -> Forall is_char (coloured l) -> terminal_printf sg false (coloured l) = uncoloured l.
Proof.
  intros sg l P C. apply (C33_stripped_unique (coloured l)); [apply C33_stripped, C|apply uncoloured_stripped; assumption].
Qed.
Theorem C33_coloured : forall sg text, terminal_printf sg true text = text.
Proof. reflexivity. Qed.
(** When colours are on. *)
Theorem C33_color_mode : forall var tty, color_mode var tty = true <-> var = Some (str "always") \/ (var <> Some (str "never") /\ tty = true).
Proof.
  intros [v|] tty; cbn [color_mode].
  - destruct (beq v (str "always")) eqn:A; [apply beq_eq in A; subst; split; auto|]. apply beq_neq in A. destruct (beq v (str "never")) eqn:N.
    + apply beq_eq in N. subst. split; [discriminate|]. intros [H|[H _]]; congruence.
    + apply beq_neq in N. split; [intros ->; right; split; [congruence|reflexivity]|]. intros [H|[_ H]]; [congruence|exact H].
  - split; [intros ->; right; split; [discriminate|reflexivity]|]. intros [H|[_ H]]; [discriminate|exact H].
Qed.

Example coloured_line : terminal_printf true false (27 :: str "[32m" ++ 27 :: str "[1minterface" ++ 27 :: str "[0m: wg0" ++ [10]) = str "interface: wg0" ++ [10].
Proof. vm_compute. reflexivity. Qed.
Example coloured_pieces : let l := [Code (str "32") 109; Code (str "1") 109; Plain (str "interface"); Code (str "0") 109; Plain (str ": wg0")] in
  Forall piece_ok l /\ Forall is_char (coloured l) /\ coloured l = 27 :: str "[32m" ++ 27 :: str "[1minterface" ++ 27 :: str "[0m: wg0".
Proof.
  split; [|split; [|reflexivity]].
  - assert (P : forall t, forallb (fun c => negb (c =? 27)) t = true -> ~ In 27 t) by (intros t H I; rewrite forallb_forall in H; specialize (H 27 I); discriminate).
    repeat (apply Forall_cons; [unfold piece_ok; first [split; [repeat constructor|reflexivity]|apply P; reflexivity]|]). apply Forall_nil.
  - vm_compute. repeat constructor; lia.
Qed.

Print Assumptions C33_stripped.
Print Assumptions C33_stripped_unique.
Print Assumptions C33_uncoloured.
Print Assumptions C33_color_mode.
