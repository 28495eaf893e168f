(** Proofs about src/config.c: edits that do not matter, key files, 'wg set' arguments. *)
From Coq Require Import String ZArith List Bool Lia.
From Verif Require Import Base Ctype Encoding EncodingSpec EncodingProofs Cstr CstrProofs Inet InetProofs Types
  NumSpec ConfigSpec Config ConfigProofs ConfigProofs2 ConfigProofs3.
Import ListNotations.
Open Scope Z_scope.

(** * Edits *)

Lemma before_app_eq : forall c a b b', (In c a \/ before c b = before c b') -> before c (a ++ b) = before c (a ++ b').
Proof.
  intros c a b b'. induction a as [|x a IH]; cbn; intros H.
  - destruct H as [[]|H]; exact H.
  - destruct (Z.eqb_spec x c); [reflexivity|]. f_equal. apply IH. destruct H as [[H|H]|H]; [congruence|left|right]; assumption.
Qed.

Lemma before_in : forall c a b, In c a -> before c (a ++ b) = before c a.
Proof.
  intros c a b H. rewrite <- (app_nil_r a) at 2. apply before_app_eq. left. exact H.
Qed.

Lemma before_notin : forall c a b, ~ In c a -> before c (a ++ b) = a ++ before c b.
Proof.
  intros c a b. induction a as [|x a IH]; cbn; intro H; [reflexivity|].
  destruct (Z.eqb_spec x c); [exfalso; apply H; auto|]. f_equal. apply IH. tauto.
Qed.

Lemma ws_cases : forall w, is_ws w = true -> w = 9 \/ w = 10 \/ w = 11 \/ w = 12 \/ w = 13 \/ w = 32.
Proof. intros w H. unfold is_ws in H. cbn [existsb] in H. rewrite !orb_true_iff, !Z.eqb_eq in H. intuition discriminate. Qed.

Lemma normal_space : forall a w b, is_ws w = true -> normal (a ++ w :: b) = normal (a ++ b).
Proof.
  intros a w b H. pose proof (ws_cases w H) as C. unfold normal.
  destruct (in_dec Z.eq_dec 0 a) as [I|N0].
  - rewrite !before_in by exact I. reflexivity.
  - rewrite !(before_notin 0) by exact N0. cbn [before]. destruct (Z.eqb_spec w 0); [lia|].
    destruct (in_dec Z.eq_dec 35 a) as [I|N].
    + rewrite !before_in by exact I. reflexivity.
    + rewrite !(before_notin 35) by exact N. cbn [before]. destruct (Z.eqb_spec w 35); [lia|].
      rewrite !filter_app. cbn [filter]. rewrite H. reflexivity.
Qed.

Lemma normal_comment : forall a c, normal (a ++ 35 :: c) = normal a.
Proof.
  intros a c. unfold normal. f_equal. destruct (in_dec Z.eq_dec 0 a) as [I|N0].
  - rewrite before_in by exact I. reflexivity.
  - rewrite before_notin by exact N0. cbn [before]. change (35 =? 0) with false. cbv iota.
    assert (E : before 0 a = a) by (rewrite <- (app_nil_r a) at 1; rewrite before_notin by exact N0; apply app_nil_r).
    rewrite E. destruct (in_dec Z.eq_dec 35 a) as [I|N].
    + apply before_in, I.
    + rewrite before_notin by exact N. cbn [before Z.eqb Pos.eqb]. rewrite app_nil_r.
      rewrite <- (app_nil_r a) at 2. rewrite before_notin by exact N. cbn. rewrite app_nil_r. reflexivity.
Qed.

(** Keywords have no NUL, '#' or white space, in any case. *)
Definition plain (c : Z) : bool := negb (c =? 0) && negb (c =? 35) && negb (is_ws c).

Lemma lower_plain : forall c, is_byte c -> plain c = plain (lower c).
Proof.
  intros c H. apply eqb_prop. pattern c. revert c H. apply byte_sweep. vm_compute. reflexivity.
Qed.

Lemma keyword_plain : forall K k, In K (headers ++ keywords) -> ci k (str K) -> Forall is_byte k -> forallb plain k = true.
Proof.
  intros K k HK C Hb.
  assert (P : forallb plain (lowers k) = true).
  { unfold ci in C. rewrite C.
    assert (G : forallb (fun K => forallb plain (lowers (str K))) (headers ++ keywords) = true) by reflexivity.
    rewrite forallb_forall in G. apply (G K HK). }
  clear C. induction Hb as [|x k Hx Hk IH]; [reflexivity|]. cbn in P |- *. apply andb_true_iff in P as [P1 P2].
  rewrite lower_plain by exact Hx. rewrite P1. apply IH, P2.
Qed.

Lemma normal_plain_app : forall k v, forallb plain k = true -> normal (k ++ v) = k ++ normal v.
Proof.
  intros k v. unfold normal. induction k as [|x k IH]; cbn [app forallb before]; intro H; [reflexivity|].
  apply andb_true_iff in H as [H1 H2]. unfold plain in H1. rewrite !andb_true_iff, !negb_true_iff in H1.
  destruct H1 as [[H0 H35] Hw]. rewrite H0. cbn [before]. rewrite H35. cbn [filter]. rewrite Hw. cbn [negb]. f_equal. apply IH, H2.
Qed.

Lemma ci_app : forall k k' w, lowers k = lowers k' -> lowers (k ++ w) = lowers (k' ++ w).
Proof. intros k k' w H. rewrite !lowers_app, H. reflexivity. Qed.

Lemma key_match_case : forall K k k' w K', In K (headers ++ keywords) -> In K' keywords -> ci k (str K) -> ci k' (str K) ->
  key_match (k ++ w) K' = key_match (k' ++ w) K'.
Proof.
  intros K k k' w K' HK HK' C C'.
  assert (T : forallb (fun K => forallb (fun K' => if String.eqb K K' then true else negb (clash K K')) keywords) (headers ++ keywords) = true)
    by reflexivity.
  rewrite forallb_forall in T. specialize (T K HK). rewrite forallb_forall in T. specialize (T K' HK').
  destruct (String.eqb_spec K K') as [->|N].
  - destruct w as [|w0 w].
    + assert (NK : forall k0, ci k0 (str K') -> key_match (k0 ++ []) K' = None).
      { intros k0 C0. unfold key_match, get_value. rewrite app_nil_r.
        rewrite (ci_length _ _ C0). rewrite Nat.leb_refl. reflexivity. }
      rewrite !NK by assumption. reflexivity.
    + rewrite (key_match_some _ k (w0 :: w) K' eq_refl C) by discriminate.
      rewrite (key_match_some _ k' (w0 :: w) K' eq_refl C') by discriminate. reflexivity.
  - apply negb_true_iff in T.
    rewrite (key_match_none _ k w K K' eq_refl C T), (key_match_none _ k' w K K' eq_refl C' T). reflexivity.
Qed.

Lemma process_line_case : forall e K k k' w c, In K (headers ++ keywords) -> ci k (str K) -> ci k' (str K) ->
  process_line e c (k ++ w) = process_line e c (k' ++ w).
Proof.
  intros e K k k' w c HK C C'. unfold process_line, process_device_line, process_peer_line.
  assert (L : lowers k = lowers k') by (unfold ci in *; congruence).
  assert (CE : forall s, ci_eq (k ++ w) s = ci_eq (k' ++ w) s) by (intro s; unfold ci_eq; rewrite (ci_app k k' w L); reflexivity).
  rewrite !CE.
  assert (KM : forall K', In K' keywords -> key_match (k ++ w) K' = key_match (k' ++ w) K')
    by (intros; eapply key_match_case; eassumption).
  rewrite !KM by (cbn; tauto). reflexivity.
Qed.

Lemma edit_line_sound : forall e l l', Forall is_byte l -> Forall is_byte l' -> edit_line l l' -> forall c,
  config_read_line e c (cstring l) = config_read_line e c (cstring l').
Proof.
  intros e l l' Hl Hl' H c. unfold config_read_line. rewrite !clean_normal by assumption.
  destruct H as [a w b W|a x|K k k' v HK C C'].
  - rewrite normal_space by exact W. reflexivity.
  - rewrite normal_comment. reflexivity.
  - apply Forall_app in Hl as [Hk _]. apply Forall_app in Hl' as [Hk' _].
    rewrite !normal_plain_app by (eapply keyword_plain; eassumption).
    assert (NE : forall k0, ci k0 (str K) -> exists c0 r, k0 = c0 :: r).
    { intros k0 C0. destruct k0 as [|c0 r]; [|eauto]. exfalso. cbn in HK. unfold ci in C0.
      repeat (destruct HK as [<-|HK]; [discriminate C0|]). exact HK. }
    pose proof (process_line_case e K k k' (normal v) c HK C C') as PC.
    destruct (NE k C) as (c0 & r & ->). destruct (NE k' C') as (c1 & r1 & ->). exact PC.
Qed.

Lemma read_lines_app : forall e a b c, read_lines e c (a ++ b) =
  match read_lines e c a with None => None | Some c' => read_lines e c' b end.
Proof.
  intros e a. induction a as [|l a IH]; intros b c; [reflexivity|]. cbn. destruct (config_read_line e c l); [apply IH|reflexivity].
Qed.

(** Byte files only; the intermediate files of a chain of edits may be arbitrary, so normalise non-bytes away. *)
Definition bytes_file (f : list (list Z)) : Prop := Forall (Forall is_byte) f.

Inductive edit_bytes : list (list Z) -> list (list Z) -> Prop :=
| eb_line : forall f g l l', edit_line l l' -> bytes_file (f ++ l :: g) -> bytes_file (f ++ l' :: g) -> edit_bytes (f ++ l :: g) (f ++ l' :: g)
| eb_insert : forall f g, bytes_file (f ++ g) -> edit_bytes (f ++ g) (f ++ [] :: g)
| eb_refl : forall f, edit_bytes f f
| eb_sym : forall f g, edit_bytes f g -> edit_bytes g f
| eb_trans : forall f g h, edit_bytes f g -> edit_bytes g h -> edit_bytes f h.

(** Chop every entry to a byte. Edits survive it. *)
Definition chop (c : Z) : Z := if is_byteb c then c else 1.
Definition chops (l : list Z) : list Z := map chop l.

Lemma is_byteb_iff : forall c, is_byteb c = true <-> is_byte c.
Proof. intro c. unfold is_byteb, is_byte. rewrite andb_true_iff, Z.leb_le, Z.ltb_lt. tauto. Qed.

Lemma chop_byte : forall c, is_byte (chop c).
Proof. intro c. unfold chop. destruct (is_byteb c) eqn:E; [apply is_byteb_iff, E|unfold is_byte; lia]. Qed.

Lemma chops_bytes : forall l, Forall is_byte (chops l).
Proof. intro l. apply Forall_forall. intros x Hx. apply in_map_iff in Hx as (y & <- & _). apply chop_byte. Qed.

Lemma chops_id : forall l, Forall is_byte l -> chops l = l.
Proof.
  intros l H. induction H as [|x l Hx Hl IH]; [reflexivity|]. change (chops (x :: l)) with (chop x :: chops l). rewrite IH. unfold chop.
  apply is_byteb_iff in Hx. rewrite Hx. reflexivity.
Qed.

Lemma lower_byte : forall c, is_byte (lower c) -> is_byte c.
Proof.
  intros c. unfold lower, is_byte. destruct (Z.leb_spec 65 c), (Z.leb_spec c 90); cbn [andb]; lia.
Qed.

Lemma ci_bytes : forall k K, ci k (str K) -> Forall is_byte (str K) -> Forall is_byte k.
Proof.
  intros k K C H.
  assert (G : Forall is_byte (lowers k)).
  { unfold ci in C. rewrite C. apply Forall_forall. intros x Hx. apply in_map_iff in Hx as (y & <- & Hy).
    rewrite Forall_forall in H. specialize (H y Hy). unfold is_byte, lower in *.
    destruct (Z.leb_spec 65 y), (Z.leb_spec y 90); cbn [andb]; lia. }
  clear C. induction k as [|x k IH]; [constructor|]. inversion_clear G. constructor; [apply lower_byte; assumption|auto].
Qed.

Lemma str_bytes : forall K, Forall is_byte (str K).
Proof.
  intro K. unfold str. apply Forall_forall. intros x Hx. apply in_map_iff in Hx as (y & <- & _).
  pose proof (Ascii.N_ascii_bounded y). unfold is_byte. lia.
Qed.

Lemma edit_line_chop : forall l l', edit_line l l' -> edit_line (chops l) (chops l').
Proof.
  intros l l' H. destruct H as [a w b W|a x|K k k' v HK C C']; unfold chops; rewrite !map_app.
  - cbn [map]. assert (E : chop w = w).
    { pose proof (ws_cases w W). unfold chop. assert (B : is_byteb w = true) by (apply is_byteb_iff; unfold is_byte; lia). rewrite B. reflexivity. }
    rewrite E. apply ed_space, W.
  - cbn [map]. apply ed_comment.
  - pose proof (chops_id k (ci_bytes k K C (str_bytes K))) as E1. pose proof (chops_id k' (ci_bytes k' K C' (str_bytes K))) as E2.
    unfold chops in E1, E2. rewrite E1, E2. eapply ed_case; eassumption.
Qed.

Lemma edit_file_chop : forall f g, edit_file f g -> edit_bytes (map chops f) (map chops g).
Proof.
  assert (B : forall f, bytes_file (map chops f)).
  { intro f. apply Forall_forall. intros x Hx. apply in_map_iff in Hx as (y & <- & _). apply chops_bytes. }
  induction 1 as [f g l l' H|f g|f|f g H IH|f g h H1 IH1 H2 IH2].
  - rewrite !map_app. cbn [map]. apply eb_line; [apply edit_line_chop, H| |].
    + pose proof (B (f ++ l :: g)) as P. rewrite map_app in P. exact P.
    + pose proof (B (f ++ l' :: g)) as P. rewrite map_app in P. exact P.
  - rewrite !map_app. cbn [map]. apply eb_insert. pose proof (B (f ++ g)) as P. rewrite map_app in P. exact P.
  - apply eb_refl.
  - apply eb_sym, IH.
  - eapply eb_trans; eassumption.
Qed.

Lemma edit_bytes_sound : forall e f g, edit_bytes f g -> forall c, read_lines e c (map cstring f) = read_lines e c (map cstring g).
Proof.
  intros e f g H. induction H as [f g l l' H Hb Hb'|f g Hb|f|f g H IH|f g h H1 IH1 H2 IH2]; intro c.
  - rewrite !map_app, !read_lines_app. destruct (read_lines e c (map cstring f)) as [c'|]; [|reflexivity].
    apply Forall_app in Hb as [_ Hb]. inversion_clear Hb. apply Forall_app in Hb' as [_ Hb']. inversion_clear Hb'.
    cbn [map read_lines]. rewrite (edit_line_sound e l l') by assumption. reflexivity.
  - rewrite !map_app, !read_lines_app. destruct (read_lines e c (map cstring f)) as [c'|]; reflexivity.
  - reflexivity.
  - symmetry. apply IH.
  - rewrite IH1. apply IH2.
Qed.

Lemma edit_file_sound : forall e append f g, bytes_file f -> bytes_file g -> edit_file f g ->
  read_config e append f = read_config e append g.
Proof.
  intros e append f g Hf Hg H. apply edit_file_chop in H.
  assert (E : forall f, bytes_file f -> map chops f = f).
  { intros f0 H0. induction H0 as [|l f0 Hl H0 IH]; [reflexivity|]. cbn [map]. rewrite chops_id by exact Hl. rewrite IH. reflexivity. }
  rewrite !E in H by assumption. unfold read_config. rewrite (edit_bytes_sound e f g H). reflexivity.
Qed.

(** * Key files *)

Lemma forallb_space_ws : forall l, Forall is_byte l -> forallb char_is_space l = true <-> Forall (fun c => is_ws c = true) l.
Proof.
  intros l H. induction H as [|x l Hx Hl IH]; cbn; [split; [constructor|reflexivity]|].
  pose proof (space_is_ws false x Hx) as S. unfold char_val in S. cbn [andb] in S. rewrite S, andb_true_iff, IH.
  split; [intros [A B]; constructor; assumption|intro F; inversion_clear F; auto].
Qed.

Lemma key_value_length : forall t k, key_value t k -> length t = 44%nat.
Proof. intros t k [Hk ->]. apply rfc4648_length_key, Hk. Qed.

Definition b64_text_char (c : Z) : Prop := In c b64_alphabet \/ c = 61.

Lemma b64_char_In : forall n, 0 <= n < 64 -> b64_text_char (b64_char n).
Proof. intros n Hn. left. unfold b64_char. apply nth_In. change (length b64_alphabet) with 64%nat. lia. Qed.

Lemma rfc4648_chars : forall n l, (length l < n)%nat -> Forall is_byte l -> Forall b64_text_char (rfc4648 l).
Proof.
  induction n as [|n IH]; intros l Hn H; [lia|].
  destruct l as [|a [|b [|c l]]]; cbn [rfc4648].
  - constructor.
  - inversion_clear H as [|? ? Ha _]. unfold is_byte in *.
    constructor; [apply b64_char_In; Z.to_euclidean_division_equations; lia|].
    constructor; [apply b64_char_In; Z.to_euclidean_division_equations; lia|].
    constructor; [right; reflexivity|]. constructor; [right; reflexivity|]. constructor.
  - inversion_clear H as [|? ? Ha H1]. inversion_clear H1 as [|? ? Hb' _]. unfold is_byte in *.
    constructor; [apply b64_char_In; Z.to_euclidean_division_equations; lia|].
    constructor; [apply b64_char_In; Z.to_euclidean_division_equations; lia|].
    constructor; [apply b64_char_In; Z.to_euclidean_division_equations; lia|].
    constructor; [right; reflexivity|]. constructor.
  - inversion_clear H as [|? ? Ha H1]. inversion_clear H1 as [|? ? Hb' H2]. inversion_clear H2 as [|? ? Hc H3]. unfold is_byte in *.
    constructor; [apply b64_char_In; Z.to_euclidean_division_equations; lia|].
    constructor; [apply b64_char_In; Z.to_euclidean_division_equations; lia|].
    constructor; [apply b64_char_In; Z.to_euclidean_division_equations; lia|].
    constructor; [apply b64_char_In; Z.to_euclidean_division_equations; lia|].
    apply IH; [simpl in Hn; lia|exact H3].
Qed.

Lemma key_value_chars : forall t k, key_value t k -> Forall b64_text_char t.
Proof. intros t k [[L B] ->]. eapply rfc4648_chars; [apply Nat.lt_succ_diag_r|exact B]. Qed.

Lemma b64_text_char_plain : forall c, b64_text_char c -> is_byte c /\ plain c = true.
Proof.
  intros c H.
  assert (G : forallb (fun c => is_byteb c && plain c) (61 :: b64_alphabet) = true) by reflexivity.
  rewrite forallb_forall in G. specialize (G c). rewrite andb_true_iff, is_byteb_iff in G. apply G.
  destruct H as [H| ->]; [right; exact H|left; reflexivity].
Qed.

Lemma cstring_before : forall l, cstring l = before 0 l.
Proof. intro l. apply cut_before. Qed.

Lemma before_id : forall c l, ~ In c l -> before c l = l.
Proof. intros c l H. rewrite <- (app_nil_r l) at 1. rewrite before_notin by exact H. cbn. apply app_nil_r. Qed.

Lemma before_length : forall c l, (length (before c l) <= length l)%nat /\ (length (before c l) = length l -> before c l = l).
Proof.
  intros c l. induction l as [|x l [IH1 IH2]]; cbn; [split; [lia|reflexivity]|].
  destruct (x =? c); cbn; split; try lia. intro H. f_equal. apply IH2. lia.
Qed.

Lemma parse_keyfile_iff : forall e path k, (forall c s r, e_file e path = FFile c s r -> Forall is_byte c) ->
  parse_keyfile e path = Some k <->
  exists contents seekable, e_file e path = FFile contents seekable false /\ keyfile_value contents seekable k.
Proof.
  intros e path k Hb. unfold parse_keyfile. destruct (e_file e path) as [|contents seekable err] eqn:F.
  { split; [discriminate|]. intros (c & s & E & _). discriminate E. }
  specialize (Hb _ _ _ eq_refl). split.
  - intro H. exists contents, seekable. destruct (Nat.ltb_spec (length contents) 44) as [L|L].
    + destruct err; [discriminate|]. cbn [negb andb] in H. split; [reflexivity|].
      destruct contents as [|c contents]; [|discriminate]. destruct seekable; [|discriminate].
      cbn in H. injection H as <-. left. auto.
    + destruct (forallb char_is_space (skipn 44 contents)) eqn:W; [|discriminate]. cbn [negb] in H.
      destruct err; [discriminate|]. split; [reflexivity|]. right.
      rewrite <- (firstn_skipn 44 contents) in Hb. apply Forall_app in Hb as [Hb1 Hb2].
      exists (firstn 44 contents), (skipn 44 contents). split; [symmetry; apply firstn_skipn|].
      rewrite cstring_before in H. apply parse_key_iff in H; [|apply before_incl, Hb1].
      pose proof (key_value_length _ _ H) as KL.
      assert (E : before 0 (firstn 44 contents) = firstn 44 contents).
      { apply before_length. rewrite KL, firstn_length. lia. }
      rewrite E in H. split; [exact H|]. apply forallb_space_ws; assumption.
  - intros (c & s & E & V). injection E as <- <- ->. destruct V as [(-> & -> & ->)|(t & ws & -> & V & W)].
    + reflexivity.
    + pose proof (key_value_length _ _ V) as KL. rewrite app_length.
      destruct (Nat.ltb_spec (length t + length ws) 44); [lia|].
      rewrite <- KL at 1. rewrite skipn_app, Nat.sub_diag, skipn_all. cbn [app skipn].
      apply Forall_app in Hb as [Hb1 Hb2]. apply forallb_space_ws in W; [|exact Hb2]. rewrite W. cbn [negb].
      rewrite <- KL, firstn_app, Nat.sub_diag, firstn_all. cbn [firstn]. rewrite app_nil_r.
      rewrite cstring_before, before_id.
      * apply parse_key_iff; assumption.
      * intro I. pose proof (key_value_chars _ _ V) as C. rewrite Forall_forall in C. apply C in I.
        apply b64_text_char_plain in I as [_ I]. discriminate.
Qed.

(** * 'wg set' *)

Section Cmd.
Variable e : env.
Hypothesis ulmax : 0xffffffff < e_ulmax e.
Hypothesis files : forall path c s r, e_file e path = FFile c s r -> Forall is_byte c.

Definition keyfile_of (path k : list Z) : Prop :=
  exists contents seekable, e_file e path = FFile contents seekable false /\ keyfile_value contents seekable k.

Lemma strip_ws : forall v, Forall is_byte v -> strip_spaces e v = filter (fun c => negb (is_ws c)) v.
Proof.
  intros v H. apply filter_ext_Forall. eapply Forall_impl; [|exact H]. intros c Hc. cbv beta.
  rewrite space_is_ws by exact Hc. reflexivity.
Qed.

Lemma strip_bytes : forall v, Forall is_byte v -> Forall is_byte (filter (fun c => negb (is_ws c)) v).
Proof.
  intros v H. apply Forall_forall. intros x Hx. apply filter_In in Hx as [Hx _]. rewrite Forall_forall in H. auto.
Qed.

Notation dopt := (dev_opt (e_port e) keyfile_of).
Notation popt := (peer_opt (e_resolve e) keyfile_of).

Definition do_act (a : peer_act) (p : peer) : peer :=
  match a with PRemove => set_remove p | PSet s => put_peer s p end.
Definition do_acts (acts : list peer_act) (p : peer) : peer := fold_left (fun p a => do_act a p) acts p.
Definition do_devs (ds : list dev_setting) (d : device) : device := fold_left (fun d s => put_dev s d) ds d.

Lemma beq_sym : forall a b, beq a b = beq b a.
Proof. intros a b. destruct (beq a b) eqn:E; symmetry; [apply beq_eq in E; subst; apply beq_refl|]. apply beq_neq in E. apply beq_neq. congruence. Qed.

(** ** Running options *)

Lemma run_dev_opt : forall args s rest d, Forall (Forall is_byte) args -> dopt args s ->
  read_cmd e (args ++ rest) d None = read_cmd e rest (put_dev s d) None.
Proof.
  intros args s rest d Hb H. destruct H as [v p NE P|v m P|path k P];
    repeat match goal with H : Forall _ (_ :: _) |- _ => inversion_clear H end; cbn [app].
  - cbn [read_cmd]. change (is_arg (str "listen-port") "listen-port") with true. cbv iota.
    unfold parse_port. destruct v; [congruence|]. rewrite P. reflexivity.
  - cbn [read_cmd]. change (is_arg (str "fwmark") "listen-port") with false. change (is_arg (str "fwmark") "fwmark") with true. cbv iota.
    apply (parse_fwmark_iff e) in P; [|assumption|assumption]. rewrite P. reflexivity.
  - cbn [read_cmd]. change (is_arg (str "private-key") "listen-port") with false. change (is_arg (str "private-key") "fwmark") with false.
    change (is_arg (str "private-key") "private-key") with true. cbv iota.
    apply parse_keyfile_iff in P; [|apply files]. rewrite P. reflexivity.
Qed.

Lemma run_peer_opt : forall args a rest d p, Forall (Forall is_byte) args -> popt args a ->
  read_cmd e (args ++ rest) d (Some p) = read_cmd e rest d (Some (do_act a p)).
Proof.
  intros args a rest d p Hb H. destruct H as [|v h q x P R|v l P|v n P|path k P];
    repeat match goal with H : Forall _ (_ :: _) |- _ => inversion_clear H end; cbn [app].
  - destruct rest; reflexivity.
  - change (read_cmd e (str "endpoint" :: v :: rest) d (Some p)) with
      (match parse_endpoint e v with Some x => read_cmd e rest d (Some (set_endpoint x p)) | None => None end).
    assert (G : parse_endpoint e v = Some x) by (apply parse_endpoint_iff; eauto). rewrite G. reflexivity.
  - change (read_cmd e (str "allowed-ips" :: v :: rest) d (Some p)) with
      (match parse_allowedips e p (strip_spaces e v) with Some p' => read_cmd e rest d (Some p') | None => None end).
    rewrite strip_ws by assumption.
    assert (G : parse_allowedips e p (filter (fun c => negb (is_ws c)) v) = Some (do_act (PSet (SAips l)) p)).
    { apply parse_allowedips_iff; [apply strip_bytes; assumption|lia|]. exists l. split; [exact P|reflexivity]. }
    rewrite G. reflexivity.
  - change (read_cmd e (str "persistent-keepalive" :: v :: rest) d (Some p)) with
      (match parse_keepalive e v with Some x => read_cmd e rest d (Some (set_ka x p)) | None => None end).
    apply (parse_keepalive_iff e) in P; [|assumption|lia]. rewrite P. reflexivity.
  - change (read_cmd e (str "preshared-key" :: path :: rest) d (Some p)) with
      (match parse_keyfile e path with Some x => read_cmd e rest d (Some (set_psk x p)) | None => None end).
    apply parse_keyfile_iff in P; [|apply files]. rewrite P. reflexivity.
Qed.

Lemma run_peer : forall v k rest d cur, Forall is_byte v -> key_value v k ->
  read_cmd e (str "peer" :: v :: rest) d cur = read_cmd e rest (push_peer d cur) (Some (set_pub k peer0)).
Proof.
  intros v k rest d cur Hb P. apply (parse_key_iff e) in P; [|exact Hb].
  destruct cur as [p|].
  - change (read_cmd e (str "peer" :: v :: rest) d (Some p)) with
      (match parse_key e v with Some k => read_cmd e rest (push_peer d (Some p)) (Some (set_pub k peer0)) | None => None end).
    rewrite P. reflexivity.
  - change (read_cmd e (str "peer" :: v :: rest) d None) with
      (match parse_key e v with Some k => read_cmd e rest d (Some (set_pub k peer0)) | None => None end).
    rewrite P. reflexivity.
Qed.

Lemma run_dev_opts : forall args ds, Forall2 dopt args ds -> forall rest d, Forall (Forall is_byte) (concat args) ->
  read_cmd e (concat args ++ rest) d None = read_cmd e rest (do_devs ds d) None.
Proof.
  induction 1 as [|a s args ds H HF IH]; intros rest d Hb; [reflexivity|].
  cbn [concat] in *. apply Forall_app in Hb as [Hb1 Hb2]. rewrite <- app_assoc.
  rewrite (run_dev_opt a s) by assumption. rewrite IH by assumption. reflexivity.
Qed.

Lemma run_peer_opts : forall args acts, Forall2 popt args acts -> forall rest d p, Forall (Forall is_byte) (concat args) ->
  read_cmd e (concat args ++ rest) d (Some p) = read_cmd e rest d (Some (do_acts acts p)).
Proof.
  induction 1 as [|a s args acts H HF IH]; intros rest d p Hb; [reflexivity|].
  cbn [concat] in *. apply Forall_app in Hb as [Hb1 Hb2]. rewrite <- app_assoc.
  rewrite (run_peer_opt a s) by assumption. rewrite IH by assumption. reflexivity.
Qed.

Definition group_peer (g : list Z * list peer_act) : peer := do_acts (snd g) (set_pub (fst g) peer0).

Lemma push_push : forall d cur p, push_peer (push_peer d cur) (Some p) =
  set_peers (d_peers d ++ match cur with Some q => [q] | None => [] end ++ [p]) d.
Proof. intros d [q|] p; cbn; [rewrite <- app_assoc; reflexivity|reflexivity]. Qed.

Definition push_all (d : device) (l : list peer) : device := set_peers (d_peers d ++ l) d.

Lemma push_all_nil : forall d, push_all d [] = d.
Proof. intro d. unfold push_all. rewrite app_nil_r. destruct d; reflexivity. Qed.

Lemma push_all_cons : forall d cur l, push_all (push_peer d cur) l = push_all d (match cur with Some q => [q] | None => [] end ++ l).
Proof. intros d [q|] l; unfold push_all; cbn; [rewrite <- app_assoc; reflexivity|reflexivity]. Qed.

Lemma run_groups : forall pargs gs, Forall2 (peer_group (e_resolve e) keyfile_of) pargs gs -> forall d cur,
  Forall (Forall is_byte) (concat pargs) ->
  read_cmd e (concat pargs) d cur = Some (push_all (push_peer d cur) (map group_peer gs)).
Proof.
  induction 1 as [|a g pargs gs H HF IH]; intros d cur Hb.
  - cbn. rewrite push_all_nil. reflexivity.
  - cbn [concat] in *. apply Forall_app in Hb as [Hb1 Hb2]. destruct H as [v k args acts K P].
    inversion_clear Hb1 as [|? ? _ Hb3]. inversion_clear Hb3 as [|? ? Hv Ha]. cbn [app].
    rewrite (run_peer v k) by assumption. rewrite (run_peer_opts args acts) by assumption.
    rewrite IH by assumption. rewrite push_all_cons. reflexivity.
Qed.

(** ** Reading back an accepted argument vector *)

Lemma is_arg_eq : forall a s, is_arg a s = true -> a = str s.
Proof. intros a s H. apply beq_eq, H. Qed.

Lemma cmd_inv : forall n argv d cur r, (length argv < n)%nat -> Forall (Forall is_byte) argv -> read_cmd e argv d cur = Some r ->
  exists args pargs gs, argv = concat args ++ concat pargs /\ Forall2 (peer_group (e_resolve e) keyfile_of) pargs gs /\
    match cur with
    | None => exists ds, Forall2 dopt args ds /\ r = push_all (do_devs ds d) (map group_peer gs)
    | Some p => exists acts, Forall2 popt args acts /\ r = push_all (push_peer d (Some (do_acts acts p))) (map group_peer gs)
    end.
Proof.
  induction n as [|n IH]; intros argv d cur r Hn Hb H; [lia|].
  destruct argv as [|a rest].
  { exists [], [], []. split; [reflexivity|]. split; [constructor|]. cbn in H. injection H as <-.
    destruct cur as [p|]; exists []; (split; [constructor|]); cbn; rewrite push_all_nil; reflexivity. }
  inversion_clear Hb as [|? ? Ha Hrest].
  (* what to do with a device option / peer option / peer header *)
  assert (REM : forall p, cur = Some p -> a = str "remove" -> read_cmd e rest d (Some (set_remove p)) = Some r ->
    exists args pargs gs, a :: rest = concat args ++ concat pargs /\ Forall2 (peer_group (e_resolve e) keyfile_of) pargs gs /\
      exists acts, Forall2 popt args acts /\ r = push_all (push_peer d (Some (do_acts acts p))) (map group_peer gs)).
  { intros p -> -> R. apply IH in R as (args & pargs & gs & E & G & acts & A & ->); [|simpl in Hn; lia|exact Hrest].
    exists ([str "remove"] :: args), pargs, gs. split; [cbn [concat app]; rewrite E; reflexivity|]. split; [exact G|].
    exists (PRemove :: acts). split; [constructor; [constructor|exact A]|reflexivity]. }
  destruct rest as [|v rest'].
  { cbn [read_cmd] in H. destruct cur as [p|]; [|discriminate].
    destruct (is_arg a "remove") eqn:I; [|discriminate]. apply is_arg_eq in I.
    apply (REM p eq_refl I). exact H. }
  assert (Hv : Forall is_byte v) by (inversion_clear Hrest; assumption).
  assert (Hrest' : Forall (Forall is_byte) rest') by (inversion_clear Hrest; assumption).
  assert (POPT : forall p act, cur = Some p -> popt [a; v] act -> read_cmd e rest' d (Some (do_act act p)) = Some r ->
    exists args pargs gs, a :: v :: rest' = concat args ++ concat pargs /\ Forall2 (peer_group (e_resolve e) keyfile_of) pargs gs /\
      exists acts, Forall2 popt args acts /\ r = push_all (push_peer d (Some (do_acts acts p))) (map group_peer gs)).
  { intros p act -> PO R. apply IH in R as (args & pargs & gs & E & G & acts & A & ->); [|simpl in Hn; lia|exact Hrest'].
    exists ([a; v] :: args), pargs, gs. split; [cbn [concat app]; rewrite E; reflexivity|]. split; [exact G|].
    exists (act :: acts). split; [constructor; [exact PO|exact A]|reflexivity]. }
  assert (PEER : forall k, a = str "peer" -> key_value v k -> read_cmd e rest' (push_peer d cur) (Some (set_pub k peer0)) = Some r ->
    exists pargs gs, a :: v :: rest' = concat pargs /\ Forall2 (peer_group (e_resolve e) keyfile_of) pargs gs /\
      r = push_all (push_peer d cur) (map group_peer gs)).
  { intros k -> K R. apply IH in R as (args & pargs & gs & E & G & acts & A & ->); [|simpl in Hn; lia|exact Hrest'].
    exists ((str "peer" :: v :: concat args) :: pargs), ((k, acts) :: gs).
    split; [cbn [concat app]; rewrite E; reflexivity|]. split; [constructor; [constructor; assumption|exact G]|].
    rewrite push_all_cons. reflexivity. }
  cbn [read_cmd] in H. destruct cur as [p|].
  - destruct (is_arg a "peer") eqn:I1.
    { apply is_arg_eq in I1. destruct (parse_key e v) as [k|] eqn:P; [|discriminate]. apply parse_key_iff in P; [|exact Hv].
      destruct (PEER k I1 P H) as (pargs & gs & E & G & ->). exists [], pargs, gs. split; [exact E|]. split; [exact G|].
      exists []. split; [constructor|reflexivity]. }
    destruct (is_arg a "remove") eqn:I2.
    { apply is_arg_eq in I2. apply (REM p eq_refl I2). exact H. }
    destruct (is_arg a "endpoint") eqn:I3.
    { apply is_arg_eq in I3. destruct (parse_endpoint e v) as [x|] eqn:P; [|discriminate].
      apply parse_endpoint_iff in P as (h & q & P & R). apply (POPT p (PSet (SEndpoint x)) eq_refl); [|exact H].
      rewrite I3. econstructor; eassumption. }
    destruct (is_arg a "allowed-ips") eqn:I4.
    { apply is_arg_eq in I4. destruct (parse_allowedips e p (strip_spaces e v)) as [x|] eqn:P; [|discriminate].
      rewrite strip_ws in P by exact Hv. apply parse_allowedips_iff in P as (l & P & ->); [|apply strip_bytes, Hv|lia].
      apply (POPT p (PSet (SAips l)) eq_refl); [|exact H]. rewrite I4. constructor. exact P. }
    destruct (is_arg a "persistent-keepalive") eqn:I5.
    { apply is_arg_eq in I5. destruct (parse_keepalive e v) as [x|] eqn:P; [|discriminate].
      apply parse_keepalive_iff in P; [|exact Hv|lia]. apply (POPT p (PSet (SKa x)) eq_refl); [|exact H].
      rewrite I5. constructor. exact P. }
    destruct (is_arg a "preshared-key") eqn:I6; [|discriminate].
    { apply is_arg_eq in I6. destruct (parse_keyfile e v) as [x|] eqn:P; [|discriminate].
      apply parse_keyfile_iff in P; [|apply files]. apply (POPT p (PSet (SPsk x)) eq_refl); [|exact H].
      rewrite I6. constructor. exact P. }
  - assert (DOPT : forall s, dopt [a; v] s -> read_cmd e rest' (put_dev s d) None = Some r ->
      exists args pargs gs, a :: v :: rest' = concat args ++ concat pargs /\ Forall2 (peer_group (e_resolve e) keyfile_of) pargs gs /\
        exists ds, Forall2 dopt args ds /\ r = push_all (do_devs ds d) (map group_peer gs)).
    { intros s DO R. apply IH in R as (args & pargs & gs & E & G & ds & A & ->); [|simpl in Hn; lia|exact Hrest'].
      exists ([a; v] :: args), pargs, gs. split; [cbn [concat app]; rewrite E; reflexivity|]. split; [exact G|].
      exists (s :: ds). split; [constructor; [exact DO|exact A]|reflexivity]. }
    destruct (is_arg a "listen-port") eqn:I1.
    { apply is_arg_eq in I1. destruct (parse_port e v) as [x|] eqn:P; [|discriminate].
      apply (DOPT (SPort x)); [|exact H]. rewrite I1. unfold parse_port in P. destruct v; [discriminate|]. constructor; [discriminate|exact P]. }
    destruct (is_arg a "fwmark") eqn:I2.
    { apply is_arg_eq in I2. destruct (parse_fwmark e v) as [x|] eqn:P; [|discriminate]. apply parse_fwmark_iff in P; [|exact Hv|exact ulmax].
      apply (DOPT (SFwmark x)); [|exact H]. rewrite I2. constructor. exact P. }
    destruct (is_arg a "private-key") eqn:I3.
    { apply is_arg_eq in I3. destruct (parse_keyfile e v) as [x|] eqn:P; [|discriminate]. apply parse_keyfile_iff in P; [|apply files].
      apply (DOPT (SPriv x)); [|exact H]. rewrite I3. constructor. exact P. }
    destruct (is_arg a "peer") eqn:I4; [|discriminate].
    { apply is_arg_eq in I4. destruct (parse_key e v) as [k|] eqn:P; [|discriminate]. apply parse_key_iff in P; [|exact Hv].
      destruct (PEER k I4 P H) as (pargs & gs & E & G & ->). exists [], pargs, gs. split; [exact E|]. split; [exact G|].
      exists []. split; [constructor|reflexivity]. }
Qed.

(** ** The resulting device *)

Lemma do_devs_spec : forall ds d, do_devs ds d = upd_dev (map ItDev ds) d.
Proof.
  induction ds as [|s ds IH]; intro d.
  - unfold upd_dev. cbn. rewrite !orb_false_r. destruct d; reflexivity.
  - change (do_devs (s :: ds) d) with (do_devs ds (put_dev s d)). rewrite IH.
    destruct s; unfold upd_dev; cbn [map put_dev set_port set_fwmark set_priv privs ports fwmarks flat_map app some
        d_name d_ifindex d_replace_peers d_has_priv d_has_pub d_has_port d_has_fwmark d_pub d_priv d_fwmark d_port d_peers];
        rewrite ?orb_true_r, ?last_cons_dflt; reflexivity.
Qed.

Lemma do_acts_spec : forall acts p, let ss := sets acts in
  do_acts acts p =
  mk_peer (p_remove p || removes acts) (p_replace_aips p || lists_aips ss) (p_has_pub p || some (pubs ss)) (p_has_psk p || some (psks ss)) (p_has_ka p || some (kas ss))
    (last (pubs ss) (p_pub p)) (last (psks ss) (p_psk p)) (last (eps ss) (p_endpoint p))
    (p_hs_sec p) (p_hs_nsec p) (p_rx p) (p_tx p) (last (kas ss) (p_ka p)) (p_aips p ++ aips ss).
Proof.
  induction acts as [|a acts IH]; intros p ss; subst ss.
  - cbn. rewrite !orb_false_r, app_nil_r. destruct p; reflexivity.
  - change (do_acts (a :: acts) p) with (do_acts acts (do_act a p)). rewrite IH. cbv zeta.
    destruct a as [|s]; [|destruct s];
      cbn [do_act put_peer set_remove p_remove p_replace_aips p_has_pub p_has_psk p_has_ka p_pub p_psk p_endpoint p_hs_sec p_hs_nsec p_rx p_tx p_ka p_aips
      set_endpoint set_pub set_aips set_ka set_psk set_replace_aips sets removes lists_aips existsb pubs psks kas eps aips flat_map app orb some];
      rewrite ?orb_true_r, ?last_cons_dflt, ?app_assoc; reflexivity.
Qed.

Lemma popts_no_pub : forall args acts, Forall2 popt args acts -> pubs (sets acts) = [].
Proof.
  induction 1 as [|a s args acts H HF IH]; [reflexivity|]. destruct H; cbn; exact IH.
Qed.

Lemma group_peer_spec : forall args g, peer_group (e_resolve e) keyfile_of args g -> group_peer g = cmd_peer g.
Proof.
  intros args g H. destruct H as [v k oargs acts K P]. unfold group_peer, cmd_peer. cbn [fst snd].
  rewrite do_acts_spec. cbv zeta. rewrite (popts_no_pub _ _ P). reflexivity.
Qed.

Lemma config_read_cmd_iff : forall argv d, Forall (Forall is_byte) argv ->
  config_read_cmd e argv = Some d <-> cmd_means (e_port e) (e_resolve e) keyfile_of argv d.
Proof.
  assert (DEV : forall ds pargs gs, Forall2 (peer_group (e_resolve e) keyfile_of) pargs gs ->
    push_all (do_devs ds device0) (map group_peer gs) = cmd_device ds gs).
  { intros ds pargs gs G. rewrite do_devs_spec. unfold push_all, upd_dev, cmd_device. cbn -[zero_key last].
    unfold set_peers. cbn -[zero_key last]. f_equal.
    induction G as [|a g pargs gs H HF IH]; [reflexivity|]. cbn [map]. rewrite (group_peer_spec a g H), IH. reflexivity. }
  intros argv d Hb. unfold config_read_cmd, cmd_means. split.
  - intro H. apply (cmd_inv (S (length argv))) in H as (args & pargs & gs & E & G & ds & A & ->); [|lia|exact Hb].
    exists args, ds, pargs, gs. split; [exact E|]. split; [exact A|]. split; [exact G|]. eapply DEV, G.
  - intros (dargs & ds & pargs & gs & -> & D & G & ->). apply Forall_app in Hb as [Hb1 Hb2].
    rewrite (run_dev_opts dargs ds) by assumption. rewrite (run_groups pargs gs) by assumption. cbn [push_peer].
    f_equal. eapply DEV, G.
Qed.
End Cmd.
