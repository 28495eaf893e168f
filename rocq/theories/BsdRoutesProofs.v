(** Proofs about the host routes to the endpoints: text. *)
From Coq Require Import String ZArith List Bool Lia.
From Verif Require Import Base Cstr CstrProofs Bash Quick QuickSpec QuickRun QuickReloadSpec QuickProofs PropQuick PropQuickFirewall PropQuickMtu PropQuickReload Sh BsdRoutes BsdRoutesSpec.
Import ListNotations.
Open Scope Z_scope.

(** ** Columns *)
Lemma blankb_iff : forall c, blankb c = true <-> blank c.
Proof. intro c. unfold blankb, blank. rewrite orb_true_iff, !Z.eqb_eq. tauto. Qed.
Lemma blankb_false : forall c, blankb c = false <-> ~ blank c.
Proof. intro c. rewrite <- blankb_iff. destruct (blankb c); split; congruence. Qed.
Lemma blank_ifs : forall c, blank c -> ifsb c = true.
Proof. intros c H. unfold ifsb. apply blankb_iff in H. rewrite H. reflexivity. Qed.
Lemma blanks_ifs : forall a, Forall blank a -> Forall (fun c => ifsb c = true) a.
Proof. intro a. apply Forall_impl. exact blank_ifs. Qed.
Lemma word_ifs : forall w, ~ In 10 w -> Forall (fun c => ~ blank c) w -> Forall (fun c => ifsb c = false) w.
Proof.
  intros w N H. rewrite Forall_forall in *. intros c Hc. unfold ifsb. rewrite (proj2 (blankb_false c) (H c Hc)). cbn [orb]. apply Z.eqb_neq. intros ->. contradiction.
Qed.
Lemma columns_words : forall l ws, ~ In 10 l -> columns l ws -> words l = ws.
Proof.
  intros l ws N H. unfold words. induction H as [s Hs|a w b ws Ha Hn Hw Hb H IH].
  - rewrite <- (app_nil_r s). rewrite words_sep by (apply blanks_ifs, Hs). reflexivity.
  - rewrite !in_app_iff in N. rewrite words_sep by (apply blanks_ifs, Ha). rewrite words_word by (apply word_ifs; tauto). rewrite app_nil_r.
    assert (Hr : rev w <> []) by (intro E; apply Hn; rewrite <- (rev_involutive w), E; reflexivity).
    assert (IH' : words_go [] b = ws) by (apply IH; tauto). clear IH.
    destruct Hb as [->|(c & b' & -> & Hc)].
    + cbn [words_go] in *. destruct (rev w) eqn:E; [contradiction|]. rewrite <- E, rev_involutive. congruence.
    + apply blank_ifs in Hc. cbn [words_go] in *. rewrite Hc in *.
      destruct (rev w) eqn:E; [contradiction|]. rewrite <- E, rev_involutive. cbn [app] in *. f_equal. exact IH'.
Qed.
Lemma word_split : forall l, exists w b, l = w ++ b /\ Forall (fun c => ~ blank c) w /\ (b = [] \/ exists c b', b = c :: b' /\ blank c).
Proof.
  induction l as [|c l (w & b & E & Hw & Hb)]; [exists [], []; split; [reflexivity|split; [constructor|auto]]|].
  destruct (blankb c) eqn:Hc.
  - exists [], (c :: l). split; [reflexivity|]. split; [constructor|]. right. exists c, l. split; [reflexivity|]. apply blankb_iff, Hc.
  - exists (c :: w), b. split; [rewrite E; reflexivity|]. split; [constructor; [apply blankb_false, Hc|exact Hw]|exact Hb].
Qed.
Lemma blank_split : forall l, exists a b, l = a ++ b /\ Forall blank a /\ (b = [] \/ exists c b', b = c :: b' /\ ~ blank c).
Proof.
  induction l as [|c l (a & b & E & Ha & Hb)]; [exists [], []; split; [reflexivity|split; [constructor|auto]]|].
  destruct (blankb c) eqn:Hc.
  - exists (c :: a), b. split; [rewrite E; reflexivity|]. split; [constructor; [apply blankb_iff, Hc|exact Ha]|exact Hb].
  - exists [], (c :: l). split; [reflexivity|]. split; [constructor|]. right. exists c, l. split; [reflexivity|]. apply blankb_false, Hc.
Qed.
Lemma columns_exist : forall n l, (length l <= n)%nat -> exists ws, columns l ws.
Proof.
  induction n as [|n IH]; intros l Hl.
  - destruct l; [|cbn in Hl; lia]. exists []. constructor. constructor.
  - destruct (blank_split l) as (a & r & -> & Ha & Hr). destruct Hr as [->|(c & r' & -> & Hc)].
    + rewrite app_nil_r. exists []. constructor. exact Ha.
    + destruct (word_split (c :: r')) as (w & b & E & Hw & Hb). destruct w as [|y w].
      { exfalso. cbn [app] in E. subst b. destruct Hb as [Hb|(c' & b' & E & Hb)]; [discriminate|]. injection E as <- _. contradiction. }
      assert (L : (length b <= n)%nat) by (apply (f_equal (@length Z)) in E; cbn [length app] in E; rewrite app_length in Hl, E; cbn [length] in Hl; lia).
      destruct (IH b L) as (ws & H). exists ((y :: w) :: ws). rewrite E. apply co_cons; [exact Ha|discriminate|exact Hw|exact Hb|exact H].
Qed.
Lemma words_columns : forall l, ~ In 10 l -> columns l (words l).
Proof. intros l N. destruct (columns_exist (length l) l (le_n _)) as (ws & H). rewrite (columns_words l ws N H). exact H. Qed.
Lemma columns_iff : forall l ws, ~ In 10 l -> (columns l ws <-> words l = ws).
Proof. intros l ws N. split; [apply columns_words, N|]. intros <-. apply words_columns, N. Qed.

(** ** Gateways *)
Lemma str_inj_app : forall p x, starts_with p x = true <-> exists r, x = p ++ r.
Proof.
  intros p x. unfold starts_with. destruct (strip_prefix p x) as [r|] eqn:E.
  - split; [intros _|reflexivity]. exists r. apply QuickUpProofs.strip_prefix_some, E.
  - split; [discriminate|]. intros (r & H). apply QuickUpProofs.strip_prefix_some in H. congruence.
Qed.
Lemma usable_iff : forall nl l, ~ In 10 l -> (usable nl l = true <-> exists g, default_line nl l g).
Proof.
  intros nl l N. unfold usable, field. pose proof (words_columns l N) as W. split.
  - intro H. apply andb_true_iff in H as [H1 H2]. apply beq_eq in H1. destruct (words l) as [|w ws] eqn:E; [discriminate|]. cbn [nth] in H1. subst w.
    exists (nth 0 ws []). exists ws. split; [exact W|]. split; [destruct ws; reflexivity|]. intros -> x Ex. cbn [nth andb negb] in H2.
    apply negb_true_iff in H2. assert (S : starts_with (str "link#") (nth 0 ws []) = true) by (apply str_inj_app; eauto). congruence.
  - intros (g & ws & H & Hg & Hn). apply columns_words in H; [|exact N]. rewrite H. cbn [nth]. apply andb_true_iff. split; [apply beq_refl|].
    destruct nl; [|reflexivity]. cbn [andb]. apply negb_true_iff. destruct (starts_with _ _) eqn:S; [|reflexivity]. exfalso.
    apply str_inj_app in S as (x & S). apply (Hn eq_refl x). rewrite Hg. destruct ws; exact S.
Qed.
Lemma usable_field : forall nl l g, ~ In 10 l -> default_line nl l g -> g = field 1 l.
Proof. intros nl l g N (ws & H & -> & _). apply columns_words in H; [|exact N]. unfold field. rewrite H. destruct ws; reflexivity. Qed.

Lemma read_no_newline : forall out, Forall (fun l => ~ In 10 l) (read_complete out).
Proof.
  intro out. destruct (read_complete_spec out) as (full & rest & _ & F & _ & T). apply Forall2_trim in T. rewrite T. apply Forall_map.
  revert F. apply Forall_impl. intros l N H. apply N. eapply trim_in. exact H.
Qed.
Lemma gateway_spec : forall nl out, reports_gateway nl out (gateway nl (read_complete out)).
Proof.
  intros nl out. exists (read_complete out). split; [apply read_complete_spec|]. pose proof (read_no_newline out) as N.
  induction (read_complete out) as [|l ls IH]; [left; split; [reflexivity|intros l g []]|]. inversion N as [|? ? Nl Ns]; subst. cbn [gateway].
  destruct (usable nl l) eqn:U.
  - right. exists [], l, ls. split; [reflexivity|]. split; [|intros l' g' []]. apply usable_iff in U as (g & U); [|exact Nl].
    rewrite <- (usable_field nl l g Nl U). exact U.
  - assert (X : forall g, ~ default_line nl l g) by (intros g D; rewrite (proj2 (usable_iff nl l Nl) (ex_intro _ g D)) in U; discriminate).
    destruct (IH Ns) as [(E & H)|(a & l1 & b & E & H1 & H2)].
    + left. split; [exact E|]. intros l' g' [<-|Hi]; [apply X|apply H, Hi].
    + right. exists (l :: a), l1, b. split; [rewrite E; reflexivity|]. split; [exact H1|]. intros l' g' [<-|Hi]; [apply X|apply H2, Hi].
Qed.

(** ** Endpoints *)
Lemma host_char_iff : forall c, host_char c = true <-> 97 <= c <= 122 \/ 48 <= c <= 57 \/ c = 58 \/ c = 46.
Proof. intro c. unfold host_char, digit. rewrite !orb_true_iff, !andb_true_iff, !Z.leb_le, !Z.eqb_eq. tauto. Qed.
Lemma host_word_iff : forall e, host_word e <-> forallb host_char e && negb (beq e []) = true.
Proof.
  intro e. unfold host_word. rewrite andb_true_iff, negb_true_iff, beq_neq, forallb_forall, Forall_forall. split; intros [H1 H2]; split; auto; intros c Hc; apply host_char_iff; auto.
Qed.
Lemma endpoint_host_iff : forall x e, endpoint_host x = Some e <->
  exists opening closing port, x = opening ++ e ++ closing ++ 58 :: port /\ (opening = [] \/ opening = [91]) /\ (closing = [] \/ closing = [93]) /\
    host_word e /\ port <> [] /\ Forall (fun c => 48 <= c <= 57) port.
Proof.
  intros x e. unfold endpoint_host. split.
  - destruct (split_last 58 x) as [[h port]|] eqn:E; [|discriminate]. apply split_last_some in E as [-> N].
    set (h1 := match h with 91 :: t => t | _ => h end).
    assert (H1 : exists op, h = op ++ h1 /\ (op = [] \/ op = [91])).
    { destruct (list_eq_dec Z.eq_dec (firstn 1 h) [91]) as [D|D].
      - destruct h as [|y h]; [discriminate|]. cbn in D. injection D as ->. exists [91]. split; [reflexivity|auto].
      - exists []. split; [|auto]. unfold h1. destruct h as [|y h]; [reflexivity|]. rewrite not_91; [reflexivity|]. intros ->. apply D. reflexivity. }
    set (h2 := match rev h1 with 93 :: t => rev t | _ => h1 end).
    assert (H2 : exists cl, h1 = h2 ++ cl /\ (cl = [] \/ cl = [93])).
    { destruct (rev h1) as [|y r] eqn:Er.
      - exists []. split; [rewrite app_nil_r; reflexivity|auto].
      - destruct (Z.eq_dec y 93) as [->|D].
        + exists [93]. split; [|auto]. unfold h2. rewrite <- (rev_involutive h1), Er. reflexivity.
        + exists []. split; [|auto]. unfold h2. rewrite not_93 by exact D. rewrite app_nil_r. reflexivity. }
    destruct (_ && _ && _ && _) eqn:B; [|discriminate]. intro Ee. injection Ee as <-.
    rewrite <- andb_assoc in B. apply andb_true_iff in B as [B1 B2]. apply andb_true_iff in B1 as [B0 B1].
    destruct H1 as (op & Eo & Ho), H2 as (cl & Ec & Hc). exists op, cl, port. split; [rewrite Eo, Ec, <- !app_assoc; reflexivity|].
    split; [exact Ho|]. split; [exact Hc|]. split; [apply host_word_iff, B2|]. split; [apply beq_neq, negb_true_iff, B1|].
    rewrite forallb_forall in B0. apply Forall_forall. intros c Hi. apply digit_iff, B0, Hi.
  - intros (op & cl & port & -> & Ho & Hc & Hw & Hp & Hd).
    assert (N : ~ In 58 port) by (intro Hi; rewrite Forall_forall in Hd; specialize (Hd _ Hi); lia).
    replace (op ++ e ++ cl ++ 58 :: port) with ((op ++ e ++ cl) ++ 58 :: port) by (rewrite <- !app_assoc; reflexivity). rewrite split_last_app by exact N.
    assert (D : forallb digit port && negb (beq port []) = true).
    { apply andb_true_iff. split; [apply forallb_forall; intros c Hi; apply digit_iff; rewrite Forall_forall in Hd; apply Hd, Hi|]. apply negb_true_iff, beq_neq, Hp. }
    assert (Ee : exists y e', e = y :: e') by (destruct e as [|y e']; [destruct Hw as [Hw _]; contradiction|eauto]). destruct Ee as (y & e' & Ee).
    assert (Hy : y <> 91 /\ y <> 93).
    { destruct Hw as [_ Hw]. rewrite Ee in Hw. inversion Hw; subst. lia. }
    assert (E1 : match op ++ e ++ cl with 91 :: t => t | _ => op ++ e ++ cl end = e ++ cl).
    { destruct Ho as [-> | ->]; [|reflexivity]. cbn [app]. rewrite Ee. cbn [app]. apply not_91. apply Hy. }
    rewrite E1.
    assert (E2 : match rev (e ++ cl) with 93 :: t => rev t | _ => e ++ cl end = e).
    { destruct Hc as [-> | ->].
      - rewrite app_nil_r. destruct (rev e) as [|z r] eqn:Er; [reflexivity|]. apply not_93.
        destruct Hw as [_ Hw]. assert (Hz : In z e) by (rewrite <- (rev_involutive e), Er; apply in_rev; rewrite rev_involutive; left; reflexivity).
        rewrite Forall_forall in Hw. specialize (Hw _ Hz). lia.
      - rewrite rev_app_distr. cbn [rev app]. apply rev_involutive. }
    rewrite E2, <- andb_assoc, D. cbn [andb]. apply host_word_iff in Hw. rewrite Hw. reflexivity.
Qed.

(** A line without blanks at its ends, and what follows its first word. *)
Lemma second_field_columns : forall l x, ~ In 10 l -> trimmed blank l l -> Forall (fun c => ~ blank c) x -> x <> [] ->
  (second_field l = x <-> exists k, columns l [k; x]).
Proof.
  intros l x N T Hx Hn. destruct (word_split l) as (w & b & E & Hw & Hb). destruct (blank_split b) as (b1 & b2 & Eb & Hb1 & Hb2).
  assert (D1 : forall u v, Forall (fun c => ~ blank c) u -> (v = [] \/ exists c v', v = c :: v' /\ blank c) -> drop_while (fun c => negb (blankb c)) (u ++ v) = v).
  { intros u v Hu Hv. induction Hu as [|c u Hc Hu IH]; cbn [app].
    - destruct Hv as [->|(c & v' & -> & Hc)]; [reflexivity|]. cbn [drop_while]. apply blankb_iff in Hc. rewrite Hc. reflexivity.
    - cbn [drop_while]. rewrite (proj2 (blankb_false c) Hc). exact IH. }
  assert (D2 : forall u v, Forall blank u -> (v = [] \/ exists c v', v = c :: v' /\ ~ blank c) -> drop_while blankb (u ++ v) = v).
  { intros u v Hu Hv. induction Hu as [|c u Hc Hu IH]; cbn [app].
    - destruct Hv as [->|(c & v' & -> & Hc)]; [reflexivity|]. cbn [drop_while]. rewrite (proj2 (blankb_false c) Hc). reflexivity.
    - cbn [drop_while]. apply blankb_iff in Hc. rewrite Hc. exact IH. }
  assert (S : second_field l = b2).
  { unfold second_field, ltrim. rewrite E, D1 by assumption. rewrite Eb. apply D2; assumption. }
  assert (W0 : l = [] \/ w <> []).
  { destruct w; [|right; discriminate]. left. destruct T as (a & c & _ & _ & _ & [T|(y & z & u & v & T & _ & Ny & _)]); [exact T|]. rewrite T in E. cbn [app] in E.
    destruct Hb as [->|(c' & b' & -> & Hc)]; [discriminate|]. injection E as <- _. contradiction. }
  rewrite S. split.
  - intros ->. exists w. destruct W0 as [W0|W0].
    { rewrite W0 in E. symmetry in E. apply app_eq_nil in E as [_ ->]. symmetry in Eb. apply app_eq_nil in Eb as [_ ->]. contradiction. }
    rewrite E. change (columns ([] ++ w ++ b) [w; x]). apply co_cons; [constructor|exact W0|exact Hw|exact Hb|]. rewrite Eb.
    rewrite <- (app_nil_r (b1 ++ x)), <- app_assoc. apply co_cons; [exact Hb1|exact Hn|exact Hx|left; reflexivity|]. constructor. constructor.
  - intros (k & C). apply columns_words in C; [|exact N].
    destruct W0 as [->|W0]; [discriminate C|].
    assert (Nb : ~ In 10 b) by (intro Hi; apply N; rewrite E; apply in_or_app; right; exact Hi).
    assert (C2 : words l = w :: words b2).
    { apply columns_words; [exact N|]. rewrite E. change (columns ([] ++ w ++ b) (w :: words b2)). apply co_cons; [constructor|exact W0|exact Hw|exact Hb|].
      apply columns_iff; [exact Nb|]. unfold words. rewrite Eb. apply words_sep, blanks_ifs, Hb1. }
    rewrite C in C2. assert (Ex : words b2 = [x]) by congruence.
    assert (N2 : ~ In 10 b2) by (intro Hi; apply Nb; rewrite Eb; apply in_or_app; right; exact Hi).
    (* b2 has one word, begins with it and does not end with a blank *)
    destruct (word_split b2) as (w2 & r2 & E2 & Hw2 & Hr2). destruct w2 as [|y2 w2].
    { exfalso. cbn [app] in E2. subst r2. destruct Hb2 as [->|(c & v' & -> & Hc)]; [discriminate Ex|]. destruct Hr2 as [Hr2|(c' & b' & Hr2 & Hc')]; [discriminate|].
      injection Hr2 as <- _. contradiction. }
    assert (Ew : words b2 = (y2 :: w2) :: words r2).
    { apply columns_words; [exact N2|]. rewrite E2. change (columns ([] ++ (y2 :: w2) ++ r2) ((y2 :: w2) :: words r2)). apply co_cons; [constructor|discriminate|exact Hw2|exact Hr2|].
      apply words_columns. intro Hi. apply N2. rewrite E2. apply in_or_app. right. exact Hi. }
    rewrite Ex in Ew. injection Ew as Ew Er. subst x. rewrite E2. destruct Hr2 as [->|(c & r' & -> & Hc)]; [apply app_nil_r|]. exfalso.
    assert (Bl : Forall blank (c :: r')).
    { assert (Nr : ~ In 10 (c :: r')) by (intro Hi; apply N2; rewrite E2; apply in_or_app; right; exact Hi).
      pose proof (words_columns (c :: r') Nr) as Wc. rewrite <- Er in Wc. inversion Wc; subst. assumption. }
    destruct T as (_ & _ & _ & _ & _ & [T|(y & z & u & v & _ & T & _ & Nz)]); [rewrite T in E; symmetry in E; apply app_eq_nil in E as [-> _]; contradiction|].
    apply Nz. assert (El : l = (w ++ b1 ++ y2 :: w2) ++ c :: r') by (rewrite E, Eb, E2, <- !app_assoc; reflexivity).
    rewrite T in El. destruct (exists_last (l := c :: r')) as (r1 & z' & Ez); [discriminate|]. rewrite Ez in El, Bl. rewrite app_assoc in El. apply app_inj_tail in El as [_ ->].
    apply Forall_app in Bl as [_ Bl]. inversion Bl; subst. assumption.
Qed.

Lemma endpoint_line_iff : forall l e, ~ In 10 l -> trimmed blank l l -> (endpoint_line l e <-> endpoint_host (second_field l) = Some e).
Proof.
  intros l e N T. assert (V : forall op cl port, (op = [] \/ op = [91]) -> (cl = [] \/ cl = [93]) -> host_word e -> Forall (fun c => 48 <= c <= 57) port ->
    Forall (fun c => ~ blank c) (op ++ e ++ cl ++ 58 :: port) /\ op ++ e ++ cl ++ 58 :: port <> []).
  { intros op cl port Ho Hc [He Hw] Hp. split; [|destruct op, e; discriminate || contradiction]. unfold blank.
    apply Forall_app. split; [destruct Ho as [-> | ->]; repeat constructor; lia|]. apply Forall_app. split; [revert Hw; apply Forall_impl; intros; lia|].
    apply Forall_app. split; [destruct Hc as [-> | ->]; repeat constructor; lia|]. constructor; [lia|]. revert Hp. apply Forall_impl. intros; lia. }
  rewrite endpoint_host_iff. split.
  - intros (k & op & cl & port & C & Ho & Hc & Hw & Hn & Hp). exists op, cl, port. destruct (V op cl port Ho Hc Hw Hp) as [V1 V2].
    split; [apply second_field_columns; eauto|]. auto.
  - intros (op & cl & port & E & Ho & Hc & Hw & Hn & Hp). destruct (V op cl port Ho Hc Hw Hp) as [V1 V2].
    apply (second_field_columns l _ N T V1 V2) in E as (k & C). exists k, op, cl, port. auto 10.
Qed.

Lemma trim_self : forall l, trimmed blank (trim blankb l) (trim blankb l).
Proof. intro l. apply (trimmed_iff blankb blank blankb_iff). rewrite trim_idem. reflexivity. Qed.
Lemma read_trimmed : forall out, Forall (fun l => trimmed blank l l) (read_complete out).
Proof. intro out. unfold read_complete. apply Forall_map. apply Forall_forall. intros l _. apply trim_self. Qed.

Lemma hosts_spec : forall out, reports_endpoints out (BsdRoutes.hosts (read_complete out)).
Proof.
  intro out. exists (read_complete out). split; [apply read_complete_spec|]. pose proof (read_no_newline out) as N. pose proof (read_trimmed out) as T.
  generalize (@nil (list Z)) as pre. revert N T. generalize (read_complete out) as ls. induction ls as [|l ls IH]; intros N T pre; cbn [BsdRoutes.hosts flat_map]; [constructor|].
  inversion N; inversion T; subst. destruct (endpoint_host (second_field l)) as [e|] eqn:E; cbn [app].
  - constructor; [apply endpoint_line_iff; assumption|apply IH; assumption].
  - apply pk_skip; [|apply IH; assumption]. intros e He. apply endpoint_line_iff in He; [|assumption|assumption]. congruence.
Qed.
Lemma hosts_words : forall ls, Forall host_word (BsdRoutes.hosts ls).
Proof.
  induction ls as [|l ls IH]; cbn [BsdRoutes.hosts flat_map]; [constructor|]. destruct (endpoint_host (second_field l)) as [e|] eqn:E; cbn [app]; [|exact IH].
  constructor; [|exact IH]. apply endpoint_host_iff in E as (_ & _ & _ & _ & _ & _ & H & _). exact H.
Qed.
