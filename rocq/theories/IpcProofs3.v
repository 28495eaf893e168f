(** The whole listing (src/ipc.c:55-76, src/ipc-linux.h:73-140, src/ipc-uapi-unix.h:64-119). *)
From Coq Require Import String ZArith List Bool Lia.
From Verif Require Import Base Types Encoding Config NlSpec NlProofs NlGetSpec Nl NlSet NlSetProofs4 NlGet NlGetProofs NlRun NlGetProofs3 Show Ipc IpcSpec IpcProofs IpcProofs2.
Import ListNotations.
Open Scope Z_scope.

Lemma f_msg0_done : forall hp seq portid m ret st, dump_done seq portid m -> f_msg0 (A := slist) seq portid (g_list hp) m ret st = inl (CB_STOP, st).
Proof.
  intros hp seq portid m ret st (Ha & Ht). rewrite answer_msg0 by exact Ha. rewrite Ht. cbn [Z.leb Z.compare Pos.compare Pos.compare_cont andb].
  destruct (msg_fields m (proj1 Ha)) as (Et & _). unfold f_default. cbv zeta. rewrite Et, Ht. reflexivity.
Qed.
Lemma f_msg0_intr : forall hp seq portid m ret st, dump_interrupted seq portid m -> f_msg0 (A := slist) seq portid (g_list hp) m ret st = inl (CB_ERROR, (EINTR, snd st)).
Proof.
  intros hp seq portid m ret st (Hm & Hs & Hp & Hf). destruct (msg_fields m Hm) as (Et & Ef & Es & Ep & El). unfold f_msg0. cbv zeta.
  rewrite Ef, Es, Ep, Hf.
  replace (negb (msg_port m =? 0) && negb (portid =? 0) && negb (msg_port m =? portid)) with false.
  2: { symmetry. destruct Hp as [-> | ->]; [rewrite Z.eqb_refl; cbn [negb]; apply andb_false_r|reflexivity]. }
  replace (negb (msg_seq m =? 0) && negb (seq =? 0) && negb (msg_seq m =? seq)) with false; [reflexivity|].
  symmetry. destruct Hs as [-> | ->]; [rewrite Z.eqb_refl; cbn [negb]; apply andb_false_r|reflexivity].
Qed.

Lemma list_links : forall hp seq portid, heap_ok hp -> forall gs ms fin more, Forall (link_message seq portid) ms ->
  dump_done seq portid fin \/ dump_interrupted seq portid fin ->
  Forall okl (fin :: more) -> Forall message more ->
  concat gs = ms ++ fin :: more -> Forall (fun g => g <> []) gs ->
  forall buf e l names, holds l names -> Forall is_byte buf -> len buf < 2 ^ 30 -> (4 | len buf) -> Forall (fun g => len (concat g) <= len buf) gs ->
  exists r l', list_loop hp seq portid buf (map (fun g => Dgram (concat g)) gs) (e, l) = Some (r, l')
    /\ ((r = 0 /\ holds l' (names ++ concat (map names_in ms))) \/ r = - ENOMEM).
Proof.
  intros hp seq portid Hh. induction gs as [|g gs IH]; intros ms fin more Hd Hfin Hfo Hmm Ec Hne buf e l names Hn Hb Hl H4 Hfit.
  { destruct ms; discriminate. }
  inversion Hne as [|x y Hg Hgs]; subst. inversion Hfit as [|x y Hf1 Hf2]; subst. cbn [concat map] in *.
  assert (Hfm : message fin) by (destruct Hfin as [H|H]; apply H).
  assert (Hmsg : Forall message (ms ++ fin :: more)).
  { apply Forall_app. split.
    - clear - Hd. induction Hd as [|m ms Hm Hms IHd]; constructor; [|exact IHd]. apply Hm.
    - constructor; assumption. }
  assert (Hokl : Forall okl (ms ++ fin :: more)).
  { apply Forall_app. split; [|exact Hfo]. clear - Hd. induction Hd as [|m ms Hm Hms IHd]; constructor; [|exact IHd]. eapply link_okl, Hm. }
  rewrite <- Ec in Hmsg, Hokl. apply Forall_app in Hmsg as [Hmg Hmgs]. apply Forall_app in Hokl as [Hok _].
  assert (Hgb : Forall is_byte (concat g)).
  { clear - Hmg. induction Hmg as [|m g Hm Hg IHg]; [constructor|]. cbn [concat]. apply Forall_app. split; [apply Hm|exact IHg]. }
  set (M := overwrite buf (concat g)).
  assert (LM : len M = len buf) by (apply overwrite_len; lia).
  destruct (msgs_concat g (skipn (length (concat g)) buf) Hmg (S (length M))) as [Em Es].
  { unfold len in *. lia. }
  assert (EM : M = concat g ++ skipn (length (concat g)) buf) by reflexivity.
  rewrite <- EM in *.
  assert (Hsplit : (exists ms2, ms = g ++ ms2 /\ concat gs = ms2 ++ fin :: more) \/ (exists x, g = ms ++ fin :: x)).
  { clear - Ec. revert g Ec. induction ms as [|m ms IHm]; intros g Ec.
    - cbn [app] in Ec. destruct g as [|x g]; [left; exists []; split; [reflexivity|exact Ec]|].
      cbn [app] in Ec. injection Ec as -> Ec. right. exists g. reflexivity.
    - destruct g as [|x g].
      + left. exists (m :: ms). split; [reflexivity|exact Ec].
      + cbn [app] in Ec. injection Ec as -> Ec. destruct (IHm g Ec) as [(ms2 & -> & E2)|(x & ->)].
        * left. exists ms2. split; [reflexivity|exact E2].
        * right. exists x. reflexivity. }
  rewrite (list_step hp seq portid buf (concat g) _ e l names Hh Hn Hb Hgb Hl H4 Hf1); cycle 1.
  { fold M. exact Es. }
  { fold M. rewrite Em. exact Hok. }
  fold M. rewrite Em.
  destruct Hsplit as [(ms2 & -> & Ec2)|(x & ->)].
  - apply Forall_app in Hd as [D1 D2].
    destruct (f_run0_links hp seq portid Hh g [] CB_OK e l names D1 Hn) as [(l2 & r2 & E & H2 & H3 & _)|(l2 & E)]; rewrite app_nil_r in E; rewrite E.
    + cbn [f_run0]. rewrite (H3 Hg). change (CB_OK + 1 <? 0) with false. cbn [andb]. rewrite Z.eqb_refl.
      rewrite map_app, concat_app, app_assoc.
      apply (IH ms2 fin more D2 Hfin Hfo Hmm Ec2 Hgs M e l2 _ H2).
      * unfold M, overwrite. apply Forall_app. split; [exact Hgb|apply skipn_bytes, Hb].
      * lia.
      * rewrite LM. exact H4.
      * rewrite LM. exact Hf2.
    + change (- ENOMEM <? 0) with true. cbn [fst snd andb]. change (ENOMEM =? EINTR) with false. cbn [negb]. eexists _, l2. split; [reflexivity|]. right. reflexivity.
  - destruct (f_run0_links hp seq portid Hh ms (fin :: x) CB_OK e l names Hd Hn) as [(l2 & r2 & E & H2 & H3 & _)|(l2 & E)]; rewrite E.
    + cbn [f_run0]. destruct Hfin as [Hfin|Hfin].
      * rewrite f_msg0_done by exact Hfin. change (CB_STOP <? 0) with false. cbn [andb fst snd]. change (CB_STOP =? CB_OK + 1) with false. cbv iota.
        eexists _, l2. split; [reflexivity|]. left. split; [reflexivity|exact H2].
      * rewrite f_msg0_intr by exact Hfin. change (CB_ERROR <? 0) with true. cbn [andb fst snd]. change (EINTR =? EINTR) with true. cbn [negb].
        change (CB_ERROR =? CB_OK + 1) with false. cbv iota. eexists _, l2. split; [reflexivity|]. left. split; [reflexivity|exact H2].
    + change (- ENOMEM <? 0) with true. cbn [fst snd andb]. change (ENOMEM =? EINTR) with false. cbn [negb]. eexists _, l2. split; [reflexivity|]. right. reflexivity.
Qed.

(** ** Userspace *)
Lemma strip_suffix_spec : forall ent n, strip_suffix ent = Some n <-> n <> [] /\ ent = n ++ str ".sock".
Proof.
  intros ent n. unfold strip_suffix. change (len SOCK_SUFFIX) with 5. split.
  - destruct (Z.leb_spec (len ent) 5) as [|H]; [discriminate|]. destruct (beq (skipn (Z.to_nat (len ent - 5)) ent) SOCK_SUFFIX) eqn:E; [|discriminate].
    intro Hn. injection Hn as <-. apply beq_eq in E. split.
    + intro H0. apply (f_equal (@length Z)) in H0. rewrite firstn_length in H0. unfold len in *. cbn [length] in H0. lia.
    + change (str ".sock") with SOCK_SUFFIX. rewrite <- E. symmetry. apply firstn_skipn.
  - intros [Hn ->]. assert (L : len (n ++ str ".sock") = len n + 5) by (rewrite len_app; reflexivity).
    assert (Hp : 0 < len n) by (destruct n; [congruence|unfold len; cbn [length]; lia]).
    rewrite L. destruct (Z.leb_spec (len n + 5) 5); [lia|]. replace (Z.to_nat (len n + 5 - 5)) with (length n) by (unfold len; lia).
    rewrite skipn_app, skipn_all, Nat.sub_diag. cbn [app skipn]. change (beq (str ".sock") SOCK_SUFFIX) with true. cbv iota.
    rewrite firstn_app, firstn_all, Nat.sub_diag. cbn [firstn]. rewrite app_nil_r. reflexivity.
Qed.

(** The interfaces that answer among the directory's entries, probed in order. *)
Inductive announced (o : os) (dir : list Z) : list (list Z) -> list event -> list (list Z) -> list event -> Prop :=
| an_nil : forall h, announced o dir [] h [] h
| an_other : forall ent rest h ns h', (forall n, n <> [] -> ent <> n ++ str ".sock") ->
    announced o dir rest h ns h' -> announced o dir (ent :: rest) h ns h'
| an_dead : forall n rest h h1 ns h', n <> [] -> has_interface o dir n h = (false, h1) ->
    announced o dir rest h1 ns h' -> announced o dir ((n ++ str ".sock") :: rest) h ns h'
| an_live : forall n rest h h1 ns h', n <> [] -> has_interface o dir n h = (true, h1) ->
    announced o dir rest h1 ns h' -> announced o dir ((n ++ str ".sock") :: rest) h (n :: ns) h'.

Definition entry_ok (ent : list Z) : Prop := ~ In 0 ent /\ len ent < 2 ^ 62.

Lemma announced_total : forall o dir ents h, exists ns h', announced o dir ents h ns h'.
Proof.
  intros o dir. induction ents as [|ent rest IH]; intro h; [exists [], h; constructor|].
  destruct (strip_suffix ent) as [n|] eqn:E.
  - apply strip_suffix_spec in E as [Hn ->]. destruct (has_interface o dir n h) as [b h1] eqn:Eh. destruct (IH h1) as (ns & h' & H).
    destruct b; [exists (n :: ns), h'|exists ns, h']; econstructor; eassumption.
  - destruct (IH h) as (ns & h' & H). exists ns, h'. apply an_other; [|exact H]. intros n Hn He.
    assert (strip_suffix ent = Some n) by (apply strip_suffix_spec; split; assumption). congruence.
Qed.

Lemma entries_holds : forall hp o dir ents h ns h', heap_ok hp -> announced o dir ents h ns h' -> Forall entry_ok ents ->
  forall l names, holds l names ->
  exists r l' h2, entries_loop hp o dir ents l h = Some (r, l', h2)
    /\ ((r = 0 /\ h2 = h' /\ holds l' (names ++ ns)) \/ r = - ENOMEM).
Proof.
  intros hp o dir ents h ns h' Hh H. induction H as [h|ent rest h ns h' Hno H IH|n rest h h1 ns h' Hn E H IH|n rest h h1 ns h' Hn E H IH]; intros Hok l names Hl.
  - exists 0, l, h. split; [reflexivity|]. left. rewrite app_nil_r. split; [reflexivity|split; [reflexivity|exact Hl]].
  - inversion Hok as [|x y Hok1 Hok2]; subst. cbn [entries_loop]. destruct (strip_suffix ent) as [n|] eqn:E.
    + apply strip_suffix_spec in E as [Hn He]. exfalso. apply (Hno n Hn He).
    + apply IH; assumption.
  - inversion Hok as [|x y Hok1 Hok2]; subst. cbn [entries_loop]. replace (strip_suffix (n ++ str ".sock")) with (Some n) by (symmetry; apply strip_suffix_spec; split; [exact Hn|reflexivity]).
    rewrite E. cbn [negb]. apply IH; assumption.
  - inversion Hok as [|x y [Hok1 Hok1l] Hok2]; subst. cbn [entries_loop]. replace (strip_suffix (n ++ str ".sock")) with (Some n) by (symmetry; apply strip_suffix_spec; split; [exact Hn|reflexivity]).
    rewrite E. cbn [negb].
    assert (Hz : ~ In 0 n) by (intro H0; apply Hok1, in_or_app; left; exact H0).
    assert (Hll : len n < 2 ^ 62) by (rewrite len_app in Hok1l; pose proof (len_nonneg (str ".sock")); lia).
    destruct (add_holds hp l names n Hh Hl Hz Hll) as (r & l1 & -> & [[-> H1]|[-> ->]]).
    + cbn [Z.ltb Z.compare]. replace (match n with [] => [] | _ :: _ => [n] end) with [n] in H1 by (destruct n; [congruence|reflexivity]).
      destruct (IH Hok2 l1 (names ++ [n]) H1) as (r & l2 & h2 & E2 & [(-> & -> & H2)|Hr]).
      * exists 0, l2, h'. split; [exact E2|]. left. split; [reflexivity|]. split; [reflexivity|]. rewrite <- app_assoc in H2. exact H2.
      * exists r, l2, h2. split; [exact E2|]. right. exact Hr.
    + change (- ENOMEM <? 0) with true. cbv iota. exists (- ENOMEM), l, h1. split; [reflexivity|]. right. reflexivity.
Qed.
