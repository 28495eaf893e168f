(** C50: a saved configuration, read again, gives what was saved. *)
From Coq Require Import String ZArith List Bool Lia.
From Verif Require Import Base Ctype Cstr CstrProofs Types Config ConfigSpec ConfigProofs QuickSaveSpec QuickSaveProofs PropQuickSave.
From Verif Require Import Bash Quick QuickSpec QuickProofs PropQuick QuickRun QuickRunSpec QuickRunProofs QuickUpProofs QuickRouteProofs QuickMtuSpec PropQuickMtu QuickDoes
  QuickSave QuickReloadSpec.
Import ListNotations.
Open Scope Z_scope.

(** ** Addresses *)
Lemma not43 : forall A c (X Y : A), c <> 43 -> match c with 43 => X | _ => Y end = Y.
Proof.
  intros A c X Y H. destruct c as [|p|p]; try reflexivity.
  do 6 (destruct p as [p|p|]; try reflexivity). contradiction.
Qed.
Lemma rests_plain : forall ifc t, ~ In 43 ifc -> rests (name_atoms (length ifc) ifc) (ifc ++ t) = [t].
Proof.
  induction ifc as [|c ifc IH]; intros t H; [reflexivity|]. cbn [length name_atoms].
  assert (H43 : ~ In 43 ifc) by (intro; apply H; right; assumption).
  assert (P : starts_with [43] ifc = false /\ skip_plus ifc = ifc).
  { destruct ifc as [|x r]; [split; reflexivity|]. assert (N : x <> 43) by (intros ->; apply H43; left; reflexivity). cbn [skip_plus]. unfold starts_with. cbn [strip_prefix].
    destruct (Z.eqb_spec 43 x); [congruence|]. destruct (Z.eqb_spec x 43); [congruence|]. auto. }
  destruct P as [P1 P2]. rewrite P1, P2. cbn [rests app rests_one snd fst]. assert (E : atom_is (if c =? 46 then None else Some c) c = true) by (destruct (c =? 46); cbn [atom_is]; [reflexivity|apply Z.eqb_refl]).
  rewrite E. cbn [flat_map]. rewrite IH by exact H43. reflexivity.
Qed.
Lemma map_char_id : forall s, ~ In 44 s -> map_char 44 32 s = s.
Proof.
  induction s as [|c s IH]; intro H; [reflexivity|]. cbn [map_char map]. fold (map_char 44 32 s). rewrite IH by (intro; apply H; right; assumption).
  destruct (Z.eqb_spec c 44) as [->|N]; [destruct H; left; reflexivity|reflexivity].
Qed.
Lemma upper_iff : forall c, upper c = true <-> 65 <= c <= 90.
Proof. intro c. unfold upper. rewrite andb_true_iff, !Z.leb_le. reflexivity. Qed.
Lemma take_upper : forall st b, Forall (fun c => 65 <= c <= 90) st -> (b = [] \/ exists b', b = 32 :: b') -> take_while upper (st ++ b) = st /\ drop_while upper (st ++ b) = b.
Proof.
  induction st as [|c st IH]; intros b F H; cbn [app].
  - destruct H as [->|(b' & ->)]; split; reflexivity.
  - inversion F as [|? ? F0 F1]; subst. destruct (IH b F1 H) as [E1 E2]. cbn [take_while drop_while]. rewrite (proj2 (upper_iff c) F0), E1, E2. auto.
Qed.
Lemma drop_spaces : forall a s, Forall (eq 32) a -> (forall c s', s = c :: s' -> c <> 32) -> drop_while (Z.eqb 32) (a ++ s) = s.
Proof.
  induction a as [|c a IH]; intros s F H; cbn [app].
  - destruct s as [|c s]; [reflexivity|]. cbn [drop_while]. destruct (Z.eqb_spec 32 c); [destruct (H c s eq_refl); auto|reflexivity].
  - inversion F as [|? ? F0 F1]; subst. cbn [drop_while]. apply IH; assumption.
Qed.
Definition after_words (s : list Z) : list (list Z) := match after_state s with Some r => words r | None => [] end.
Lemma listed_brief : forall ifc out ws, ~ In 43 ifc -> brief ifc out ws -> words (listed ifc out) = ws.
Proof.
  intros ifc out ws H43 (a & st & b & -> & La & Fa & Nst & Fst & Hb & H44 & He).
  assert (L : listed ifc (ifc ++ a ++ st ++ b) = match after_state (a ++ st ++ b) with Some r => r | None => [] end).
  { assert (L1 : listed ifc (ifc ++ a ++ st ++ b) = match first_some after_state (rests (name_atoms (length ifc) ifc) (ifc ++ a ++ st ++ b)) with Some r => r | None => [] end).
    { unfold listed. destruct ifc as [|c r]; [reflexivity|]. apply not43. intros ->. apply H43. left. reflexivity. }
    rewrite L1, rests_plain by exact H43. cbn [first_some]. destruct (after_state _); reflexivity. }
  rewrite L. clear L.
  assert (W : words b = ws) by (rewrite <- (map_char_id b H44); apply entries_words; exact He).
  destruct a as [|a1 [|a2 a]]; [cbn in La; lia|cbn in La; lia|]. inversion Fa as [|? ? <- Fa1]; subst. inversion Fa1 as [|? ? <- Fa2]; subst.
  unfold after_state. cbn [app]. change (32 :: 32 :: a ++ st ++ b) with ((32 :: 32 :: a) ++ st ++ b). rewrite drop_spaces.
  2: repeat constructor; exact Fa2.
  2: { intros c s' E ->. destruct st as [|x st]; [contradiction|]. cbn [app] in E. injection E as -> _. inversion Fst; subst. lia. }
  cbv zeta. destruct (take_upper st b Fst Hb) as [E1 E2]. rewrite E1, E2. destruct st as [|x st]; [contradiction|].
  destruct Hb as [->|(b' & ->)]; [reflexivity|]. destruct b' as [|y b']; reflexivity.
Qed.

(** ** Name servers *)
Lemma ns_char_iff : forall c, ns_char c = true <-> server_letter c.
Proof.
  intro c. unfold ns_char, server_letter. rewrite !orb_true_iff, name_char_iff, !Z.eqb_eq. unfold name_letter.
  cbn [str In list_ascii_of_string map Z.of_N Ascii.N_of_ascii]. cbn. intuition lia.
Qed.
Lemma nameserver_iff : forall l v, nameserver l = Some v <-> nameserver_line l v.
Proof.
  intros l v. unfold nameserver, nameserver_line. destruct (strip_prefix (str "nameserver ") l) as [t|] eqn:E.
  - apply strip_prefix_some in E. subst l. destruct t as [|x t].
    + split; [discriminate|]. intros (E & N & _). apply app_inv_head in E. congruence.
    + destruct (forallb ns_char (x :: t)) eqn:F.
      * split; [intro H; injection H as <-|intros (H & _); apply app_inv_head in H; congruence]. split; [reflexivity|]. split; [discriminate|].
        rewrite forallb_forall in F. apply Forall_forall. intros c Hc. apply ns_char_iff, F, Hc.
      * split; [discriminate|]. intros (H & _ & G). apply app_inv_head in H. subst v. rewrite <- not_true_iff_false in F. destruct F. apply forallb_forall.
        intros c Hc. rewrite Forall_forall in G. apply ns_char_iff, G, Hc.
  - split; [discriminate|]. intros (-> & _). rewrite (proj2 (strip_prefix_some _ _ _) eq_refl) in E. discriminate.
Qed.
Lemma picks_nameserver : forall ls pre, picks (fun _ => nameserver_line) pre ls (flat_map (fun l => match nameserver l with Some v => [v] | None => [] end) ls).
Proof.
  induction ls as [|l ls IH]; intro pre; cbn [flat_map]; [constructor|]. destruct (nameserver l) as [v|] eqn:E; cbn [app].
  - constructor; [apply nameserver_iff; exact E|apply IH].
  - apply pk_skip; [|apply IH]. intros v H. apply nameserver_iff in H. congruence.
Qed.
Lemma read_complete_spec : forall out, complete_lines out (read_complete out).
Proof.
  intro out. unfold read_complete, raw_lines. destruct (split_all_shape (no_nul out)) as (full & rest & E & H). exists full, rest.
  destruct H as (E2 & F & R). split; [exact E2|]. split; [exact F|]. split; [exact R|]. apply Forall2_trim. rewrite E, removelast_last. reflexivity.
Qed.

(** ** What is found out *)
Section Found.
Variable sys : system.
Variable glob : list Z -> list (list Z).
Variable ifc : list Z.
Variable o : options.
Variable amp : bool.

Lemma does_any : forall A (m : prog A) C, only C m -> does m (fun _ _ => True).
Proof. intros A m C H s v s1 E. destruct (H s) as (h & Eh & _). rewrite E in Eh. cbn [QuickSaveProofs.ends] in Eh. exists h. auto. Qed.
Lemma resolver_does : does (resolver_text sys ifc) (fun raw h => resolver_says ifc h raw).
Proof.
  unfold resolver_text. eapply does_bind; [apply (does_any _ _ bystander); apply calm_prefix|]. intros p h1 _.
  eapply does_bind; [apply run_does|]. cbn beta. intros r h2 (-> & _). destruct (Z.eqb_spec (a_status r) 0) as [S|S].
  - apply does_ret. exists p, r. split; [apply in_or_app; right; left; reflexivity|]. left. auto.
  - eapply does_bind; [apply (does_any _ _ bystander); apply calm_prefix|]. intros p2 h3 _. eapply does_bind; [apply output_does|]. cbn beta. intros c h4 (a & -> & ->).
    apply does_ret. exists p, r. split; [apply in_or_app; right; left; reflexivity|]. right. split; [exact S|]. exists p2, a.
    split; [|reflexivity]. rewrite !in_app_iff. cbn [In]. tauto.
Qed.
Definition mtu_found (h : history) (m : option (list Z)) : Prop :=
  (o_mtu o = [] /\ m = None) \/ (o_mtu o <> [] /\ exists l, In (show_link ifc, l) h /\ m = find_field (str "mtu ") digit (captured (a_output l))).
Lemma prepare_does : does (prepare sys glob ifc o amp) (fun r h => exists a c vs m,
  In (ask_addresses ifc, a) h /\ nameservers ifc h vs /\ mtu_found h m /\ In (ask_config ifc, c) h /\ a_status c = 0 /\
  snd r = saved_text amp (new_config o (expand glob (listed ifc (captured (a_output a)))) vs m) (captured (a_output c))).
Proof.
  unfold prepare, gather. eapply does_bind.
  - eapply does_bind; [apply query_does|]. cbn beta. intros out h (a & -> & ->). eapply does_bind; [apply resolver_does|]. cbn beta. intros raw h2 Hr.
    eapply does_bind with (Q := fun m h => mtu_found h m).
    + destruct (o_mtu o) as [|x l] eqn:Em; [apply does_ret; left; split; [exact Em|reflexivity]|]. eapply does_bind; [apply query_does|]. cbn beta. intros link h (b & -> & ->). apply does_ret.
      right. split; [rewrite Em; discriminate|]. exists b. split; [left; reflexivity|reflexivity].
    + intros m h3 Hm. apply does_ret.
      instantiate (1 := fun new h => exists a vs m, In (ask_addresses ifc, a) h /\ nameservers ifc h vs /\ mtu_found h m /\
        new = new_config o (expand glob (listed ifc (captured (a_output a)))) vs m). cbn beta. exists a. eexists. exists m.
      split; [left; reflexivity|]. split; [|split; [|reflexivity]].
      * exists raw, (read_complete raw). split; [|split; [apply read_complete_spec|apply picks_nameserver]].
        destruct Hr as (p & r & H1 & H2). exists p, r. split; [rewrite !in_app_iff; cbn [In]; tauto|]. destruct H2 as [H2|(S & p2 & c & H2 & E)]; [left; exact H2|].
        right. split; [exact S|]. exists p2, c. split; [rewrite !in_app_iff; cbn [In]; tauto|exact E].
      * destruct Hm as [Hm|(N & l & Hl & E)]; [left; exact Hm|]. right. split; [exact N|]. exists l. split; [|exact E]. rewrite !in_app_iff. cbn [In]. tauto.
  - cbn beta. intros new h (a & vs & m & Ha & (raw & ls & (p & r & H1 & H2) & Hc & Hp) & Hm & ->).
    eapply does_bind; [apply query_does|]. cbn beta. intros w h2 _. eapply does_bind; [apply (step_does sys true [str "umask"; str "077"] [])|]. cbn beta. intros st h3 _.
    eapply does_bind; [apply run_does|]. cbn beta. intros c h4 (-> & _). destruct (Z.eqb_spec (a_status c) 0) as [S|S]; cbn [negb]; [|intros s v s1 E; discriminate].
    apply does_ret. assert (L : forall ev, In ev h -> In ev (h ++ h2 ++ h3 ++ [(argv [str "wg"; str "showconf"; ifc], c)] ++ [])) by (intros ev H; apply in_or_app; left; exact H).
    exists a, c, vs, m. split; [apply L; exact Ha|]. split.
    { exists raw, ls. split; [|auto]. exists p, r. split; [apply L; exact H1|]. destruct H2 as [H2|(S2 & p2 & c2 & H2 & E)]; [left; exact H2|].
      right. split; [exact S2|]. exists p2, c2. split; [apply L; exact H2|exact E]. }
    split; [destruct Hm as [Hm|(N & l & Hl & E)]; [left; exact Hm|]; right; split; [exact N|]; exists l; split; [apply L; exact Hl|exact E]|].
    split; [|split; [exact S|reflexivity]]. rewrite !in_app_iff. cbn [In]. tauto.
Qed.
End Found.

(** ** The text *)
Definition fld (k : string) (v : list Z) : list Z := str k ++ str " = " ++ v.
Lemma newlines_app : forall a b, newlines (a ++ b) = newlines a ++ newlines b.
Proof. intros a b. unfold newlines. rewrite map_app, concat_app. reflexivity. Qed.
Lemma newlines_cons : forall l ls, newlines (l :: ls) = l ++ [10] ++ newlines ls.
Proof. intros l ls. unfold newlines. cbn [map concat]. rewrite <- app_assoc. reflexivity. Qed.
Lemma field_newlines : forall k vs, field_lines k vs = newlines (map (fld k) vs).
Proof.
  intros k vs. unfold field_lines, newlines. induction vs as [|v vs IH]; [reflexivity|]. cbn [map concat]. rewrite IH. unfold fld. rewrite <- !app_assoc. reflexivity.
Qed.
Definition fields (o : options) (addresses dns : list (list Z)) (mtu : option (list Z)) : list (list Z) :=
  map (fld "Address") addresses ++ map (fld "DNS") dns ++ map (fld "MTU") (match mtu with Some m => [m] | None => [] end) ++
  map (fld "Table") (match o_table o with [] => [] | t => [t] end) ++ map (fld "SaveConfig") (if o_save o then [str "true"] else []) ++
  map (fld "PreUp") (o_preup o) ++ map (fld "PostUp") (o_postup o) ++ map (fld "PreDown") (o_predown o) ++ map (fld "PostDown") (o_postdown o).
Lemma new_config_lines : forall o addresses dns mtu, new_config o addresses dns mtu = newlines (str "[Interface]" :: fields o addresses dns mtu).
Proof.
  intros o addresses dns mtu. unfold new_config, fields. rewrite newlines_cons, !newlines_app, <- !field_newlines.
  destruct mtu, (o_table o), (o_save o); reflexivity.
Qed.

Lemma lines_end : forall ls, ls <> [] -> last ls [] <> [] -> Forall (fun l => ~ In 10 l) ls -> exists body y, newlines ls = (body ++ [y]) ++ [10] /\ y <> 10.
Proof.
  intros ls N L F. destruct (exists_last N) as (l' & l & ->). rewrite last_last in L. destruct (exists_last L) as (m & y & ->).
  exists (newlines l' ++ m), y. rewrite newlines_app, newlines_cons. split; [cbn; rewrite <- !app_assoc; reflexivity|].
  apply Forall_app in F as [_ F]. inversion F as [|? ? F0 _]; subst. intros ->. apply F0, in_or_app. right. left. reflexivity.
Qed.
Lemma drop_while_repeat : forall k s, (forall c s', s = c :: s' -> c <> 10) -> drop_while (Z.eqb 10) (repeat 10 k ++ s) = s.
Proof.
  induction k as [|k IH]; intros s H; cbn [repeat app].
  - destruct s as [|c s]; [reflexivity|]. cbn [drop_while]. destruct (Z.eqb_spec 10 c); [destruct (H c s eq_refl); auto|reflexivity].
  - cbn [drop_while]. apply IH, H.
Qed.
Lemma rev_repeat : forall (c : Z) k, rev (repeat c k) = repeat c k.
Proof.
  intros c k. induction k as [|k IH]; [reflexivity|]. cbn [repeat rev]. rewrite IH. clear. induction k as [|k IH]; [reflexivity|]. cbn [repeat app]. rewrite IH. reflexivity.
Qed.
Lemma rtrim_newlines : forall s y k, y <> 10 -> rtrim (Z.eqb 10) ((s ++ [y]) ++ repeat 10 k) = s ++ [y].
Proof.
  intros s y k H. unfold rtrim. rewrite rev_app_distr, rev_repeat, drop_while_repeat, rev_involutive; [reflexivity|].
  rewrite rev_app_distr. cbn [rev app]. intros c s' E. injection E as <- _. exact H.
Qed.
Lemma patsub_step : forall m c r, c <> 38 -> c <> 92 -> patsub m (c :: r) = c :: patsub m r.
Proof.
  intros m c r H1 H2. destruct c as [|p|p]; try reflexivity.
  repeat (first [reflexivity | congruence | destruct p as [p|p|]]).
Qed.
Lemma patsub_id : forall m r, ~ In 38 r -> ~ In 92 r -> patsub m r = r.
Proof.
  intros m. induction r as [|c r IH]; intros H1 H2; [reflexivity|]. rewrite patsub_step.
  - f_equal. apply IH; intro; [apply H1|apply H2]; right; assumption.
  - intros ->. apply H1. left. reflexivity.
  - intros ->. apply H2. left. reflexivity.
Qed.
Lemma saved_lines : forall amp F out ls, config_lines out ls -> (amp = true -> ~ In 38 (newlines F) /\ ~ In 92 (newlines F)) ->
  saved_text amp (newlines (str "[Interface]" :: F)) (captured out) = newlines (str "[Interface]" :: F ++ ls).
Proof.
  intros amp F out ls (k & -> & N0 & F10 & Nn & Nl) Ha. unfold saved_text.
  assert (Er : (if amp then patsub head_line (newlines (str "[Interface]" :: F)) else newlines (str "[Interface]" :: F)) = newlines (str "[Interface]" :: F)).
  { destruct amp; [|reflexivity]. destruct (Ha eq_refl) as [H1 H2]. apply patsub_id; rewrite newlines_cons; intro H; apply in_app_or in H as [H|H].
    - cbn in H; intuition discriminate.
    - apply in_app_or in H as [[H|[]]|H]; [discriminate|auto].
    - cbn in H; intuition discriminate.
    - apply in_app_or in H as [[H|[]]|H]; [discriminate|auto]. }
  rewrite Er. clear Er. fold newlines in *. fold (newlines (str "[Interface]" :: ls)) in *.
  destruct (lines_end ls Nn Nl F10) as (body & y & Eb & Ny).
  assert (Ec : captured (newlines (str "[Interface]" :: ls) ++ repeat 10 k) = head_line ++ body ++ [y]).
  { unfold captured. rewrite no_nul_id by exact N0. rewrite newlines_cons, Eb.
    replace ((str "[Interface]" ++ [10] ++ (body ++ [y]) ++ [10]) ++ repeat 10 k) with (((str "[Interface]" ++ [10] ++ body) ++ [y]) ++ repeat 10 (S k))
      by (cbn [repeat]; rewrite <- !app_assoc; reflexivity).
    rewrite rtrim_newlines by exact Ny. unfold head_line. rewrite <- !app_assoc. reflexivity. }
  rewrite Ec.
  assert (Es : replace_first head_line (newlines (str "[Interface]" :: F)) (head_line ++ body ++ [y]) = newlines (str "[Interface]" :: F) ++ body ++ [y]).
  { assert (E : strip_prefix head_line (head_line ++ body ++ [y]) = Some (body ++ [y])) by (apply strip_prefix_some; reflexivity).
    destruct (head_line ++ body ++ [y]) eqn:Eh; cbn [replace_first]; rewrite E; reflexivity. }
  rewrite Es. rewrite !newlines_cons, newlines_app, Eb, <- !app_assoc. reflexivity.
Qed.

(** ** Reading it again *)
Definition tame (v : list Z) : Prop := ~ In 35 v /\ ~ In 10 v /\ ~ In 0 v /\ trim isspace v = v.
Definition simple (k : string) : bool :=
  forallb (fun c => negb (c =? 35) && negb (c =? 61) && negb (c =? 10) && negb (c =? 0)) (str k) && beq (trim isspace (str k ++ [32])) (str k) && negb (starts_with [91] (str k)) &&
  negb (ci_eq (str k) (str "[Interface]")).
Lemma simple_chars : forall k c, simple k = true -> In c (str k) -> c <> 35 /\ c <> 61 /\ c <> 10 /\ c <> 0.
Proof.
  intros k c H Hc. unfold simple in H. rewrite !andb_true_iff in H. destruct H as (((H & _) & _) & _). rewrite forallb_forall in H. specialize (H c Hc).
  rewrite !andb_true_iff, !negb_true_iff, !Z.eqb_neq in H. tauto.
Qed.
Lemma before_none : forall c s, ~ In c s -> before c s = s.
Proof. intros c s H. symmetry. apply upto_iff. split; [exact H|]. left. reflexivity. Qed.
Lemma before_at : forall c a b, ~ In c a -> before c (a ++ c :: b) = a.
Proof. intros c a b H. symmetry. apply upto_iff. split; [exact H|]. right. exists b. reflexivity. Qed.
Lemma after_at : forall c a b, ~ In c a -> Bash.after c (a ++ c :: b) = b.
Proof. intros c a b H. unfold Bash.after. rewrite split_first_at by exact H. reflexivity. Qed.
Lemma fld_no35 : forall k v, simple k = true -> ~ In 35 v -> ~ In 35 (fld k v).
Proof.
  intros k v S H Hi. unfold fld in Hi. rewrite !in_app_iff in Hi. destruct Hi as [Hi|[Hi|Hi]]; [destruct (simple_chars _ _ S Hi); congruence| |auto].
  cbn in Hi. intuition discriminate.
Qed.
Lemma fld_split : forall k v, fld k v = (str k ++ [32]) ++ 61 :: 32 :: v.
Proof. intros k v. unfold fld. rewrite <- app_assoc. reflexivity. Qed.
Lemma fld_no61 : forall k, simple k = true -> ~ In 61 (str k ++ [32]).
Proof. intros k S Hi. apply in_app_or in Hi as [Hi|[Hi|[]]]; [destruct (simple_chars _ _ S Hi) as (_ & N & _); congruence|discriminate]. Qed.
Lemma fld_key : forall k v, simple k = true -> line_key (fld k v) = str k.
Proof.
  intros k v S. unfold line_key. assert (E : before 35 (fld k v) = fld k (before 35 v)).
  { symmetry. apply upto_iff. destruct (before_upto 35 v) as (N & D). split; [apply fld_no35; assumption|]. unfold fld. destruct D as [D|(r & D)]; [left; congruence|].
    right. exists r. rewrite D at 1. rewrite <- !app_assoc. reflexivity. }
  rewrite E. rewrite fld_split, before_at by (apply fld_no61, S).
  unfold simple in S. rewrite !andb_true_iff in S. destruct S as (((_ & S) & _) & _). apply beq_eq in S. exact S.
Qed.
Lemma fld_value : forall k v, simple k = true -> tame v -> line_value (fld k v) = v.
Proof.
  intros k v S (H & _ & _ & T). unfold line_value. rewrite (before_none 35) by (apply fld_no35; assumption). rewrite fld_split, after_at by (apply fld_no61, S).
  change (32 :: v) with ([32] ++ v). rewrite <- (app_nil_r v) at 1. rewrite trim_around; [exact T|repeat constructor|constructor].
Qed.
Lemma fld_section : forall k v s, simple k = true -> section_after s (fld k v) = s.
Proof.
  intros k v s S. unfold section_after. rewrite fld_key by assumption. unfold simple in S. rewrite !andb_true_iff in S. destruct S as ((_ & S1) & S2).
  rewrite negb_true_iff in S1, S2. rewrite S1, S2. reflexivity.
Qed.
Lemma vals_fields : forall name k vs rest, simple k = true -> Forall tame vs ->
  vals name true (map (fld k) vs ++ rest) = (if ci_eq (str k) (str name) then vs else []) ++ vals name true rest.
Proof.
  intros name k vs rest S F. induction F as [|v vs Hv F IH]; cbn [map app]; [destruct (ci_eq _ _); reflexivity|]. cbn [vals]. rewrite fld_section by assumption.
  cbv zeta. rewrite IH. unfold setsb. rewrite fld_key by assumption. cbn [andb]. rewrite fld_value by assumption. destruct (ci_eq _ _); reflexivity.
Qed.
Lemma kept_fields : forall k vs rest, simple k = true -> Forall tame vs -> existsb (fun n => ci_eq (str k) (str n)) own_keys = true ->
  kept true (map (fld k) vs ++ rest) = kept true rest.
Proof.
  intros k vs rest S F O. induction F as [|v vs Hv F IH]; cbn [map app]; [reflexivity|]. cbn [kept]. rewrite fld_section by assumption. cbv zeta.
  assert (E : ownb true (fld k v) = true).
  { unfold ownb, setsb. rewrite fld_key by assumption. exact O. }
  rewrite E. exact IH.
Qed.
Lemma kept_all_vals : forall ls s, kept s ls = ls -> forall name, In name own_keys -> vals name s ls = [].
Proof.
  induction ls as [|l ls IH]; intros s H name Hn; [reflexivity|]. cbn [kept vals] in *. cbv zeta in *.
  assert (L : forall ls s, (length (kept s ls) <= length ls)%nat).
  { clear. induction ls as [|l ls IH]; intro s; [auto|]. cbn [kept]. cbv zeta. rewrite app_length. specialize (IH (section_after s l)). destruct (ownb _ _); cbn [length]; lia. }
  destruct (ownb (section_after s l) l) eqn:E.
  - cbn [app] in H. specialize (L ls (section_after s l)). rewrite H in L. cbn [length] in L. lia.
  - cbn [app] in H. injection H as H. rewrite (IH _ H name Hn), app_nil_r. destruct (setsb name (section_after s l) l) eqn:Es; [|reflexivity].
    exfalso. rewrite <- not_true_iff_false in E. apply E. unfold ownb. apply existsb_exists. eauto.
Qed.

(** Values that come from a file are tame. *)
Lemma trim_idem : forall f s, trim f (trim f s) = trim f s.
Proof.
  intros f s. symmetry. apply (trimmed_iff f (fun c => f c = true) (fun c => iff_refl _)). 
  pose proof (trim_trimmed f (fun c => f c = true) (fun c => iff_refl _) s) as (a & b & _ & _ & _ & T).
  exists [], []. rewrite app_nil_r. cbn [app]. repeat split; auto.
Qed.
Lemma trim_in : forall f s c, In c (trim f s) -> In c s.
Proof.
  intros f s c H. pose proof (trim_trimmed f (fun c => f c = true) (fun c => iff_refl _) s) as (a & b & E & _). rewrite E. apply in_or_app. right. apply in_or_app. left. exact H.
Qed.
Lemma before_in : forall c s x, In x (before c s) -> In x s /\ x <> c.
Proof.
  intros c s x H. destruct (before_upto c s) as (N & [E|(r & E)]).
  - split; [rewrite E; exact H|]. intros ->. contradiction.
  - split; [rewrite E; apply in_or_app; left; exact H|]. intros ->. contradiction.
Qed.
Lemma after_in : forall c s x, In x (Bash.after c s) -> In x s.
Proof.
  intros c s x H. unfold Bash.after in H. destruct (split_first c s) as [[a b]|] eqn:E; [|exact H]. apply split_first_some in E as [E _]. rewrite E. apply in_or_app. right. right. exact H.
Qed.
Lemma value_tame : forall l, ~ In 10 l -> ~ In 0 l -> tame (line_value l).
Proof.
  intros l H10 H0. unfold line_value.
  assert (G : forall x, In x (trim isspace (Bash.after 61 (before 35 l))) -> In x l /\ x <> 35) by (intros x Hx; apply trim_in, after_in, before_in in Hx; exact Hx).
  split; [intro K; destruct (G _ K); congruence|]. split; [intro K; apply H10; apply (G _ K)|]. split; [intro K; apply H0; apply (G _ K)|apply trim_idem].
Qed.
Lemma vals_tame : forall name ls s, Forall (fun l => ~ In 10 l /\ ~ In 0 l) ls -> Forall tame (vals name s ls).
Proof.
  intros name ls. induction ls as [|l ls IH]; intros s F; cbn [vals]; [constructor|]. inversion F as [|? ? [H1 H2] F1]; subst. apply Forall_app. split; [|apply IH; exact F1].
  destruct (setsb _ _ _); [|constructor]. constructor; [apply value_tame; assumption|constructor].
Qed.
Lemma lines_of_chars : forall text, ~ In 0 text -> Forall (fun l => ~ In 10 l /\ ~ In 0 l) (lines_of text).
Proof.
  intros text H0. destruct (proj2 (lines_of_iff text (lines_of text)) eq_refl) as (full & rest & E & F & R & D).
  assert (G : Forall (fun l => ~ In 10 l /\ ~ In 0 l) (full ++ [rest])).
  { apply Forall_app. split.
    - rewrite Forall_forall in *. intros l Hl. split; [auto|]. intro Hz. apply H0. rewrite E. apply in_or_app. left. apply in_concat. exists (l ++ [10]). split; [apply in_map_iff; eauto|]. apply in_or_app. auto.
    - constructor; [|constructor]. split; [exact R|]. intro Hz. apply H0. rewrite E. apply in_or_app. auto. }
  destruct D as [[_ ->]|[_ ->]]; [apply Forall_app in G; tauto|exact G].
Qed.
Lemma last_forall : forall (P : list Z -> Prop) l d, P d -> Forall P l -> P (last l d).
Proof. intros P l d Hd F. destruct l as [|x l] using rev_ind; [exact Hd|]. rewrite last_last. apply Forall_app in F as [_ F]. inversion F; assumption. Qed.
Lemma tame_nil : tame [].
Proof. repeat split; auto. Qed.
Lemma from_file_tame : forall glob o, from_file glob o -> tame (o_table o) /\ Forall tame (o_preup o) /\ Forall tame (o_postup o) /\ Forall tame (o_predown o) /\ Forall tame (o_postdown o).
Proof.
  intros glob o (text & H0 & Hp). apply (parse_options_some _ _ _ H0) in Hp as ->. pose proof (lines_of_chars text H0) as F. cbn. rewrite !vals_trim.
  split; [apply last_forall; [apply tame_nil|apply vals_tame; exact F]|]. repeat split; apply vals_tame; exact F.
Qed.

(** ** Where the text that is written comes from *)
Section Written.
Variable sys : system.
Variable glob : list Z -> list (list Z).
Variable fuel : nat.
Variable ifc : list Z.
Variable o : options.
Variable conf : list Z.
Variable amp : bool.
Notation tmp := (temporary conf).
Definition quiet (c : command) : Prop := forall text, c <> mk_cmd [str ">"; tmp] text.
Definition writes_only (text : list Z) (c : command) : Prop := forall text', c = mk_cmd [str ">"; tmp] text' -> text' = text.
Lemma only_conseq : forall A (C D : command -> Prop) (m : prog A), only C m -> (forall c, C c -> D c) -> only D m.
Proof. intros A C D m H K s. destruct (H s) as (h & E & F). exists h. split; [exact E|]. revert F. apply Forall_impl. auto. Qed.
Lemma bystander_quiet : forall c, bystander c -> quiet c.
Proof. intros c H text ->. unfold bystander in H. discriminate H. Qed.
Lemma quiet_writes : forall text c, quiet c -> writes_only text c.
Proof. intros text c H text' ->. destruct (H text' eq_refl). Qed.
Lemma only_step : forall (C : command -> Prop) e ws input, C (mk_cmd ws input) -> only C (step_in sys e ws input).
Proof. intros C e ws input H. apply only_bind; [apply only_run; exact H|]. intro a. destruct (_ && _); [apply only_exit|apply only_ret]. Qed.
Ltac other_word := let t := fresh in let H := fresh in intros t H; discriminate H.
Lemma only_prepare : only quiet (prepare sys glob ifc o amp).
Proof.
  unfold prepare. apply only_bind; [eapply only_conseq; [apply calm_gather|apply bystander_quiet]|]. intro new. apply only_bind.
  - unfold query. apply only_bind; [apply only_run; other_word|]. intro. apply only_ret.
  - intro old. apply only_bind; [apply only_step; other_word|]. intros _. apply only_bind; [apply only_run; other_word|]. intro c. destruct (negb _); [apply only_exit|apply only_ret].
Qed.
Lemma only_replace : forall text, only (writes_only text) (replace_file sys conf text).
Proof.
  intro text. unfold replace_file. apply only_bind; [apply only_run; intros t E; injection E as ->; reflexivity|]. intro w. destruct (negb _); [apply only_exit|].
  apply only_bind; [apply only_step; apply quiet_writes; other_word|]. intros _. apply only_bind; [apply only_run; apply quiet_writes; other_word|].
  intro m. destruct (negb _); [apply only_exit|apply only_ret].
Qed.
Lemma only_exit_trap : forall (C : command -> Prop) A (m : prog A) st s, only C m -> exists h, snd (exit_trap m st s) = sh_hist s ++ h /\ Forall (fun ev => C (fst ev)) h.
Proof. intros C A m st s H. destruct (H s) as (h & E & F). exists h. unfold exit_trap. destruct (m s); cbn [QuickSaveProofs.ends snd] in *; auto. Qed.
Lemma only_guarded : forall (C : command -> Prop) A B (cl : prog A) (body : prog B) k s, only C cl -> only C body -> (forall b, only C (k b)) ->
  exists h, snd (guarded cl body k s) = sh_hist s ++ h /\ Forall (fun ev => C (fst ev)) h.
Proof.
  intros C A B cl body k s Hc Hb Hk. destruct (Hb s) as (h1 & E1 & F1). unfold guarded. destruct (body s) as [b s1|st s1|st s1|s1]; cbn [QuickSaveProofs.ends] in E1.
  - destruct (Hk b s1) as (h2 & E2 & F2). exists (h1 ++ h2). split; [rewrite app_assoc, <- E1; destruct (k b s1); cbn [QuickSaveProofs.ends snd] in *; exact E2|]. apply Forall_app. auto.
  - destruct (only_exit_trap C _ cl st s1 Hc) as (h2 & E2 & F2). exists (h1 ++ h2). rewrite E2, E1, app_assoc. split; [reflexivity|]. apply Forall_app. auto.
  - destruct (Hc s1) as (h2 & E2 & F2).
    assert (G : forall st1 s2, sh_hist s2 = sh_hist s1 ++ h2 -> exists h, snd (exit_trap cl st1 s2) = sh_hist s ++ h /\ Forall (fun ev => C (fst ev)) h).
    { intros st1 s2 E. destruct (only_exit_trap C _ cl st1 s2 Hc) as (h3 & E3 & F3). exists (h1 ++ h2 ++ h3). rewrite E3, E, E1, <- !app_assoc. split; [reflexivity|]. rewrite !Forall_app. auto. }
    destruct (cl s1) as [v s2|st2 s2|st2 s2|s2]; cbn [QuickSaveProofs.ends] in E2; try (apply G; exact E2). exists (h1 ++ h2). cbn [snd]. rewrite E2, E1, app_assoc. split; [reflexivity|]. apply Forall_app. auto.
  - exists h1. auto.
Qed.

Definition gathered (text : list Z) (h : history) : Prop := exists a c vs m,
  In (ask_addresses ifc, a) h /\ nameservers ifc h vs /\ mtu_found ifc o h m /\ In (ask_config ifc, c) h /\ a_status c = 0 /\
  text = saved_text amp (new_config o (expand glob (listed ifc (captured (a_output a)))) vs m) (captured (a_output c)).
Lemma gathered_more : forall text h1 h2 h3, gathered text h2 -> gathered text (h1 ++ h2 ++ h3).
Proof.
  intros text h1 h2 h3 (a & c & vs & m & Ha & (raw & ls & (p & r & H1 & H2) & Hc & Hp) & Hm & Hw & S & E).
  assert (L : forall ev, In ev h2 -> In ev (h1 ++ h2 ++ h3)) by (intros ev H; rewrite !in_app_iff; tauto). exists a, c, vs, m. split; [auto|]. split.
  { exists raw, ls. split; [|auto]. exists p, r. split; [auto|]. destruct H2 as [H2|(S2 & p2 & c2 & H2 & E2)]; [left; exact H2|]. right. split; [exact S2|]. exists p2, c2. auto. }
  split; [destruct Hm as [Hm|(N & l & Hl & El)]; [left; exact Hm|right; split; [exact N|]; exists l; auto]|]. auto.
Qed.
Definition source (k : shell -> outcome) : Prop := forall s, exists h, snd (k s) = sh_hist s ++ h /\ forall text, writes_text conf text h -> gathered text h.
Lemma quiet_writes_nothing : forall h text, Forall (fun ev => quiet (fst ev)) h -> ~ writes_text conf text h.
Proof. intros h text F (a & H). rewrite Forall_forall in F. exact (F _ H text eq_refl). Qed.
Lemma writes_app : forall h1 h2 text, writes_text conf text (h1 ++ h2) -> writes_text conf text h1 \/ writes_text conf text h2.
Proof. intros h1 h2 text (a & H). apply in_app_or in H as [H|H]; [left|right]; exists a; exact H. Qed.
Lemma source_after : forall A (m : prog A) (k : A -> shell -> outcome), only quiet m -> (forall a, source (k a)) -> source (followed m k).
Proof.
  intros A m k Hm Hk s. destruct (Hm s) as (h1 & E1 & F1). unfold followed. destruct (m s) as [a s1|st s1|st s1|s1]; cbn [QuickSaveProofs.ends] in E1.
  - destruct (Hk a s1) as (h2 & E2 & G2). exists (h1 ++ h2). split; [rewrite E2, E1, app_assoc; reflexivity|]. intros text W. apply writes_app in W as [W|W]; [destruct (quiet_writes_nothing _ _ F1 W)|].
    rewrite <- (app_nil_r h2). apply gathered_more, G2, W.
  - exists h1. split; [exact E1|]. intros text W. destruct (quiet_writes_nothing _ _ F1 W).
  - exists h1. split; [exact E1|]. intros text W. destruct (quiet_writes_nothing _ _ F1 W).
  - exists h1. split; [exact E1|]. intros text W. destruct (quiet_writes_nothing _ _ F1 W).
Qed.
Lemma source_save : forall rest : prog Z, calm rest -> source (save_config sys glob ifc o conf amp rest).
Proof.
  intros rest (_ & _ & Hr) s. unfold save_config, followed. destruct (only_prepare s) as (h1 & E1 & F1). pose proof (prepare_does sys glob ifc o amp s) as D.
  destruct (prepare sys glob ifc o amp s) as [[w text] s1|st s1|st s1|s1]; cbn [QuickSaveProofs.ends] in E1.
  2-4: exists h1; split; [exact E1|]; intros text W; destruct (quiet_writes_nothing _ _ F1 W).
  destruct (D _ _ eq_refl) as (h & E & G). rewrite E1 in E. apply app_inv_head in E. subst h. cbn [fst snd] in *.
  destruct (only_guarded (writes_only text) _ _ (step sys true [str "rm"; str "-f"; tmp_file conf]) (replace_file sys conf text) (fun _ => step sys true [str "umask"; w] ;;; rest) s1) as (h2 & E2 & F2).
  - apply only_step. apply quiet_writes. other_word.
  - apply only_replace.
  - intros _. apply only_bind; [apply only_step; apply quiet_writes; other_word|]. intros _. eapply only_conseq; [exact Hr|]. intros c Hc. apply quiet_writes, bystander_quiet, Hc.
  - exists (h1 ++ h2). rewrite E2, E1, app_assoc. split; [reflexivity|]. intros text' W. apply writes_app in W as [W|W]; [destruct (quiet_writes_nothing _ _ F1 W)|].
    destruct W as (a & W). rewrite Forall_forall in F2. rewrite (F2 _ W text' eq_refl). apply (gathered_more text [] h1 h2). destruct G as (a0 & c & vs & m & G). exists a0, c, vs, m. tauto.
Qed.
Lemma run_gathered : forall r text, a_saving_run sys glob fuel ifc o conf amp r -> writes_text conf text (snd r) -> gathered text (snd r).
Proof.
  intros r text Hr W.
  assert (S : exists k, r = k (mk_shell [] false false) /\ source k).
  { destruct Hr as [->|[-> Hs]].
    - eexists. split; [reflexivity|]. apply source_after; [eapply only_conseq; [apply calm_check|apply bystander_quiet]|]. intros _. apply source_save, calm_ret.
    - unfold cmd_down. rewrite Hs. eexists. split; [reflexivity|]. apply source_after; [eapply only_conseq; [apply calm_before|apply bystander_quiet]|]. intros _. apply source_save, calm_down_rest. }
  destruct S as (k & -> & Hk). destruct (Hk (mk_shell [] false false)) as (h & E & G). cbn [sh_hist app] in E. rewrite E in *. apply G, W.
Qed.
End Written.

(** ** The text, read *)
Lemma isspace_iff : forall c, isspace c = true <-> space c.
Proof. intro c. unfold isspace, space. lia. Qed.
Lemma spaceless_tame : forall w, Forall (fun c => ~ space c) w -> ~ In 35 w -> ~ In 0 w -> tame w.
Proof.
  intros w F H35 H0. split; [exact H35|]. split; [intro H; rewrite Forall_forall in F; apply (F 10 H); right; lia|]. split; [exact H0|].
  symmetry. apply (trimmed_iff isspace space isspace_iff). exists [], []. rewrite app_nil_r. split; [reflexivity|]. split; [constructor|]. split; [constructor|].
  destruct w as [|x w]; [left; reflexivity|]. right. destruct (exists_last (l := x :: w)) as (v & y & E); [discriminate|]. exists x, y, w, v. split; [reflexivity|]. split; [exact E|].
  rewrite Forall_forall in F. split; apply F; [left; reflexivity|]. rewrite E. apply in_or_app. right. left. reflexivity.
Qed.
Lemma server_spaceless : forall v, Forall server_letter v -> Forall (fun c => ~ space c) v /\ ~ In 35 v /\ ~ In 0 v /\ ~ In 38 v /\ ~ In 92 v /\ plain_word v /\ Forall (fun c => ~ separator c) v.
Proof.
  intros v F. assert (G : forall c, In c v -> server_letter c) by (apply Forall_forall; exact F). unfold server_letter in G. cbn in G.
  repeat split; try (apply Forall_forall); intros; unfold space, separator, not; cbn; intros; repeat match goal with H : In _ v |- _ => apply G in H end; lia.
Qed.
Lemma digit_letters : forall m, Forall (fun c => 48 <= c <= 57) m -> Forall server_letter m.
Proof. intros m. apply Forall_impl. intros c H. unfold server_letter. auto. Qed.
Lemma file_newlines : forall ls, Forall (fun l => ~ In 10 l) ls -> lines_of (newlines ls) = ls.
Proof.
  intros ls F. symmetry. apply lines_of_iff. exists ls, []. unfold newlines. rewrite app_nil_r. split; [reflexivity|]. split; [exact F|]. split; [intros []|]. left. split; [constructor|reflexivity].
Qed.
Lemma expand_self : forall glob ws, glob_plain glob -> Forall (fun w => plain_word w /\ w <> [] /\ Forall (fun c => ~ separator c) w) ws -> flat_map (list_words glob) ws = ws.
Proof.
  intros glob ws Hg F. induction F as [|w ws (P & N & S) F IH]; [reflexivity|]. cbn [flat_map]. rewrite IH. unfold list_words. destruct (map_char_word w S) as [-> _].
  rewrite expand_word by assumption. reflexivity.
Qed.
Lemma expand_self2 : forall glob f ws, glob_plain glob -> Forall (fun w => plain_word w /\ w <> [] /\ Forall (fun c => ~ separator c) w) ws -> flat_map (expand glob) (filter f ws) = filter f ws.
Proof.
  intros glob f ws Hg F. induction F as [|w ws (P & N & S) F IH]; [reflexivity|]. cbn [filter]. destruct (f w); [|exact IH]. cbn [flat_map]. rewrite IH, expand_word by assumption. reflexivity.
Qed.
Lemma filter_divide : forall ws, Forall (fun w => w <> []) ws -> divide server ws (filter dns_address ws) (filter (fun w => negb (dns_address w)) ws).
Proof.
  intros ws F. induction F as [|w ws N F IH]; cbn [filter]; [constructor|]. destruct (dns_address w) eqn:E; cbn [negb]; [apply dv_yes|apply dv_no]; try exact IH.
  - apply server_iff; assumption.
  - rewrite <- server_iff by assumption. congruence.
Qed.
Definition opt_list (m : option (list Z)) : list (list Z) := match m with Some x => [x] | None => [] end.
Lemma reload : forall glob o ws vs m ls, glob_plain glob ->
  tame (o_table o) -> Forall tame (o_preup o) -> Forall tame (o_postup o) -> Forall tame (o_predown o) -> Forall tame (o_postdown o) ->
  Forall (fun w => w <> [] /\ Forall (fun c => ~ separator c) w /\ ordinary w) ws -> Forall (fun v => v <> [] /\ Forall server_letter v) vs -> Forall (Forall (fun c => 48 <= c <= 57)) (opt_list m) ->
  Forall (fun l => ~ In 10 l /\ ~ In 0 l) ls -> kept true ls = ls ->
  let text := newlines (str "[Interface]" :: fields o ws vs m ++ ls) in
  ~ In 0 text /\ lines_of text = str "[Interface]" :: fields o ws vs m ++ ls /\ kept false (lines_of text) = str "[Interface]" :: ls /\
  exists o', parse_options glob text = Some o' /\ o_addresses o' = ws /\ divide server vs (o_dns o') (o_search o') /\ o_mtu o' = last (opt_list m) [] /\
    o_table o' = o_table o /\ o_save o' = o_save o /\ o_preup o' = o_preup o /\ o_postup o' = o_postup o /\ o_predown o' = o_predown o /\ o_postdown o' = o_postdown o /\
    o_config o' = newlines (map (trim blankb) (str "[Interface]" :: ls)).
Proof.
  intros glob o ws vs m ls Hg Tt T1 T2 T3 T4 Fw Fv Fm Fl Hk text.
  assert (Tw : Forall tame ws) by (revert Fw; apply Forall_impl; intros w (_ & _ & _ & S & A & _ & B); apply spaceless_tame; assumption).
  assert (Tv : Forall tame vs) by (revert Fv; apply Forall_impl; intros v (_ & S); apply server_spaceless in S as (S1 & S2 & S3 & _); apply spaceless_tame; assumption).
  assert (Tm : Forall tame (opt_list m)) by (revert Fm; apply Forall_impl; intros v S; apply digit_letters, server_spaceless in S as (S1 & S2 & S3 & _); apply spaceless_tame; assumption).
  set (tb := match o_table o with [] => [] | t => [t] end). set (sv := if o_save o then [str "true"] else []).
  assert (Ttb : Forall tame tb) by (unfold tb; destruct (o_table o); repeat constructor; apply Tt).
  assert (Tsv : Forall tame sv).
  { unfold sv. destruct (o_save o); [|constructor]. constructor; [|constructor]. split; [|split; [|split; [|reflexivity]]]; cbn; intuition discriminate. }
  assert (Fs : fields o ws vs m = map (fld "Address") ws ++ map (fld "DNS") vs ++ map (fld "MTU") (opt_list m) ++ map (fld "Table") tb ++ map (fld "SaveConfig") sv ++
    map (fld "PreUp") (o_preup o) ++ map (fld "PostUp") (o_postup o) ++ map (fld "PreDown") (o_predown o) ++ map (fld "PostDown") (o_postdown o)) by reflexivity.
  assert (Ff : forall k l, simple k = true -> Forall tame l -> Forall (fun x => ~ In 10 x /\ ~ In 0 x) (map (fld k) l)).
  { intros k l S F. apply Forall_map. revert F. apply Forall_impl. intros v (_ & A & B & _). unfold fld. split; intro H; rewrite !in_app_iff in H; destruct H as [H|[H|H]]; auto.
    - destruct (simple_chars _ _ S H) as (_ & _ & N & _). congruence.
    - cbn in H. intuition discriminate.
    - destruct (simple_chars _ _ S H) as (_ & _ & _ & N). congruence.
    - cbn in H. intuition discriminate. }
  assert (Fall : Forall (fun x => ~ In 10 x /\ ~ In 0 x) (str "[Interface]" :: fields o ws vs m ++ ls)).
  { constructor; [cbn; split; intuition discriminate|]. rewrite Fs, !Forall_app. repeat split; try (apply Ff; [reflexivity|assumption]). exact Fl. }
  assert (El : lines_of text = str "[Interface]" :: fields o ws vs m ++ ls) by (apply file_newlines; revert Fall; apply Forall_impl; tauto).
  assert (H0 : ~ In 0 text).
  { unfold text, newlines. intro H. apply in_concat in H as (x & Hx & H). apply in_map_iff in Hx as (l & <- & Hl). rewrite Forall_forall in Fall. destruct (Fall l Hl) as [_ A].
    apply in_app_or in H as [H|[H|[]]]; [auto|discriminate]. }
  assert (Vn : forall name, In name own_keys -> vals name true ls = []) by (apply kept_all_vals; exact Hk).
  assert (Vh : forall name, In name own_keys -> vals name false (lines_of text) = vals name true (fields o ws vs m ++ ls)).
  { intros name Hn. rewrite El. cbn [vals]. change (section_after false (str "[Interface]")) with true. cbv zeta.
    assert (E : setsb name true (str "[Interface]") = false) by (cbn in Hn; intuition subst; reflexivity). rewrite E. reflexivity. }
  assert (V : forall name, In name own_keys -> vals name false (lines_of text) =
    (if ci_eq (str "Address") (str name) then ws else []) ++ (if ci_eq (str "DNS") (str name) then vs else []) ++ (if ci_eq (str "MTU") (str name) then opt_list m else []) ++
    (if ci_eq (str "Table") (str name) then tb else []) ++ (if ci_eq (str "SaveConfig") (str name) then sv else []) ++
    (if ci_eq (str "PreUp") (str name) then o_preup o else []) ++ (if ci_eq (str "PostUp") (str name) then o_postup o else []) ++
    (if ci_eq (str "PreDown") (str name) then o_predown o else []) ++ (if ci_eq (str "PostDown") (str name) then o_postdown o else [])).
  { intros name Hn. rewrite Vh by exact Hn. rewrite Fs, <- !app_assoc. rewrite !vals_fields by (reflexivity || assumption). rewrite Vn by exact Hn. rewrite app_nil_r. reflexivity. }
  assert (Ek : kept false (lines_of text) = str "[Interface]" :: ls).
  { rewrite El. cbn [kept]. change (section_after false (str "[Interface]")) with true. cbv zeta. change (ownb true (str "[Interface]")) with false. cbv iota. cbn [app]. f_equal.
    rewrite Fs, <- !app_assoc. rewrite !kept_fields by (reflexivity || assumption). exact Hk. }
  split; [exact H0|]. split; [exact El|]. split; [exact Ek|].
  assert (OK : forall n, In n own_keys -> In n own_keys) by auto.
  rewrite parse_options_result by exact H0. 
  assert (VS : vals "SaveConfig" false (lines_of text) = sv) by (rewrite V by (cbn; tauto); cbn [ci_eq]; rewrite app_nil_r; reflexivity).
  rewrite VS. replace (forallb _ sv) with true by (unfold sv; destruct (o_save o); reflexivity).
  eexists. split; [reflexivity|]. unfold QuickProofs.result. rewrite dns_fields. cbn [o_config o_addresses o_mtu o_dns o_search o_table o_preup o_postup o_predown o_postdown o_save options0 app].
  rewrite !vals_trim, kept_trim, VS, Ek. rewrite !V by (cbn; tauto).
  assert (W : Forall (fun w => plain_word w /\ w <> [] /\ Forall (fun c => ~ separator c) w) ws) by (revert Fw; apply Forall_impl; unfold ordinary; tauto).
  assert (X : Forall (fun w => plain_word w /\ w <> [] /\ Forall (fun c => ~ separator c) w) vs) by (revert Fv; apply Forall_impl; intros v (N & S); apply server_spaceless in S; tauto).
  repeat match goal with |- context [ci_eq (str ?a) (str ?b)] => let r := eval vm_compute in (ci_eq (str a) (str b)) in change (ci_eq (str a) (str b)) with r end.
  cbv iota. cbn [app]. rewrite !app_nil_r.
  split; [apply expand_self; assumption|]. split; [rewrite expand_self by assumption; rewrite !expand_self2 by assumption; apply filter_divide; revert X; apply Forall_impl; tauto|].
  split; [reflexivity|]. split; [unfold tb; destruct (o_table o); reflexivity|]. split; [unfold sv; destruct (o_save o); reflexivity|]. repeat split; reflexivity.
Qed.

Lemma picks_all : forall ls pre vs, picks (fun _ => nameserver_line) pre ls vs -> Forall (fun v => v <> [] /\ Forall server_letter v) vs.
Proof. intros ls pre vs H. induction H as [|? ? ? ? ? (_ & N & F) _ IH|]; [constructor|constructor; auto|assumption]. Qed.
Lemma unaffected_newlines : forall k l c, (c = 38 \/ c = 92) -> (c = 38 \/ c = 92 -> ~ In c (str k)) -> Forall (fun v => ~ In c v) l -> ~ In c (newlines (map (fld k) l)).
Proof.
  intros k l c Hc Hk F H. unfold newlines in H. apply in_concat in H as (x & Hx & H). apply in_map_iff in Hx as (y & <- & Hy). apply in_map_iff in Hy as (v & <- & Hv).
  rewrite Forall_forall in F. unfold fld in H. rewrite !in_app_iff in H. destruct H as [[H|[H|H]]|[H|[]]].
  - exact (Hk Hc H).
  - cbn in H. lia.
  - exact (F v Hv H).
  - lia.
Qed.
Section Main.
Variable sys : system.
Variable glob : list Z -> list (list Z).
Variable fuel : nat.
Variable ifc : list Z.
Variable o : options.
Variable conf : list Z.
Variable amp : bool.

Lemma saved_is : forall r text ws ls, a_saving_run sys glob fuel ifc o conf amp r -> writes_text conf text (snd r) ->
  from_file glob o -> glob_plain glob -> ~ In 43 ifc -> (amp = true -> Forall unaffected (o_table o :: hooks_of o)) ->
  (forall a, In (ask_addresses ifc, a) (snd r) -> brief ifc (captured (a_output a)) ws) -> Forall ordinary ws ->
  (forall c, In (ask_config ifc, c) (snd r) -> config_lines (a_output c) ls) -> not_own ls ->
  ~ In 0 text /\ (exists lines, file_lines text lines /\ others lines (str "[Interface]" :: ls)) /\ exists o', parse_options glob text = Some o' /\ reloaded ifc (snd r) o ws ls o'.
Proof.
  intros r text ws ls Hr Hw Ho Hg H43 Ha Hb Ford Hc Hn. destruct (run_gathered _ _ _ _ _ _ _ _ _ Hr Hw) as (a & c & vs & m & Ia & Nv & Mm & Ic & Sc & ->).
  specialize (Hb a Ia). specialize (Hc c Ic).
  destruct (from_file_tame glob o Ho) as (Tt & T1 & T2 & T3 & T4).
  assert (Ew : expand glob (listed ifc (captured (a_output a))) = ws).
  { unfold expand. rewrite (listed_brief ifc _ ws H43 Hb). clear - Ford Hg. induction Ford as [|w ws (P & _) _ IH]; [reflexivity|]. cbn [flat_map]. rewrite (Hg w P), IH. reflexivity. }
  rewrite Ew. rewrite new_config_lines.
  assert (Fw : Forall (fun w => w <> [] /\ Forall (fun c => ~ separator c) w /\ ordinary w) ws).
  { destruct Hb as (? & ? & ? & _ & _ & _ & _ & _ & _ & _ & He). apply entries_nonempty in He. clear - He Ford. rewrite Forall_forall in *. intros w Hi. specialize (He w Hi). specialize (Ford w Hi). tauto. }
  assert (Fv : Forall (fun v => v <> [] /\ Forall server_letter v) vs) by (destruct Nv as (raw & l & _ & _ & Hp); eapply picks_all; exact Hp).
  assert (Fm : Forall (Forall (fun c => 48 <= c <= 57)) (opt_list m)).
  { destruct Mm as [[_ ->]|(_ & l & _ & ->)]; [constructor|]. pose proof (find_field_spec (str "mtu ") digit _ digit_iff (captured (a_output l))) as H. destruct (find_field _ _ _); [|constructor].
    destruct H as (? & ? & _ & _ & F & _). constructor; [exact F|constructor]. }
  assert (Fl : Forall (fun l => ~ In 10 l /\ ~ In 0 l) ls).
  { destruct Hc as (k & E & N0 & F10 & _). rewrite Forall_forall in *. intros l Hl. split; [auto|]. intro H. apply N0. rewrite E. apply in_or_app. left. apply in_concat. exists (l ++ [10]).
    split; [apply in_map_iff; exists l; split; [reflexivity|right; exact Hl]|]. apply in_or_app. auto. }
  assert (Hk : kept true ls = ls).
  { unfold not_own in Hn. apply others_iff in Hn. cbn [kept] in Hn. change (section_after false (str "[Interface]")) with true in Hn. cbv zeta in Hn. change (ownb true (str "[Interface]")) with false in Hn.
    cbv iota in Hn. cbn [app] in Hn. injection Hn as Hn. symmetry. exact Hn. }
  assert (Hs : saved_text amp (newlines (str "[Interface]" :: fields o ws vs m)) (captured (a_output c)) = newlines (str "[Interface]" :: fields o ws vs m ++ ls)).
  { apply saved_lines; [exact Hc|]. intro Hamp. specialize (Ha Hamp). pose proof (Forall_inv Ha) as Ut. pose proof (Forall_inv_tail Ha) as Uh. unfold hooks_of in Uh. rewrite !Forall_app in Uh. destruct Uh as (U1 & U2 & U3 & U4).
    assert (G : forall ch, (ch = 38 \/ ch = 92) -> ~ In ch (newlines (fields o ws vs m))).
    { intros ch Hch. unfold fields. rewrite !newlines_app. intro H. repeat rewrite in_app_iff in H.
      assert (Uu : forall l, Forall unaffected l -> Forall (fun v => ~ In ch v) l) by (intro l; apply Forall_impl; intros v [A B]; destruct Hch as [-> | ->]; assumption).
      repeat (destruct H as [H|H]); revert H; apply unaffected_newlines; try exact Hch; try (intros _; cbn; lia); try (apply Uu; assumption).
      - revert Fw. apply Forall_impl. intros w (_ & _ & P & _ & _ & A & _). destruct Hch as [-> | ->]; [exact A|]. intro H. unfold plain_word in P. rewrite Forall_forall in P. apply (P 92 H). cbn. tauto.
      - revert Fv. apply Forall_impl. intros v (_ & S). apply server_spaceless in S. destruct Hch as [-> | ->]; tauto.
      - fold (opt_list m). revert Fm. apply Forall_impl. intros v S. apply digit_letters, server_spaceless in S. destruct Hch as [-> | ->]; tauto.
      - destruct (o_table o) eqn:E; [constructor|]. apply Uu. constructor; [exact Ut|constructor].
      - destruct (o_save o); [|constructor]. constructor; [cbn; lia|constructor]. }
    split; apply G; auto. }
  rewrite Hs. destruct (reload glob o ws vs m ls Hg Tt T1 T2 T3 T4 Fw Fv Fm Fl Hk) as (H0 & El & Ek & o' & Ep & R1 & R2 & R3 & R4 & R5 & R6 & R7 & R8 & R9 & R10).
  split; [exact H0|]. split; [eexists; split; [apply lines_of_iff; reflexivity|]; apply others_iff; symmetry; exact Ek|]. exists o'. split; [exact Ep|].
  split; [exact R1|]. split; [exists vs; auto|]. split.
  { destruct Mm as [[E ->]|(N & l & Il & ->)]; [left; auto|]. right. split; [exact N|]. exists l. split; [exact Il|].
    pose proof (find_field_spec (str "mtu ") digit _ digit_iff (captured (a_output l))) as H. destruct (find_field _ _ _) as [d|]; rewrite R3; cbn [opt_list last].
    - left. exact H.
    - right. split; [|reflexivity]. intros n (d & (x & y & E & Nd & Fd & _) & _). destruct d as [|ch d]; [contradiction|]. inversion Fd; subst. eapply H; [rewrite E; reflexivity|assumption]. }
  repeat (split; [assumption|]). eexists. split; [|exact R10]. apply Forall2_trim. reflexivity.
Qed.

(** Reading the saved text gives the addresses, name servers and MTU the interface had, and the other settings as they were. *)
Theorem C50_reload : forall r text ws ls, a_saving_run sys glob fuel ifc o conf amp r -> writes_text conf text (snd r) ->
  from_file glob o -> glob_plain glob -> ~ In 43 ifc -> (amp = true -> Forall unaffected (o_table o :: hooks_of o)) ->
  (forall a, In (ask_addresses ifc, a) (snd r) -> brief ifc (captured (a_output a)) ws) -> Forall ordinary ws ->
  (forall c, In (ask_config ifc, c) (snd r) -> config_lines (a_output c) ls) -> not_own ls ->
  exists o', parse_options glob text = Some o' /\ reloaded ifc (snd r) o ws ls o'.
Proof. intros. edestruct saved_is as (_ & _ & H'); eauto. Qed.

(** After a run that reports success the configuration file is one that reads like this. *)
Theorem C50_saved_file : forall r d0 old d ws ls, a_saving_run sys glob fuel ifc o conf amp r -> settled d0 conf old ->
  fst r = Some 0 -> undisturbed (snd r) -> QuickSaveSpec.after d0 (snd r) d ->
  from_file glob o -> glob_plain glob -> ~ In 43 ifc -> (amp = true -> Forall unaffected (o_table o :: hooks_of o)) ->
  (forall a, In (ask_addresses ifc, a) (snd r) -> brief ifc (captured (a_output a)) ws) -> Forall ordinary ws ->
  (forall c, In (ask_config ifc, c) (snd r) -> config_lines (a_output c) ls) -> not_own ls ->
  exists f o', d_file d conf = Some f /\ parse_options glob (f_data f) = Some o' /\ reloaded ifc (snd r) o ws ls o'.
Proof.
  intros r d0 old d ws ls Hr Hd St U Ha Ho Hg H43 Hamp Hb Fo Hc Hn. edestruct C41_success as (_ & _ & text & f & W & Ef & <- & _); eauto.
  destruct (C50_reload r (f_data f) ws ls) as (o' & Ep & R); auto. exists f, o'. auto.
Qed.
End Main.
