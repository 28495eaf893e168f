(** C40: what wg-quick makes of a configuration file.  Statements use [parse_options] (Quick.v), QuickSpec and, for what wg makes of the
    rest, [read_config] (Config.v). *)
From Coq Require Import String ZArith List Bool Lia.
From Verif Require Import Base Ctype Cstr CstrProofs Types Config ConfigSpec ConfigProofs Uapi Bash Quick QuickSpec QuickProofs.
Import ListNotations.
Open Scope Z_scope.

Definition newlines (ls : list (list Z)) : list Z := concat (map (fun l => l ++ [10]) ls).

(** ** The file is taken unless a SaveConfig line is neither true nor false. *)
Definition truth (v : list Z) : Prop := ci v (str "true") \/ ci v (str "false").

Lemma read_bool_truth : forall v, (exists b, read_bool v = Some b) <-> truth v.
Proof.
  intro v. unfold read_bool, truth. rewrite <- !ci_eq_ci. destruct (ci_eq v (str "true")); [split; eauto|].
  destruct (ci_eq v (str "false")); split; eauto.
  - intros (b & H). discriminate.
  - intros [H|H]; discriminate.
Qed.

Lemma parse_options_result : forall glob text, ~ In 0 text ->
  parse_options glob text =
  if forallb (fun v => match read_bool v with Some _ => true | None => false end) (vals "SaveConfig" false (lines_of text))
  then Some (result glob false (map (trim blankb) (lines_of text)) options0) else None.
Proof.
  intros glob text H. unfold parse_options. rewrite read_loop_lines by exact H. rewrite parse_loop_result, vals_trim. reflexivity.
Qed.

Theorem C40_accepted : forall glob text lines saves, ~ In 0 text -> file_lines text lines -> values "SaveConfig" lines saves ->
  ((exists o, parse_options glob text = Some o) <-> Forall truth saves).
Proof.
  intros glob text lines saves H0 Hl Hs. apply lines_of_iff in Hl as ->. apply values_iff in Hs as ->.
  rewrite parse_options_result by exact H0. rewrite Forall_forall. split.
  - intros (o & Ho) v Hv. destruct (forallb _ _) eqn:E; [|discriminate]. rewrite forallb_forall in E. specialize (E v Hv).
    apply read_bool_truth. destruct (read_bool v); [eauto|discriminate].
  - intro H. replace (forallb _ _) with true; [eauto|]. symmetry. apply forallb_forall. intros v Hv. specialize (H v Hv).
    apply read_bool_truth in H as (b & ->). reflexivity.
Qed.

Lemma parse_options_some : forall glob text o, ~ In 0 text -> parse_options glob text = Some o ->
  o = result glob false (map (trim blankb) (lines_of text)) options0.
Proof.
  intros glob text o H0 H. rewrite parse_options_result in H by exact H0. destruct (forallb _ _); [congruence|discriminate].
Qed.

(** ** What wg gets: the other lines, in order, without blanks around them. *)
Theorem C40_handed : forall glob text lines kept o, ~ In 0 text -> file_lines text lines -> others lines kept ->
  parse_options glob text = Some o ->
  exists ls, Forall2 (trimmed blank) kept ls /\ o_config o = newlines ls.
Proof.
  intros glob text lines kept o H0 Hl Hk Ho. apply lines_of_iff in Hl as ->. apply others_iff in Hk as ->.
  apply (parse_options_some _ _ _ H0) in Ho as ->. exists (map (trim blankb) (QuickProofs.kept false (lines_of text))).
  split; [apply Forall2_trim; reflexivity|]. cbn. rewrite kept_trim. reflexivity.
Qed.

(** ** Its own settings: lists in the order of the file, single values from the last line. *)
Theorem C40_hooks : forall glob text lines o, ~ In 0 text -> file_lines text lines -> parse_options glob text = Some o ->
  values "PreUp" lines (o_preup o) /\ values "PostUp" lines (o_postup o) /\
  values "PreDown" lines (o_predown o) /\ values "PostDown" lines (o_postdown o).
Proof.
  intros glob text lines o H0 Hl Ho. apply lines_of_iff in Hl as ->. apply (parse_options_some _ _ _ H0) in Ho as ->. cbn.
  rewrite !vals_trim. repeat split; apply values_iff; reflexivity.
Qed.

Theorem C40_single : forall glob text lines o mtus tables saves, ~ In 0 text -> file_lines text lines -> parse_options glob text = Some o ->
  values "MTU" lines mtus -> values "Table" lines tables -> values "SaveConfig" lines saves ->
  o_mtu o = last mtus [] /\ o_table o = last tables [] /\ (o_save o = true <-> ci (last saves (str "false")) (str "true")).
Proof.
  intros glob text lines o ms ts ss H0 Hl Ho Hm Ht Hs. apply lines_of_iff in Hl as ->.
  apply values_iff in Hm as ->. apply values_iff in Ht as ->. apply values_iff in Hs as ->.
  rewrite parse_options_result in Ho by exact H0. destruct (forallb _ _) eqn:E; [|discriminate]. injection Ho as <-. cbn.
  rewrite !vals_trim. split; [reflexivity|]. split; [reflexivity|]. revert E. generalize (vals "SaveConfig" false (lines_of text)). intros vs E.
  destruct vs as [|v vs] using rev_ind; [cbn; split; [discriminate|intro H; discriminate H]|]. clear IHvs.
  rewrite fold_left_app, last_last. cbn [fold_left]. rewrite forallb_app in E. apply andb_true_iff in E as [_ E]. cbn in E.
  rewrite andb_true_r in E. unfold bool_of. unfold read_bool in *. change [116; 114; 117; 101] with (str "true").
  rewrite <- ci_eq_ci. destruct (ci_eq v (str "true")); [tauto|].
  destruct (ci_eq v (str "false")); [split; discriminate|discriminate].
Qed.

(** The entries of list values. *)
Lemma words_word : forall w acc s, Forall (fun c => ifsb c = false) w -> words_go acc (w ++ s) = words_go (rev w ++ acc) s.
Proof.
  induction w as [|y w IH]; intros acc s Hl; [reflexivity|]. cbn [words_go app]. inversion Hl; subst. rewrite H1. rewrite IH by assumption.
  cbn [rev]. rewrite <- app_assoc. reflexivity.
Qed.
Lemma words_sep : forall a s, Forall (fun c => ifsb c = true) a -> words_go [] (a ++ s) = words_go [] s.
Proof. induction a as [|y a IH]; intros s H; [reflexivity|]. inversion H; subst. cbn [app words_go]. rewrite H2. cbn [app]. apply IH. assumption. Qed.

Lemma ifs_comma : forall c, ifsb (if c =? 44 then 32 else c) = true <-> separator c.
Proof.
  intro c. unfold separator. destruct (Z.eqb_spec c 44) as [->|N].
  - split; [auto|reflexivity].
  - unfold ifsb, blankb. rewrite !orb_true_iff, !Z.eqb_eq. split; [tauto|]. intros [|[|[|]]]; try contradiction; tauto.
Qed.
Lemma map_char_word : forall w, Forall (fun c => ~ separator c) w -> map_char 44 32 w = w /\ Forall (fun c => ifsb c = false) w.
Proof.
  induction w as [|c w IH]; intro H; [split; [reflexivity|constructor]|]. inversion H; subst. destruct (IH H3) as [E1 E2].
  assert (Hc : ifsb (if c =? 44 then 32 else c) = false).
  { destruct (ifsb _) eqn:E; [|reflexivity]. exfalso. apply H2, ifs_comma, E. }
  destruct (Z.eqb_spec c 44) as [->|N]; [discriminate Hc|]. split; [|constructor; assumption].
  cbn [map_char map]. fold (map_char 44 32 w). rewrite E1. f_equal. destruct (Z.eqb_spec c 44); [contradiction|reflexivity].
Qed.
Lemma map_char_sep : forall a, Forall separator a -> Forall (fun c => ifsb c = true) (map_char 44 32 a).
Proof. intros a H. unfold map_char. apply Forall_map. revert H. apply Forall_impl. intros c Hc. apply ifs_comma, Hc. Qed.

Lemma entries_words : forall v ws, entries v ws -> words (map_char 44 32 v) = ws.
Proof.
  intros v ws H. unfold words. induction H as [s Hs|a w b ws Ha Hn Hw Hb H IH].
  - rewrite <- (app_nil_r (map_char 44 32 s)). rewrite words_sep by (apply map_char_sep, Hs). reflexivity.
  - unfold map_char in *. rewrite !map_app. fold (map_char 44 32 a) (map_char 44 32 w) (map_char 44 32 b) in *.
    rewrite words_sep by (apply map_char_sep, Ha). destruct (map_char_word w Hw) as [Ew Ei]. rewrite Ew.
    rewrite words_word by exact Ei. rewrite app_nil_r.
    assert (Hr : rev w <> []) by (intro E; apply Hn; rewrite <- (rev_involutive w), E; reflexivity).
    destruct Hb as [->|(c & b' & -> & Hc)].
    + cbn [map_char map words_go]. cbn [map_char map words_go] in IH. destruct (rev w) eqn:E; [contradiction|]. rewrite <- E, rev_involutive. congruence.
    + cbn [map_char map] in *. fold (map_char 44 32 b') in *. apply ifs_comma in Hc. cbn [words_go] in *. rewrite Hc in *.
      destruct (rev w) eqn:E; [contradiction|]. rewrite <- E, rev_involutive. cbn [app] in *. f_equal. exact IH.
Qed.
Lemma entries_nonempty : forall v ws, entries v ws -> Forall (fun w => w <> [] /\ Forall (fun c => ~ separator c) w) ws.
Proof. intros v ws H. induction H; constructor; auto. Qed.

Lemma expand_word : forall glob w, glob_plain glob -> plain_word w -> w <> [] -> Forall (fun c => ~ separator c) w -> expand glob w = [w].
Proof.
  intros glob w Hg Hp Hn Hs. unfold expand. destruct (map_char_word w Hs) as [_ Hi].
  replace (words w) with [w]; [cbn; rewrite (Hg w Hp); reflexivity|]. unfold words. rewrite <- (app_nil_r w) at 2. rewrite words_word by exact Hi.
  rewrite app_nil_r. cbn. destruct (rev w) eqn:E; [exfalso; apply Hn; rewrite <- (rev_involutive w), E; reflexivity|]. rewrite <- E, rev_involutive. reflexivity.
Qed.

Lemma list_words_concat : forall glob vs wss, glob_plain glob -> Forall2 entries vs wss -> Forall (Forall plain_word) wss ->
  flat_map (list_words glob) vs = concat wss.
Proof.
  intros glob vs wss Hg H. induction H as [|v ws vs wss Hv H IH]; intro Hp; [reflexivity|]. inversion Hp; subst. cbn [flat_map concat].
  rewrite IH by assumption. f_equal. unfold list_words, expand. rewrite (entries_words v ws Hv). clear - Hg H2.
  induction ws as [|w ws IH]; [reflexivity|]. inversion H2; subst. cbn. rewrite (Hg w) by assumption. cbn. f_equal. apply IH. assumption.
Qed.

Theorem C40_addresses : forall glob text lines o vs wss, glob_plain glob -> ~ In 0 text -> file_lines text lines ->
  parse_options glob text = Some o -> values "Address" lines vs -> Forall2 entries vs wss -> Forall (Forall plain_word) wss ->
  o_addresses o = concat wss.
Proof.
  intros glob text lines o vs wss Hg H0 Hl Ho Hv He Hp. apply lines_of_iff in Hl as ->. apply values_iff in Hv as ->.
  apply (parse_options_some _ _ _ H0) in Ho as ->. cbn. rewrite vals_trim. apply list_words_concat; assumption.
Qed.

Lemma server_iff : forall w, w <> [] -> (dns_address w = true <-> server w).
Proof.
  intros w Hn. unfold dns_address, server. rewrite orb_true_iff, andb_true_iff, has_char_In, negb_true_iff, forallb_forall, Forall_forall, beq_neq.
  split.
  - intros [[H _]|H]; [right|left; exact H]. intros c Hc. specialize (H c Hc). rewrite orb_true_iff, andb_true_iff, !Z.leb_le, Z.eqb_eq in H. tauto.
  - intros [H|H]; [right; exact H|left]. split; [|exact Hn]. intros c Hc. specialize (H c Hc). rewrite orb_true_iff, andb_true_iff, !Z.leb_le, Z.eqb_eq. tauto.
Qed.
Lemma divide_filter : forall ws a b, Forall (fun w => w <> []) ws -> divide server ws a b ->
  a = filter dns_address ws /\ b = filter (fun w => negb (dns_address w)) ws.
Proof.
  intros ws a b H D. induction D as [|w ws a b Hw D IH|w ws a b Hw D IH]; [split; reflexivity| |]; inversion H; subst;
    destruct (IH H3) as [-> ->]; rewrite <- server_iff in Hw by assumption; cbn [filter].
  - rewrite Hw. split; reflexivity.
  - destruct (dns_address w); [contradiction Hw; reflexivity|]. split; reflexivity.
Qed.

(** DNS entries: servers and search domains. *)
Theorem C40_dns : forall glob text lines o vs wss servers domains, glob_plain glob -> ~ In 0 text -> file_lines text lines ->
  parse_options glob text = Some o -> values "DNS" lines vs -> Forall2 entries vs wss -> Forall (Forall plain_word) wss ->
  divide server (concat wss) servers domains -> o_dns o = servers /\ o_search o = domains.
Proof.
  intros glob text lines o vs wss sv dm Hg H0 Hl Ho Hv He Hp Hd. apply lines_of_iff in Hl as ->. apply values_iff in Hv as ->.
  apply (parse_options_some _ _ _ H0) in Ho as ->. unfold result. rewrite dns_fields. cbn [o_dns o_search options0 app]. rewrite vals_trim.
  rewrite (list_words_concat _ _ wss) by assumption.
  assert (W : Forall (fun w => w <> [] /\ Forall (fun c => ~ separator c) w /\ plain_word w) (concat wss)).
  { clear Hd. revert Hp. induction He as [|v ws vs' wss Hv He IH]; intro Hp; cbn [concat]; [constructor|]. inversion Hp; subst.
    apply Forall_app. split; [|apply IH; assumption]. apply entries_nonempty in Hv. rewrite Forall_forall in *. intros w Hw.
    destruct (Hv w Hw). auto. }
  assert (X : forall f, flat_map (expand glob) (filter f (concat wss)) = filter f (concat wss)).
  { intro f. clear - W Hg. induction (concat wss) as [|w ws IH]; [reflexivity|]. inversion W; subst. cbn [filter]. destruct (f w); [|apply IH; assumption].
    cbn [flat_map]. destruct H1 as (A & B & C). rewrite expand_word by assumption. cbn. f_equal. apply IH. assumption. }
  rewrite !X. apply divide_filter in Hd as [-> ->]; [auto|]. revert W. apply Forall_impl. tauto.
Qed.

(** ** wg reads the text it is handed as it would read the file without wg-quick's lines. *)
Lemma getlines_newlines : forall ls rest, Forall (fun l => ~ In 10 l) ls ->
  getlines (newlines ls ++ rest) = map (fun l => l ++ [10]) ls ++ getlines rest.
Proof.
  induction ls as [|l ls IH]; intros rest H; [reflexivity|]. inversion H; subst. unfold newlines. cbn [map concat]. fold (newlines ls).
  rewrite <- app_assoc. cbn [app]. rewrite <- IH by assumption. generalize (newlines ls ++ rest). intro t. clear - H2.
  induction l as [|c l IHl]; cbn [app getlines].
  - reflexivity.
  - destruct (Z.eqb_spec c 10) as [->|N]; [exfalso; apply H2; left; reflexivity|].
    rewrite <- app_assoc in *. cbn [app] in *. rewrite IHl by (intro; apply H2; right; assumption). reflexivity.
Qed.

Lemma read_config_clean : forall e append ls ms, Forall2 (fun a b => clean_line e (cstring a) = clean_line e (cstring b)) ls ms ->
  read_config e append ls = read_config e append ms.
Proof.
  intros e append ls ms H. unfold read_config.
  assert (G : forall c, read_lines e c (map cstring ls) = read_lines e c (map cstring ms)).
  { induction H as [|a b ls ms Hab H IH]; intro c; [reflexivity|]. cbn [map read_lines]. unfold config_read_line. rewrite Hab.
    destruct (clean_line e (cstring b)); [apply IH|]. destruct (process_line _ _ _); [apply IH|reflexivity]. }
  rewrite G. reflexivity.
Qed.
Lemma read_config_blank_end : forall e append ls l, clean_line e (cstring l) = [] -> read_config e append (ls ++ [l]) = read_config e append ls.
Proof.
  intros e append ls l H. unfold read_config.
  assert (G : forall c, read_lines e c (map cstring (ls ++ [l])) = read_lines e c (map cstring ls)).
  { induction ls as [|a ls IH]; intro c; cbn [app map read_lines].
    - unfold config_read_line. rewrite H. reflexivity.
    - destruct (config_read_line e c (cstring a)); [apply IH|reflexivity]. }
  rewrite G. reflexivity.
Qed.

Lemma clean_space : forall e a, Forall (fun c => blankb c = true \/ c = 10) a ->
  filter (fun c => negb (char_is_space (char_val (e_sg e) c))) a = [].
Proof.
  intros e a H. induction H as [|c a Hc H IH]; [reflexivity|]. cbn [filter]. rewrite IH.
  assert (c = 32 \/ c = 9 \/ c = 10) as D.
  { destruct Hc as [Hc|Hc]; [apply blankb_blank in Hc; destruct Hc; auto|auto]. }
  destruct D as [-> |[-> | ->]]; destruct (e_sg e); reflexivity.
Qed.

Lemma cstring_id : forall l, ~ In 0 l -> cstring l = l.
Proof. intros l H. unfold cstring. rewrite (proj2 (split_first_none 0 l) H). reflexivity. Qed.

Lemma clean_line_before : forall e l, clean_line e l = filter (fun c => negb (char_is_space (char_val (e_sg e) c))) (before 35 l).
Proof. reflexivity. Qed.

Lemma clean_line_around : forall e a t b, Forall (fun c => blankb c = true \/ c = 10) a -> Forall (fun c => blankb c = true \/ c = 10) b ->
  clean_line e (a ++ t ++ b) = clean_line e t.
Proof.
  intros e a t b Ha Hb.
  assert (N : forall x, Forall (fun c => blankb c = true \/ c = 10) x -> ~ In 35 x).
  { intros x Hx Hi. rewrite Forall_forall in Hx. destruct (Hx 35 Hi) as [H|H]; discriminate. }
  rewrite !clean_line_before. rewrite before_blank_l by (apply N, Ha). rewrite filter_app, clean_space by exact Ha. cbn [app].
  destruct (before_app 35 t b (N b Hb)) as (b' & -> & D). rewrite filter_app. destruct D as [-> | ->]; [|rewrite (clean_space e b Hb)]; apply app_nil_r.
Qed.

Theorem C40_wg_reads_the_rest : forall glob e append text lines kept o, ~ In 0 text -> file_lines text lines -> others lines kept ->
  parse_options glob text = Some o ->
  read_config e append (getlines (handed o)) = read_config e append kept.
Proof.
  intros glob e append text lines kept o H0 Hl Hk Ho.
  assert (Hz : Forall (fun l => ~ In 0 l /\ ~ In 10 l) lines).
  { destruct Hl as (full & rest & -> & Hf & Hr & Hc).
    assert (Hz : Forall (fun l => ~ In 0 l /\ ~ In 10 l) (full ++ [rest])).
    { apply Forall_app. split.
      - rewrite Forall_forall in *. intros l Hl. split; [|apply Hf, Hl]. intro Hi. apply H0, in_or_app. left.
        apply in_concat. exists (l ++ [10]). split; [apply in_map_iff; eauto|apply in_or_app; left; exact Hi].
      - constructor; [|constructor]. split; [|exact Hr]. intro Hi. apply H0, in_or_app. right. exact Hi. }
    destruct Hc as [[_ ->]|[_ ->]]; [apply Forall_app in Hz; tauto|exact Hz]. }
  destruct (C40_handed glob text lines kept o H0 Hl Hk Ho) as (ls & Ht & Hc).
  assert (Hkz : Forall (fun l => ~ In 0 l /\ ~ In 10 l) kept).
  { clear - Hk Hz. unfold others in Hk. revert Hz. induction Hk as [|pre l ls v vs [-> _] H IH|pre l ls vs _ H IH]; intro Hz; [constructor| |];
      inversion Hz; subst; [constructor; [assumption|]|]; apply IH; assumption. }
  apply Forall2_trim in Ht as ->.
  assert (Hln : Forall (fun l => ~ In 0 l /\ ~ In 10 l) (map (trim blankb) kept)).
  { apply Forall_map. revert Hkz. apply Forall_impl. intros l [A B]. destruct (trim_parts l) as (a & b & E & _ & _).
    split; intro Hi; [apply A|apply B]; rewrite E; apply in_or_app; right; apply in_or_app; left; exact Hi. }
  unfold handed. rewrite Hc. rewrite getlines_newlines by (revert Hln; apply Forall_impl; tauto).
  change (getlines [10]) with [[10]]. rewrite read_config_blank_end by (destruct e as [[] ? ? ? ?]; reflexivity).
  apply read_config_clean. clear - Hkz. induction Hkz as [|l ls [H0 H10] Hk IH]; [constructor|]. cbn [map]. constructor; [|exact IH].
  destruct (trim_parts l) as (a & b & E & Ha & Hb).
  assert (Hl0 : ~ In 0 (trim blankb l ++ [10])).
  { intro Hi. apply in_app_or in Hi as [Hi|[Hi|[]]]; [|discriminate]. apply H0. rewrite E. apply in_or_app. right. apply in_or_app. left. exact Hi. }
  rewrite !cstring_id by assumption. set (t := trim blankb l) in *.
  assert (J : forall x, Forall (fun c => blankb c = true) x -> Forall (fun c => blankb c = true \/ c = 10) x).
  { intro x. apply Forall_impl. auto. }
  rewrite E. rewrite (clean_line_around e a t b) by (apply J; assumption).
  change (t ++ [10]) with ([] ++ t ++ [10]). apply clean_line_around; constructor; auto.
Qed.

(** ** The interface name: from the file name; at most 15 characters, so it is the one wg uses. *)
Lemma is_name_iff : forall s, is_name s = true <->
  (1 <= length s <= 15)%nat /\ Forall (fun c => name_char c = true) s.
Proof.
  intro s. unfold is_name. rewrite !andb_true_iff, !Nat.leb_le, forallb_forall, Forall_forall. tauto.
Qed.
Definition name_letter (c : Z) : Prop :=
  97 <= c <= 122 \/ 65 <= c <= 90 \/ 48 <= c <= 57 \/ In c (str "_=+.-").
Lemma name_char_iff : forall c, name_char c = true <-> name_letter c.
Proof.
  intro c. unfold name_char, name_letter. cbn [str In list_ascii_of_string map Z.of_N Ascii.N_of_ascii]. rewrite !orb_true_iff, !andb_true_iff, !Z.leb_le, !Z.eqb_eq. 
  change (In c (str "_=+.-")) with (95 = c \/ 61 = c \/ 43 = c \/ 46 = c \/ 45 = c \/ False). intuition.
Qed.

Theorem C40_interface_name : forall path n, interface_of path = Some n <->
  (1 <= length n <= 15)%nat /\ Forall name_letter n /\
  (path = n ++ str ".conf" \/ exists dir, path = dir ++ 47 :: n ++ str ".conf").
Proof.
  intros path n.
  assert (NL : forall s, Forall (fun c => name_char c = true) s <-> Forall name_letter s).
  { intro s. split; apply Forall_impl; intros c; apply name_char_iff. }
  assert (NS : forall s, Forall name_letter s -> ~ In 47 (s ++ str ".conf")).
  { intros s Hs Hi. apply in_app_or in Hi as [Hi|Hi]; [|cbn in Hi; decompose [or] Hi; try discriminate; assumption].
    rewrite Forall_forall in Hs. specialize (Hs 47 Hi). apply name_char_iff in Hs. discriminate. }
  unfold interface_of. set (base := match split_last 47 path with Some (_, b) => b | None => path end).
  assert (HB : path = base /\ ~ In 47 path \/ exists dir, path = dir ++ 47 :: base).
  { unfold base. destruct (split_last 47 path) as [[a b]|] eqn:E.
    - apply split_last_some in E as [E _]. right. eauto.
    - apply split_last_none in E. left. auto. }
  split.
  - intro H. destruct (beq (skipn (length base - 5) base) (str ".conf") && is_name (firstn (length base - 5) base)) eqn:E; [|discriminate].
    apply andb_true_iff in E as [E1 E2]. apply beq_eq in E1. apply is_name_iff in E2 as [E2 E3]. injection H as H. rewrite H in *.
    assert (Hb : base = n ++ str ".conf") by (rewrite <- H, <- E1; symmetry; apply firstn_skipn).
    split; [exact E2|]. split; [apply NL, E3|]. rewrite <- Hb. destruct HB as [[HB _]|HB]; [left; exact HB|right; exact HB].
  - intros (Hn & Hl & Hp).
    assert (Hb : base = n ++ str ".conf").
    { unfold base. destruct Hp as [->|(dir & ->)].
      - rewrite (proj2 (split_last_none 47 _)); [reflexivity|apply NS, Hl].
      - rewrite split_last_app by (apply NS, Hl). reflexivity. }
    rewrite Hb. rewrite app_length. change (length (str ".conf")) with 5%nat. rewrite Nat.add_sub.
    rewrite skipn_app, firstn_app, Nat.sub_diag, skipn_all, firstn_all. cbn [firstn app]. rewrite app_nil_r.
    change (skipn 0 (str ".conf")) with (str ".conf"). rewrite beq_refl. rewrite (proj2 (is_name_iff n)); [reflexivity|]. split; [exact Hn|apply NL, Hl].
Qed.

(** ** A header with spaces inside is one for wg but not for wg-quick, so its own lines are handed on and wg refuses them. *)
Theorem C40_spaced_header_refuted : exists text, forall glob e,
  (exists o, parse_options glob text = Some o /\ o_addresses o = [] /\ o_config o = text /\
             read_config e false (getlines (handed o)) = None) /\
  read_config e false (getlines (str "[ Interface ]" ++ [10])) <> None.
Proof.
  exists (str "[ Interface ]" ++ [10] ++ str "Address = 10.0.0.1" ++ [10]). intros glob e. split.
  - eexists. split; [vm_compute; reflexivity|]. split; [reflexivity|]. split; [reflexivity|].
    destruct e as [[] ? ? ? ?]; vm_compute; reflexivity.
  - destruct e as [[] ? ? ? ?]; vm_compute; discriminate.
Qed.

Definition C40_file : list Z :=
  str "[Interface]" ++ [10] ++ str "  address = 10.0.0.1/24, fe80::1/64 # mine" ++ [10] ++ str "ListenPort = 5" ++ [10] ++
  str "DNS=1.1.1.1 ,example.com" ++ [10] ++ str "PostUp = echo %i" ++ [10] ++
  str "[Peer]" ++ [10] ++ str "	Address = x " ++ [10] ++ str "[Interface]" ++ [10] ++ str "MTU = 1400" ++ [10] ++ str "SaveConfig = TRUE".
Example C40_case : glob_plain (fun w => [w]) /\
  parse_options (fun w => [w]) C40_file = Some (mk_options
    (newlines [str "[Interface]"; str "ListenPort = 5"; str "[Peer]"; str "Address = x"; str "[Interface]"])
    [str "10.0.0.1/24"; str "fe80::1/64"] (str "1400") [str "1.1.1.1"] [str "example.com"] [] [] [str "echo %i"] [] [] true).
Proof. split; [intros w _; reflexivity|vm_compute; reflexivity]. Qed.
