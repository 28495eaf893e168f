(** C50, second part: wg, given the saved configuration, sets what the interface had; and cases in which saving loses something. *)
From Coq Require Import String ZArith List Bool Lia.
From Verif Require Import Base Ctype Encoding Cstr CstrProofs Inet Types Config ConfigSpec ConfigProofs PropConfig Uapi UapiSpec TextProofs Setconf Showconf ShowconfSpec ShowconfProofs PropShowconf.
From Verif Require Import QuickSaveSpec QuickSaveProofs PropQuickSave.
From Verif Require Import Bash Quick QuickSpec QuickProofs PropQuick QuickRun QuickRunSpec PropQuickUp QuickSave QuickReloadSpec PropQuickReload.
Import ListNotations.
Open Scope Z_scope.

(** Something is set on the interface. *)
Definition something (d : device) : Prop := d_port d <> 0 \/ d_fwmark d <> 0 \/ d_has_priv d = true \/ d_peers d <> [].

Section Lines.
Variable scope_name : list Z -> Z -> list Z.
Definition settings (d : device) : list (list Z) :=
  when (negb (d_port d =? 0)) (ckv "ListenPort" (print_dec (d_port d))) ++
  when (negb (d_fwmark d =? 0)) (ckv "FwMark" (str "0x" ++ print_hex (d_fwmark d))) ++
  when (d_has_priv d) (ckv "PrivateKey" (key_to_base64 (d_priv d))).
Definition shown_lines (d : device) : list (list Z) :=
  settings d ++ match d_peers d with [] => [] | l => [] :: peers_lines scope_name l end.
Lemma shown_conf : forall d, conf_lines scope_name d = str "[Interface]" :: shown_lines d ++ match d_peers d with [] => [[]] | _ => [] end.
Proof.
  intro d. unfold conf_lines, shown_lines, settings. rewrite <- !app_assoc. destruct (d_peers d); [reflexivity|]. rewrite app_nil_r. reflexivity.
Qed.
Definition foreign (l : list Z) : Prop := forall s, ownb s l = false.
Lemma foreign_field : forall k v, simple k = true -> existsb (fun n => ci_eq (str k) (str n)) own_keys = false -> foreign (ckv k v).
Proof.
  intros k v S H s. change (ckv k v) with (fld k v). unfold ownb, setsb. rewrite fld_key by exact S. destruct s; cbn [andb]; [exact H|reflexivity].
Qed.
Lemma foreign_when : forall b l, foreign l -> Forall foreign (when b l).
Proof. intros [|] l H; cbn; [constructor; [exact H|constructor]|constructor]. Qed.
Lemma foreign_peer : forall p, Forall foreign (peer_lines scope_name p).
Proof.
  intro p. unfold peer_lines. constructor; [intros [|]; reflexivity|]. constructor; [apply foreign_field; reflexivity|]. repeat (apply Forall_app; split).
  - apply foreign_when, foreign_field; reflexivity.
  - destruct (p_aips p); repeat constructor. apply foreign_field; reflexivity.
  - destruct (ep_value scope_name (p_endpoint p)); repeat constructor. apply foreign_field; reflexivity.
  - apply foreign_when, foreign_field; reflexivity.
Qed.
Lemma foreign_nil : foreign [].
Proof. intros [|]; reflexivity. Qed.
Lemma foreign_peers : forall l, Forall foreign (peers_lines scope_name l).
Proof.
  induction l as [|p l IH]; cbn [peers_lines]; [constructor|]. apply Forall_app. split; [apply foreign_peer|]. apply Forall_app. split; [|exact IH].
  destruct l; repeat constructor. apply foreign_nil.
Qed.
Lemma foreign_shown : forall d, Forall foreign (shown_lines d).
Proof.
  intro d. unfold shown_lines, settings. repeat (apply Forall_app; split); try (apply foreign_when, foreign_field; reflexivity).
  destruct (d_peers d); [constructor|]. constructor; [apply foreign_nil|apply foreign_peers].
Qed.
Lemma kept_foreign : forall ls s, Forall foreign ls -> kept s ls = ls.
Proof. induction ls as [|l ls IH]; intros s F; [reflexivity|]. inversion F as [|? ? F0 F1]; subst. cbn [kept]. cbv zeta. rewrite (F0 _), IH by exact F1. reflexivity. Qed.
Lemma shown_not_own : forall d, not_own (shown_lines d).
Proof.
  intro d. unfold not_own. apply others_iff. symmetry. apply kept_foreign. constructor; [intros [|]; reflexivity|apply foreign_shown].
Qed.
Lemma last_app_nonempty : forall (a b : list (list Z)), b <> [] -> last (a ++ b) [] = last b [].
Proof. intros a b H. destruct (exists_last H) as (b' & x & ->). rewrite app_assoc, !last_last. reflexivity. Qed.
Lemma peer_last : forall p, last (peer_lines scope_name p) [] <> [].
Proof.
  intro p. unfold peer_lines. destruct (p_has_psk p), (p_aips p), (ep_value scope_name (p_endpoint p)), (p_ka p =? 0); cbn; discriminate.
Qed.
Lemma peers_last : forall l, l <> [] -> peers_lines scope_name l <> [] /\ last (peers_lines scope_name l) [] <> [].
Proof.
  induction l as [|p l IH]; intro H; [contradiction|]. split; [discriminate|]. cbn [peers_lines]. destruct l as [|q l].
  - cbn [peers_lines app]. rewrite app_nil_r. apply peer_last.
  - destruct IH as [N L]; [discriminate|]. rewrite app_assoc, last_app_nonempty by exact N. exact L.
Qed.
Lemma shown_last : forall d, something d -> shown_lines d <> [] /\ last (shown_lines d) [] <> [].
Proof.
  intros d H. unfold shown_lines. destruct (d_peers d) as [|p l] eqn:E.
  - rewrite app_nil_r. unfold something in H. rewrite E in H. unfold settings.
    destruct (Z.eqb_spec (d_port d) 0), (Z.eqb_spec (d_fwmark d) 0), (d_has_priv d); cbn [negb when app]; try (split; discriminate).
    exfalso. intuition congruence.
  - split; [destruct (settings d); discriminate|]. destruct (peers_last (p :: l)) as [N L]; [discriminate|].
    rewrite last_app_nonempty by discriminate. change ([] :: peers_lines scope_name (p :: l)) with ([[]] ++ peers_lines scope_name (p :: l)). rewrite last_app_nonempty by exact N. exact L.
Qed.
Variable e : env.
Hypothesis NW : numeric_world (e_port e) (e_resolve e) scope_name.
Lemma conf_text_concat : forall d, conf_text scope_name d = concat (map (fun l => l ++ [10]) (str "[Interface]" :: shown_lines d)) ++ repeat 10 (match d_peers d with [] => 1 | _ => 0 end)%nat.
Proof.
  intro d. rewrite conf_text_lines, shown_conf. unfold unlines. rewrite flat_map_concat_map.
  change (str "[Interface]" :: shown_lines d ++ match d_peers d with [] => [[]] | _ => [] end) with ((str "[Interface]" :: shown_lines d) ++ match d_peers d with [] => [[]] | _ => [] end).
  rewrite map_app, concat_app. destruct (d_peers d); reflexivity.
Qed.
Lemma shown_config : forall d, wf_device d -> something d -> config_lines (conf_text scope_name d) (shown_lines d).
Proof.
  intros d W S. pose proof (conf_lines_ok scope_name _ _ NW d W) as L. rewrite shown_conf in L. pose proof (Forall_inv_tail L) as L'. apply Forall_app in L' as [L1 _].
  eexists. split; [apply conf_text_concat|]. split; [|split; [revert L1; apply Forall_impl; intros l H; apply H|apply shown_last, S]].
  rewrite conf_text_concat. intro H. apply in_app_or in H as [H|H]; [|destruct (d_peers d); cbn in H; intuition discriminate].
  apply in_concat in H as (x & Hx & H). apply in_map_iff in Hx as (l & <- & Hl). apply in_app_or in H as [H|[H|[]]]; [|discriminate].
  assert (K : line_ok l) by (rewrite Forall_forall in L; apply L; destruct Hl as [<-|Hl]; [left; reflexivity|right; apply in_or_app; left; exact Hl]).
  destruct K as [_ K]. rewrite Forall_forall in K. specialize (K 0 H). unfold is_char in K. lia.
Qed.
Lemma shown_read : forall d, wf_device d -> read_config e false (str "[Interface]" :: shown_lines d) = read_config e false (getlines (conf_text scope_name d)).
Proof.
  intros d W. pose proof (conf_lines_ok scope_name _ _ NW d W) as L. rewrite conf_text_lines, getlines_unlines by (revert L; apply Forall_impl; intros l H; apply H).
  rewrite shown_conf in *. pose proof (Forall_inv L) as L0. pose proof (Forall_inv_tail L) as L1. apply Forall_app in L1 as [L1 _].
  assert (E : forall ls, Forall line_ok ls -> read_config e false ls = read_config e false (map (fun l => l ++ [10]) ls)).
  { intros ls F. apply read_config_clean. clear - F. induction F as [|l ls [H1 H2] F IH]; [constructor|]. cbn [map]. constructor; [|exact IH].
    assert (N : ~ In 0 l) by (intro H; rewrite Forall_forall in H2; specialize (H2 0 H); unfold is_char in H2; lia).
    rewrite !cstring_id; [|intro H; apply in_app_or in H as [H|[H|[]]]; [auto|discriminate]|exact N].
    symmetry. exact (clean_line_around e [] l [10] (Forall_nil _) (Forall_cons _ (or_intror eq_refl) (Forall_nil _))). }
  rewrite E by (constructor; assumption). cbn [map]. rewrite map_app. destruct (d_peers d); [|rewrite app_nil_r; reflexivity]. cbn [map app].
  change ((str "[Interface]" ++ [10]) :: map (fun l => l ++ [10]) (shown_lines d) ++ [[10]]) with (((str "[Interface]" ++ [10]) :: map (fun l => l ++ [10]) (shown_lines d)) ++ [[10]]).
  rewrite read_config_blank_end by (destruct e as [[] ? ? ? ?]; reflexivity). reflexivity.
Qed.
End Lines.

Section Restores.
Variable sys : system.
Variable glob : list Z -> list (list Z).
Variable fuel : nat.
Variable ifc : list Z.
Variable o : options.
Variable conf : list Z.
Variable amp : bool.
Variable e : env.
Variable scope_name : list Z -> Z -> list Z.
Hypothesis He : lp64 e.
Hypothesis NW : numeric_world (e_port e) (e_resolve e) scope_name.

(** If wg showconf described the interface, then what wg is given when the saved configuration is used sets the interface up like that again. *)
Theorem C50_restores : forall r text ws d, a_saving_run sys glob fuel ifc o conf amp r -> writes_text conf text (snd r) ->
  from_file glob o -> glob_plain glob -> ~ In 43 ifc -> (amp = true -> Forall unaffected (o_table o :: hooks_of o)) ->
  (forall a, In (ask_addresses ifc, a) (snd r) -> brief ifc (captured (a_output a)) ws) -> Forall ordinary ws ->
  (forall c, In (ask_config ifc, c) (snd r) -> a_output c = conf_text scope_name d) -> wf_device d -> something d ->
  exists o', parse_options glob text = Some o' /\ reloaded ifc (snd r) o ws (shown_lines scope_name d) o' /\ read_config e false (getlines (handed o')) = Some (restored d).
Proof.
  intros r text ws d Hr Hw Ho Hg H43 Ha Hb Fo Hc W S.
  destruct (saved_is sys glob fuel ifc o conf amp r text ws (shown_lines scope_name d)) as (H0 & (lines & Hl & Hk) & o' & Ep & R); auto.
  - intros c Ic. rewrite (Hc c Ic). apply shown_config with (e := e); assumption.
  - apply shown_not_own.
  - exists o'. split; [exact Ep|]. split; [exact R|]. rewrite (C40_wg_reads_the_rest glob e false text lines _ o' H0 Hl Hk Ep), shown_read by assumption.
    apply C28_text_means_device; assumption.
Qed.
End Restores.

(** ** A case, and what saving loses *)
Definition file50 : list Z := newlines (map str ["[Interface]"; "Address = 10.0.0.2/24"; "MTU = 1400"; "Table = off"; "PostUp = echo %i"; "SaveConfig = true"; "PrivateKey = K"]%string).
Definition parsed (text : list Z) : options := match parse_options no_glob text with Some o => o | None => options0 end.
Definition live50 (addresses conf : list Z) : list (list string * answer) :=
  [(["wg"; "show"; "interfaces"]%string, says "wg0 wg+ +wg");
   (["ip"; "-all"]%string, mk_answer 0 addresses None);
   (["resolvconf"; "-l"]%string, mk_answer 0 (newlines (map str ["search example.com"; "nameserver 10.0.0.1"; "nameserver fd00::53"]%string)) None);
   (["ip"; "link"; "show"]%string, says "7: wg0: <UP> mtu 1400 qdisc noqueue");
   (["umask"]%string, says "0022");
   (["wg"; "showconf"]%string, mk_answer 0 conf None)].
Definition brief50 (ifc : list Z) : list Z := ifc ++ str "              UNKNOWN        10.0.0.2/24 fd00::2/64 " ++ [10].
Definition run50 (ifc text conf : list Z) (amp : bool) : outcome :=
  cmd_save (table_system (live50 (brief50 ifc) conf)) no_glob ifc (parsed text) conf0 amp.
Definition argv_eqb (a b : list (list Z)) : bool := (length a =? length b)%nat && forallb (fun p => beq (fst p) (snd p)) (combine a b).
Lemma argv_eqb_refl : forall a, argv_eqb a a = true.
Proof. intro a. unfold argv_eqb. rewrite Nat.eqb_refl. induction a as [|x a IH]; [reflexivity|]. cbn [combine forallb fst snd andb]. rewrite (proj2 (beq_eq x x) eq_refl). exact IH. Qed.
Lemma sole_answer : forall h c y, forallb (fun ev => if argv_eqb (c_argv (fst ev)) (c_argv c) then beq (a_output (snd ev)) y else true) h = true -> forall a, In (c, a) h -> a_output a = y.
Proof. intros h c y H a I. rewrite forallb_forall in H. specialize (H _ I). cbn [fst snd] in H. rewrite argv_eqb_refl in H. apply beq_eq in H. exact H. Qed.
Definition text_of (r : outcome) : list Z := match filter (fun ev => argv_eqb (c_argv (fst ev)) [str ">"; temporary conf0]) (snd r) with (c, _) :: _ => c_input c | [] => [] end.
Lemma text_of_written : forall r, filter (fun ev => argv_eqb (c_argv (fst ev)) [str ">"; temporary conf0]) (snd r) = [(mk_cmd [str ">"; temporary conf0] (text_of r), mk_answer 0 [] None)] ->
  writes_text conf0 (text_of r) (snd r).
Proof. intros r H. exists (mk_answer 0 [] None). refine (proj1 (proj1 (filter_In (fun ev => argv_eqb (c_argv (fst ev)) [str ">"; temporary conf0]) _ _) _)). rewrite H. left. reflexivity. Qed.
Definition words50 : list (list Z) := [str "10.0.0.2/24"; str "fd00::2/64"].
Lemma seps : forall l, forallb (Z.eqb 32) l = true -> Forall separator l.
Proof. intros l H. rewrite forallb_forall in H. apply Forall_forall. intros c Hc. apply H, Z.eqb_eq in Hc. subst c. right. left. reflexivity. Qed.
Lemma no_seps : forall l, forallb (fun c => (45 <=? c) && (c <=? 122)) l = true -> Forall (fun c => ~ separator c) l.
Proof. intros l H. rewrite forallb_forall in H. apply Forall_forall. intros c Hc. apply H in Hc. unfold separator. lia. Qed.
Lemma brief50_brief : forall ifc, ~ In 0 ifc -> brief ifc (captured (brief50 ifc)) words50.
Proof.
  intros ifc H0. assert (E : captured (brief50 ifc) = ifc ++ repeat 32 14 ++ str "UNKNOWN" ++ str "        10.0.0.2/24 fd00::2/64 ").
  { unfold captured, brief50. rewrite no_nul_id by (rewrite !in_app_iff; intros [H|[H|H]]; [auto|cbn in H; intuition discriminate|destruct H as [H|[]]; discriminate]).
    replace (ifc ++ str "              UNKNOWN        10.0.0.2/24 fd00::2/64 " ++ [10]) with (((ifc ++ str "              UNKNOWN        10.0.0.2/24 fd00::2/64") ++ [32]) ++ repeat 10 1)
      by (rewrite <- !app_assoc; reflexivity).
    rewrite rtrim_newlines by discriminate. rewrite <- !app_assoc. reflexivity. }
  rewrite E. do 3 eexists. split; [reflexivity|]. split; [cbn; lia|]. split; [repeat constructor|]. split; [discriminate|]. split; [repeat constructor; cbn; lia|].
  split; [right; eexists; reflexivity|]. split; [cbn; intuition discriminate|].
  change (str "        10.0.0.2/24 fd00::2/64 ") with (repeat 32 8 ++ str "10.0.0.2/24" ++ [32] ++ str "fd00::2/64" ++ [32]). unfold words50.
  apply (en_cons (repeat 32 8) (str "10.0.0.2/24") ([32] ++ str "fd00::2/64" ++ [32])); [apply seps; reflexivity|discriminate|apply no_seps; reflexivity| |].
  - right. exists 32, (str "fd00::2/64" ++ [32]). split; [reflexivity|]. right. left. reflexivity.
  - apply (en_cons [32] (str "fd00::2/64") [32]); [apply seps; reflexivity|discriminate|apply no_seps; reflexivity| |].
    + right. exists 32, []. split; [reflexivity|]. right. left. reflexivity.
    + apply en_nil. apply seps; reflexivity.
Qed.
Lemma parsed_from_file : forall text, ~ In 0 text -> parse_options no_glob text <> None -> from_file no_glob (parsed text).
Proof. intros text H0 H. exists text. split; [exact H0|]. unfold parsed. destruct (parse_options no_glob text); [reflexivity|contradiction]. Qed.
Lemma no_glob_plain : glob_plain no_glob.
Proof. intros w _. reflexivity. Qed.
Lemma words50_ordinary : Forall ordinary words50.
Proof.
  assert (H : forall l, forallb (fun c => (45 <=? c) && (c <=? 122) && negb (c =? 63) && negb (c =? 91) && negb (c =? 92)) l = true -> ordinary l).
  { intros l H. rewrite forallb_forall in H. unfold ordinary, plain_word. split; [apply Forall_forall; intros c Hc Hi; apply H in Hc; cbn in Hi; lia|].
    split; [apply Forall_forall; intros c Hc Hi; apply H in Hc; unfold space in Hi; lia|]. repeat split; intro Hc; apply H in Hc; discriminate. }
  unfold words50. constructor; [apply H; reflexivity|]. constructor; [apply H; reflexivity|constructor].
Qed.
Definition conf50 : list Z := conf_text numeric_scope (read28 iface28).
Definition r50 : outcome := run50 wg0 file50 conf50 true.
(** The hypotheses of the theorems above are met, and this is what is saved. *)
Example C50_case :
  a_saving_run (table_system (live50 (brief50 wg0) conf50)) no_glob 5 wg0 (parsed file50) conf0 true r50 /\ fst r50 = Some 0 /\ writes_text conf0 (text_of r50) (snd r50) /\
  from_file no_glob (parsed file50) /\ glob_plain no_glob /\ ~ In 43 wg0 /\ Forall unaffected (o_table (parsed file50) :: hooks_of (parsed file50)) /\
  (forall a, In (ask_addresses wg0, a) (snd r50) -> brief wg0 (captured (a_output a)) words50) /\ Forall ordinary words50 /\
  (forall c, In (ask_config wg0, c) (snd r50) -> a_output c = conf_text numeric_scope (read28 iface28)) /\ wf_device (read28 iface28) /\ something (read28 iface28) /\
  text_of r50 = newlines (map str
    ["[Interface]"; "Address = 10.0.0.2/24"; "Address = fd00::2/64"; "DNS = 10.0.0.1"; "DNS = fd00::53"; "MTU = 1400"; "Table = off"; "SaveConfig = true"; "PostUp = echo %i";
     "ListenPort = 51820"; "FwMark = 0xcafe"; "PrivateKey = BwcHBwcHBwcHBwcHBwcHBwcHBwcHBwcHBwcHBwcHBwc="; "";
     "[Peer]"; "PublicKey = 4OHi4+Tl5ufo6err7O3u7/Dx8vP09fb3+Pn6+/z9/v8="; "AllowedIPs = 10.0.0.0/8, 11.0.0.0/8"; "Endpoint = [fe80::1%3]:7"; "PersistentKeepalive = 25"; "";
     "[Peer]"; "PublicKey = AAECAwQFBgcICQoLDA0ODxAREhMUFRYXGBkaGxwdHh8="; "PresharedKey = CQkJCQkJCQkJCQkJCQkJCQkJCQkJCQkJCQkJCQkJCQk="; "AllowedIPs = 2001:db8::/32"; "Endpoint = 192.0.2.9:1"]%string).
Proof.
  split; [left; reflexivity|]. split; [vm_compute; reflexivity|]. split; [apply text_of_written; vm_compute; reflexivity|].
  split; [apply parsed_from_file; [vm_compute; intuition discriminate|vm_compute; discriminate]|]. split; [apply no_glob_plain|]. split; [cbn; intuition discriminate|].
  split; [vm_compute; repeat constructor; unfold unaffected; cbn; intuition discriminate|].
  split; [intros a Ha; rewrite (sole_answer (snd r50) (ask_addresses wg0) (brief50 wg0)) by (vm_compute; reflexivity || exact Ha); apply brief50_brief; cbn; intuition discriminate|].
  split; [apply words50_ordinary|]. split; [intros c Hc; rewrite (sole_answer (snd r50) (ask_config wg0) conf50) by (vm_compute; reflexivity || exact Hc); reflexivity|].
  split; [apply iface28_ok|]. split; [left; discriminate|]. vm_compute. reflexivity.
Qed.

(** What the theorems exclude does go wrong. *)
Definition plain_conf : list Z := newlines (map str ["[Interface]"; "PrivateKey = K"]%string).
(** Bash 5.2 and later: a hook with an ampersand is not saved as it is; the file has another "[Interface]" in its place. *)
Definition amp_file : list Z := newlines (map str ["[Interface]"; "PostUp = true && echo up"]%string).
Theorem C50_ampersand_refuted : let r := run50 wg0 amp_file plain_conf true in
  fst r = Some 0 /\ writes_text conf0 (text_of r) (snd r) /\ o_postup (parsed amp_file) = [str "true && echo up"] /\
  exists o', parse_options no_glob (text_of r) = Some o' /\ o_postup o' = [str "true [Interface]"] /\
  text_of r = newlines (map str ["[Interface]"; "Address = 10.0.0.2/24"; "Address = fd00::2/64"; "DNS = 10.0.0.1"; "DNS = fd00::53"; "PostUp = true [Interface]"; "[Interface]"; " echo up"; "PrivateKey = K"]%string).
Proof.
  split; [vm_compute; reflexivity|]. split; [apply text_of_written; vm_compute; reflexivity|]. split; [vm_compute; reflexivity|].
  exists (parsed (text_of (run50 wg0 amp_file plain_conf true))). split; [vm_compute; reflexivity|]. split; vm_compute; reflexivity.
Qed.
(** A plus sign in the name of the interface: its addresses are not saved. *)
Theorem C50_name_refuted : forall ifc, ifc = str "wg+" \/ ifc = str "+wg" -> let r := run50 ifc file50 plain_conf false in
  fst r = Some 0 /\ writes_text conf0 (text_of r) (snd r) /\ (forall a, In (ask_addresses ifc, a) (snd r) -> brief ifc (captured (a_output a)) words50) /\
  exists o', parse_options no_glob (text_of r) = Some o' /\ o_addresses o' = [].
Proof.
  intros ifc Hifc. cbv zeta. destruct Hifc as [-> | ->].
  - set (r := run50 (str "wg+") file50 plain_conf false). split; [vm_compute; reflexivity|]. split; [apply text_of_written; vm_compute; reflexivity|].
    split; [intros a Ha; rewrite (sole_answer (snd r) (ask_addresses (str "wg+")) (brief50 (str "wg+"))) by (vm_compute; reflexivity || exact Ha); apply brief50_brief; cbn; intuition discriminate|].
    exists (parsed (text_of r)). split; vm_compute; reflexivity.
  - set (r := run50 (str "+wg") file50 plain_conf false). split; [vm_compute; reflexivity|]. split; [apply text_of_written; vm_compute; reflexivity|].
    split; [intros a Ha; rewrite (sole_answer (snd r) (ask_addresses (str "+wg")) (brief50 (str "+wg"))) by (vm_compute; reflexivity || exact Ha); apply brief50_brief; cbn; intuition discriminate|].
    exists (parsed (text_of r)). split; vm_compute; reflexivity.
Qed.
(** Search domains are not saved. *)
Definition search_file : list Z := newlines (map str ["[Interface]"; "DNS = 10.0.0.1, example.com"]%string).
Theorem C50_search_refuted : let r := run50 wg0 search_file plain_conf false in
  fst r = Some 0 /\ writes_text conf0 (text_of r) (snd r) /\ o_search (parsed search_file) = [str "example.com"] /\
  exists o', parse_options no_glob (text_of r) = Some o' /\ o_search o' = [].
Proof.
  cbv zeta. set (r := run50 wg0 search_file plain_conf false). split; [vm_compute; reflexivity|]. split; [apply text_of_written; vm_compute; reflexivity|]. split; [vm_compute; reflexivity|].
  exists (parsed (text_of r)). split; vm_compute; reflexivity.
Qed.
(** An interface on which nothing is set: the whole of wg-quick's own settings is lost. *)
Definition nothing : device := mk_device (str "wg0") 1 false false false false false (repeat 0 32) (repeat 0 32) 0 0 [].
Theorem C50_empty_refuted : let r := run50 wg0 file50 (conf_text numeric_scope nothing) false in
  fst r = Some 0 /\ writes_text conf0 (text_of r) (snd r) /\ text_of r = str "[Interface]" ++ [10] /\
  exists o', parse_options no_glob (text_of r) = Some o' /\ o_addresses o' = [] /\ o_table o' = [] /\ o_postup o' = [] /\ o_save o' = false.
Proof.
  cbv zeta. set (r := run50 wg0 file50 (conf_text numeric_scope nothing) false). split; [vm_compute; reflexivity|]. split; [apply text_of_written; vm_compute; reflexivity|]. split; [vm_compute; reflexivity|].
  exists (parsed (text_of r)). repeat split; vm_compute; reflexivity.
Qed.

Print Assumptions C50_reload.
Print Assumptions C50_saved_file.
Print Assumptions C50_restores.
Print Assumptions C50_case.
Print Assumptions C50_ampersand_refuted.
Print Assumptions C50_name_refuted.
Print Assumptions C50_search_refuted.
Print Assumptions C50_empty_refuted.
