(** C70: how wg-quick on Android reads a configuration file. *)
From Coq Require Import String ZArith List Bool Lia.
From Verif Require Import Base Cstr CstrProofs NumSpec ConfigProofs Quick Uapi UapiProofs2 AndOptions AndSpec AndProofs2.
Import ListNotations.
Open Scope Z_scope.

(** Of a file without very long lines: the values given in [Interface] sections, comma-separated, and everything else, in order, for wg(8). *)
Theorem C70_settings : forall text, Forall (fun l => Z.of_nat (length l) <= 65536) (getlines text) ->
  let ms := marked false (getlines text) in
  let r := read_settings text in
  s_config r = Some (for_wg ms) /\ s_addrs r = Some (commas (settings_of "Address" ms)) /\ s_dnses r = Some (commas (settings_of "DNS" ms)) /\
  s_excluded r = (match settings_of "ExcludedApplications" ms with [] => None | vs => Some (commas vs) end) /\
  s_included r = (match settings_of "IncludedApplications" ms with [] => None | vs => Some (commas vs) end) /\
  (settings_of "MTU" ms = [] -> s_mtu r = 0) /\
  forall vs v n, settings_of "MTU" ms = vs ++ [v] -> Forall is_byte v -> decimal v n -> n < 2 ^ 32 -> s_mtu r = n.
Proof.
  intros text F ms r. unfold r, read_settings. rewrite take_lines_spec by exact F. fold ms.
  cbn [filled s_config s_mtu s_addrs s_dnses s_excluded s_included no_settings].
  rewrite !add_all_none. split; [|split; [|split; [|split; [|split; [|split]]]]].
  - pose proof (conf_all_spec ms None) as C. cbn [app] in C. destruct (conf_all None ms); rewrite C; reflexivity.
  - destruct (settings_of "Address" ms); reflexivity.
  - destruct (settings_of "DNS" ms); reflexivity.
  - destruct (settings_of "ExcludedApplications" ms); reflexivity.
  - destruct (settings_of "IncludedApplications" ms); reflexivity.
  - intros ->. reflexivity.
  - intros vs v n -> B D N. rewrite fold_left_app. cbn [fold_left]. unfold atoi_unsigned.
    pose proof (decimal_nonneg _ _ D) as P. pose proof D as D1. apply decimal_iff in D1 as [NE NV].
    assert (H : 48 <= hd 0 v <= 57).
    { destruct v as [|c v]; [congruence|]. cbn [hd]. cbn [num_value] in NV. rewrite digit_in_10 in NV.
      destruct (Z.leb_spec 48 c), (Z.leb_spec c 57); cbn [andb] in NV; try discriminate. lia. }
    pose proof (strtoll_digits v NE B H) as S. rewrite NV in S. destruct S as [-> _]. cbn [fst]. unfold u32.
    rewrite Z.min_l by lia. apply Z.mod_small. lia.
Qed.
(** Nothing is lost: without any [Interface] section the whole text is for wg(8). *)
Theorem C70_no_section : forall text, Forall (fun l => Z.of_nat (length l) <= 65536 /\ opens l <> Some true) (getlines text) ->
  read_settings text = filled (mk_settings (Some text) 0 None None None None).
Proof.
  intros text F.
  assert (F1 : Forall (fun l => Z.of_nat (length l) <= 65536) (getlines text)) by (eapply Forall_impl; [|exact F]; cbn; tauto).
  unfold read_settings. rewrite take_lines_spec by exact F1. cbn [no_settings s_config s_mtu s_addrs s_dnses s_excluded s_included].
  assert (CT : concat (getlines text) = text).
  { clear. induction text as [|c t IH]; [reflexivity|]. cbn [getlines]. destruct (Z.eqb_spec c 10) as [->|E]; [cbn; rewrite IH; reflexivity|].
    destruct (getlines t) as [|l ls]; cbn in *; rewrite <- IH; reflexivity. }
  assert (M : marked false (getlines text) = map (pair false) (getlines text)).
  { clear - F. induction F as [|l ls [_ O] F IH]; [reflexivity|]. cbn [marked map]. destruct (opens l) as [[]|]; [congruence| |]; rewrite IH; reflexivity. }
  rewrite M.
  assert (N : forall k, settings_of k (map (pair false) (getlines text)) = []) by (clear; intro k; induction (getlines text) as [|l ls IH]; [reflexivity|exact IH]).
  rewrite !N. cbn [add_all fold_left].
  assert (W : for_wg (map (pair false) (getlines text)) = text).
  { rewrite <- CT at 2. unfold for_wg. clear. induction (getlines text) as [|l ls IH]; [reflexivity|]. cbn. f_equal. exact IH. }
  pose proof (conf_all_spec (map (pair false) (getlines text)) None) as C. cbn [app] in C. rewrite W in C.
  unfold filled. cbn [s_config s_mtu s_addrs s_dnses s_excluded s_included]. destruct (conf_all _ _); rewrite C; reflexivity.
Qed.

(** The interface's name is 1 to 15 of the permitted characters, whatever the file is called; it is the file's name without ".conf" where that is such a name. *)
Lemma run_chars : forall s, Forall (fun c => name_char c = true) (take_while name_char s).
Proof. induction s as [|c s IH]; [constructor|]. cbn. destruct (name_char c) eqn:E; [constructor; assumption|constructor]. Qed.
Lemma interface_chars : forall filename i, AndOptions.interface_of filename = Some i -> Forall (fun c => name_char c = true) i /\ (1 <= length i <= 15)%nat.
Proof.
  intros f i H. unfold AndOptions.interface_of in H. destruct (beq _ _); [|discriminate].
  pose proof (run_chars (skipn 5 (rev f))) as R. destruct (take_while name_char (skipn 5 (rev f))) as [|c r] eqn:E; [discriminate|].
  assert (i = rev (firstn 15 (c :: r))) as -> by congruence. split.
  - apply Forall_rev. rewrite <- (firstn_skipn 15 (c :: r)) in R. apply Forall_app in R. tauto.
  - rewrite rev_length, firstn_length. cbn [length]. lia.
Qed.
Theorem C70_name : forall fopen arg i w s, parse_options fopen arg = Parsed i w s -> Forall (fun c => name_char c = true) i /\ (1 <= length i <= 15)%nat.
Proof.
  intros fopen arg i w s H. unfold parse_options in H. destruct (if is_interface arg then _ else _) as [[n f]|]; [|discriminate].
  destruct (AndOptions.interface_of n) as [j|] eqn:E; [|discriminate]. assert (j = i) by congruence. subst j. exact (interface_chars _ _ E).
Qed.
Lemma run_app : forall a b, Forall (fun c => name_char c = true) a -> match b with [] => True | c :: _ => name_char c = false end -> take_while name_char (a ++ b) = a.
Proof.
  induction a as [|c a IH]; intros b A B.
  - destruct b as [|c b]; [reflexivity|]. cbn. rewrite B. reflexivity.
  - inversion A as [|? ? A1 A2]; subst. cbn. rewrite A1, (IH b A2 B). reflexivity.
Qed.
Lemma interface_app : forall dir n, Forall (fun c => name_char c = true) n -> n <> [] -> match rev dir with [] => True | c :: _ => name_char c = false end ->
  AndOptions.interface_of (dir ++ n ++ str ".conf") = Some (rev (firstn 15 (rev n))).
Proof.
  intros dir n N NE D. unfold AndOptions.interface_of. rewrite !rev_app_distr. change dot_conf with (str ".conf").
  change (rev (str ".conf")) with [102; 110; 111; 99; 46]. cbn [app firstn skipn]. change (beq [102; 110; 111; 99; 46] [102; 110; 111; 99; 46]) with true.
  rewrite run_app; [|apply Forall_rev; exact N|exact D].
  destruct (rev n) eqn:E; [|reflexivity]. apply (f_equal (@rev Z)) in E. rewrite rev_involutive in E. cbn in E. congruence.
Qed.
Theorem C70_file : forall fopen dir n f, Forall (fun c => name_char c = true) n -> (1 <= length n <= 15)%nat ->
  fopen (dir ++ str "/" ++ n ++ str ".conf") = Some f ->
  parse_options fopen (dir ++ str "/" ++ n ++ str ".conf") = Parsed n (negb (Z.land (f_mode f) 7 =? 0)) (read_settings (f_text f)).
Proof.
  intros fopen dir n f N L O. unfold parse_options.
  assert (I : is_interface (dir ++ str "/" ++ n ++ str ".conf") = false).
  { unfold is_interface. rewrite !forallb_app. change (forallb name_char (str "/")) with false. rewrite andb_false_r. reflexivity. }
  rewrite I. cbn [first_file]. rewrite O.
  rewrite app_assoc, interface_app; [|exact N|destruct n; [cbn in L; lia|discriminate]|rewrite rev_app_distr; reflexivity].
  rewrite firstn_all2 by (rewrite rev_length; lia). rewrite rev_involutive. reflexivity.
Qed.
(** An interface name stands for the first of the files NAME.conf in the two directories that can be opened. *)
Theorem C70_search : forall fopen n, Forall (fun c => name_char c = true) n -> (1 <= length n <= 15)%nat ->
  parse_options fopen n =
  match fopen (str "/data/misc/wireguard/" ++ n ++ str ".conf"), fopen (str "/data/data/com.wireguard.android/files/" ++ n ++ str ".conf") with
  | Some f, _ | None, Some f => Parsed n (negb (Z.land (f_mode f) 7 =? 0)) (read_settings (f_text f))
  | None, None => Refused
  end.
Proof.
  intros fopen n N L. unfold parse_options, is_interface.
  assert (A : forallb name_char n = true) by (apply forallb_forall; rewrite Forall_forall in N; exact N).
  rewrite A. replace (beq n []) with false by (destruct n; [cbn in L; lia|reflexivity]). replace (length n <=? 15)%nat with true by (symmetry; apply Nat.leb_le; lia).
  cbn [andb negb search_paths map first_file].
  assert (NE : n <> []) by (destruct n; [cbn in L; lia|discriminate]).
  assert (G : forall d, AndOptions.interface_of (str d ++ 47 :: n ++ dot_conf) = Some n).
  { intro d. replace (str d ++ 47 :: n ++ dot_conf) with ((str d ++ str "/") ++ n ++ str ".conf") by (rewrite <- app_assoc; reflexivity).
    rewrite interface_app; [|exact N|exact NE|rewrite rev_app_distr; reflexivity]. rewrite firstn_all2 by (rewrite rev_length; lia). rewrite rev_involutive. reflexivity. }
  change (str "/data/misc/wireguard" ++ 47 :: n ++ dot_conf) with (str "/data/misc/wireguard/" ++ n ++ str ".conf").
  change (str "/data/data/com.wireguard.android/files" ++ 47 :: n ++ dot_conf) with (str "/data/data/com.wireguard.android/files/" ++ n ++ str ".conf").
  destruct (fopen (str "/data/misc/wireguard/" ++ n ++ str ".conf")) as [f|].
  - change (str "/data/misc/wireguard/" ++ n ++ str ".conf") with (str "/data/misc/wireguard" ++ 47 :: n ++ dot_conf). rewrite G. reflexivity.
  - destruct (fopen (str "/data/data/com.wireguard.android/files/" ++ n ++ str ".conf")) as [f|]; [|reflexivity].
    change (str "/data/data/com.wireguard.android/files/" ++ n ++ str ".conf") with (str "/data/data/com.wireguard.android/files" ++ 47 :: n ++ dot_conf). rewrite G. reflexivity.
Qed.

(** ** A case *)
Definition nl : list Z := [10].
Definition phone_text : list Z :=
  str "[Interface]" ++ nl ++ str "Address = 10.0.0.2/32, fd00::2" ++ nl ++ str "PrivateKey = abc=" ++ nl ++ str "dns=1.1.1.1" ++ nl ++ str "MTU = 1280" ++ nl ++
  str "address = 10.0.0.3" ++ nl ++ str "IncludedApplications = org.mail, org.maps" ++ nl ++ str "[Peer]" ++ nl ++ str "Address = x" ++ nl.
Lemma C70_case : parse_options (fun p => if beq p (str "/data/misc/wireguard/home.conf") then Some (mk_file 416 phone_text) else None) (str "home") =
  Parsed (str "home") false (mk_settings (Some (str "[Interface]" ++ nl ++ str "PrivateKey = abc=" ++ nl ++ str "[Peer]" ++ nl ++ str "Address = x" ++ nl)) 1280
    (Some (str "10.0.0.2/32,fd00::2,10.0.0.3")) (Some (str "1.1.1.1")) None (Some (str "org.mail,org.maps"))).
Proof. vm_compute. reflexivity. Qed.

(** ** What goes wrong *)
(** The last 15 characters of a longer name, or what follows another character, are taken for the interface's name; wg-quick elsewhere refuses such files. *)
Theorem C70_name_refuted : forall fopen dir front n f, Forall (fun c => name_char c = true) (front ++ n) -> length n = 15%nat ->
  fopen (dir ++ str "/" ++ front ++ n ++ str ".conf") = Some f ->
  parse_options fopen (dir ++ str "/" ++ front ++ n ++ str ".conf") = Parsed n (negb (Z.land (f_mode f) 7 =? 0)) (read_settings (f_text f)).
Proof.
  intros fopen dir front n f N L O. unfold parse_options.
  assert (I : is_interface (dir ++ str "/" ++ front ++ n ++ str ".conf") = false).
  { unfold is_interface. rewrite !forallb_app. change (forallb name_char (str "/")) with false. rewrite andb_false_r. reflexivity. }
  rewrite I. cbn [first_file]. rewrite O.
  replace (dir ++ str "/" ++ front ++ n ++ str ".conf") with ((dir ++ str "/") ++ (front ++ n) ++ str ".conf") by (rewrite <- !app_assoc; reflexivity).
  rewrite interface_app; [|exact N|destruct front; [destruct n; [discriminate L|discriminate]|discriminate]|rewrite rev_app_distr; reflexivity].
  rewrite rev_app_distr, firstn_app, rev_length, L, Nat.sub_diag. rewrite firstn_O, app_nil_r, firstn_all2 by (rewrite rev_length; lia). rewrite rev_involutive. reflexivity.
Qed.
Theorem C70_blank_refuted : forall f,
  parse_options (fun p => if beq p (str "/sdcard/my vpn.conf") then Some f else None) (str "/sdcard/my vpn.conf") = Parsed (str "vpn") (negb (Z.land (f_mode f) 7 =? 0)) (read_settings (f_text f)).
Proof. intro f. reflexivity. Qed.
(** Comments are not taken off: behind "[Interface]" they hide the section, behind an address they become part of it. *)
Theorem C70_comment_refuted :
  read_settings (str "[Interface] # phone" ++ nl ++ str "Address = 10.0.0.2" ++ nl) =
    mk_settings (Some (str "[Interface] # phone" ++ nl ++ str "Address = 10.0.0.2" ++ nl)) 0 (Some []) (Some []) None None /\
  s_addrs (read_settings (str "[Interface]" ++ nl ++ str "Address = 10.0.0.2 # phone" ++ nl)) = Some (str "10.0.0.2#phone").
Proof. split; vm_compute; reflexivity. Qed.
(** A line of more than 65536 bytes, a comment, say, ends the reading without an error: whatever follows is ignored, and what was not set before is a null pointer,
    which set_config, set_addr and set_dnses then read. *)
Theorem C70_long_line_refuted : forall long rest, 65536 <= Z.of_nat (length long) -> ~ In 10 long ->
  read_settings (str "[Interface]" ++ nl ++ long ++ nl ++ rest) = mk_settings (Some (str "[Interface]" ++ nl)) 0 None None None None.
Proof.
  intros long rest L N. unfold read_settings.
  assert (S : getlines (str "[Interface]" ++ nl ++ long ++ nl ++ rest) = (str "[Interface]" ++ nl) :: (long ++ nl) :: getlines rest).
  { unfold nl. cbn [app]. rewrite getlines_line; [|cbn; intuition lia]. rewrite getlines_line by exact N. reflexivity. }
  rewrite S. assert (K : (65536 <? Z.of_nat (length (long ++ nl))) = true) by (apply Z.ltb_lt; rewrite app_length; unfold nl; cbn [length]; lia).
  remember (long ++ nl) as big. cbn [take_lines]. rewrite K. reflexivity.
Qed.

Print Assumptions C70_settings.
Print Assumptions C70_no_section.
Print Assumptions C70_name.
Print Assumptions C70_file.
Print Assumptions C70_search.
Print Assumptions C70_case.
Print Assumptions C70_name_refuted.
Print Assumptions C70_blank_refuted.
Print Assumptions C70_comment_refuted.
Print Assumptions C70_long_line_refuted.
