(** C05-C17: reading configurations.  Statements use the model's entry points ([read_config], [config_read_cmd],
    the value parsers), the environment, and ConfigSpec/NumSpec. *)
From Coq Require Import String ZArith List Bool Lia.
From Verif Require Import Base Ctype Encoding EncodingSpec Cstr CstrProofs Inet Types NumSpec ConfigSpec Config
  ConfigProofs ConfigProofs2 ConfigProofs3 ConfigProofs4 Endpoint EndpointProofs.
Import ListNotations.
Open Scope Z_scope.

(** A 64-bit platform (unsigned long has more than 32 bits); either signedness of char. *)
Definition lp64 (e : env) : Prop := 0xffffffff < e_ulmax e.
(** A file is a list of lines of bytes. *)
Definition text (lines : list (list Z)) : Prop := Forall (Forall is_byte) lines.

(** ** A concrete world and file *)
Definition env0 : env := mk_env true 18446744073709551615
  (fun s => if beq s (str "51820") then Some 51820 else None)
  (fun h p => if beq h (str "192.0.2.1") && beq p (str "51820") then Some (Ep4 [192; 0; 2; 1] 51820) else None)
  (fun p => if beq p (str "/k") then FFile (str "4OHi4+Tl5ufo6err7O3u7/Dx8vP09fb3+Pn6+/z9/v8=" ++ [10]) true false
            else if beq p (str "/dev/null") then FFile [] true false else FNoOpen).

Definition file0 : list (list Z) := map str
  ["# a comment"; "[interface]"; " listenport = 51820 # the port"; "";
   "PrivateKey = 4OHi4+Tl5ufo6err7O3u7/Dx8vP09fb3+Pn6+/z9/v8="; "[Peer]";
   "PublicKey=AAECAwQFBgcICQoLDA0ODxAREhMUFRYXGBkaGxwdHh8="; "AllowedIPs = 10.0.0.0/8, fd00::/64";
   "AllowedIPs = 0.0.0.0/0"; "Endpoint = 192.0.2.1:51820"; "PersistentKeepalive = 25"]%string.

Lemma file0_text : text file0.
Proof. unfold text, file0. apply Forall_forall. intros x Hx. apply in_map_iff in Hx as (s & <- & _). apply str_bytes. Qed.

Definition dev0 (append : bool) : device :=
  mk_device [] 0 (negb append) true false true (negb append) zero_key (zrange 224 32) 0 51820
    [mk_peer false true true false true (zrange 0 32) zero_key (Ep4 [192; 0; 2; 1] 51820) 0 0 0 0 25
       [mk_aip AF_INET [10; 0; 0; 0] 8; mk_aip AF_INET6 (253 :: repeat 0 15) 64; mk_aip AF_INET [0; 0; 0; 0] 0]].

Example file0_read : forall append, read_config env0 append file0 = Some (dev0 append).
Proof. intros []; vm_compute; reflexivity. Qed.

(** ** C05 *)
Theorem C05_irrelevant_edits : forall e append f g, text f -> text g -> edit_file f g ->
  read_config e append f = read_config e append g.
Proof. exact edit_file_sound. Qed.

Example C05_case : edit_file [str "LISTENPORT=1"] [str "ListenPort=1"; []].
Proof.
  eapply ef_trans; [|apply (ef_insert [_] [])].
  apply (ef_line [] []). apply (ed_case "ListenPort=" (str "LISTENPORT=") (str "ListenPort=") (str "1")); [|reflexivity|reflexivity].
  cbn. tauto.
Qed.

(** ** C06, C07: the file is accepted with device [d] iff it is valid and denotes [d]. *)
Theorem C06_accepted_iff_valid : forall e append lines, lp64 e -> text lines ->
  (exists d, read_config e append lines = Some d) <->
  exists its, reads (e_port e) (e_resolve e) normal NoSection lines its /\
              Forall (fun settings => pubs settings <> []) (snd (groups its)).
Proof.
  intros e append lines He Hl. split.
  - intros [d H]. apply (read_config_iff e He) in H as (its & R & _ & P); [|exact Hl]. eauto.
  - intros (its & R & P). exists (device_of append its). apply (read_config_iff e He); [exact Hl|]. exists its. auto.
Qed.

Theorem C07_device_is_what_lines_say : forall e append lines d, lp64 e -> text lines ->
  read_config e append lines = Some d <-> config_means (e_port e) (e_resolve e) append lines d.
Proof. intros e append lines d He Hl. apply read_config_iff; assumption. Qed.

(** A file denotes at most one device: the specification is not ambiguous. *)
Theorem C07_meaning_unique : forall e append lines d d', lp64 e -> text lines ->
  config_means (e_port e) (e_resolve e) append lines d -> config_means (e_port e) (e_resolve e) append lines d' -> d = d'.
Proof.
  intros e append lines d d' He Hl H H'. apply (read_config_iff e He) in H; [|exact Hl].
  apply (read_config_iff e He) in H'; [|exact Hl]. congruence.
Qed.

Example C06_rejects :
  read_config env0 false (map str ["[Interface]"; "PublicKey = AAECAwQFBgcICQoLDA0ODxAREhMUFRYXGBkaGxwdHh8="]%string) = None
  /\ read_config env0 false (map str ["[Peer]"]%string) = None
  /\ read_config env0 false (map str ["ListenPort = 51820"]%string) = None.
Proof. vm_compute. auto. Qed.

(** ** C08 *)
Lemma items_pub : forall port_of resolve s lines its ss k, reads port_of resolve normal s lines its ->
  (In ss (snd (groups its)) \/ ss = fst (groups its)) -> In (SPub k) ss ->
  exists l, In l lines /\ peer_line resolve (normal l) (SPub k).
Proof.
  intros port_of resolve s lines its ss k H.
  revert ss. induction H as [s|s l ls its N H IH|s l ls its C H IH|s l ls its C H IH|l ls its x C H IH|l ls its x C H IH]; intros ss Hs Hk.
  - destruct Hs as [[]| ->]. destruct Hk.
  - destruct (IH ss Hs Hk) as (l' & I & P). exists l'. split; [right; exact I|exact P].
  - destruct (IH ss Hs Hk) as (l' & I & P). exists l'. split; [right; exact I|exact P].
  - cbn [groups] in Hs. destruct (groups its) as [h g] eqn:G. cbn [fst snd] in *.
    assert (D : In ss g \/ ss = h).
    { destruct Hs as [[<-|Hs]| ->]; [right; reflexivity|left; exact Hs|destruct Hk]. }
    destruct (IH ss D Hk) as (l' & I & P). exists l'. split; [right; exact I|exact P].
  - destruct (IH ss Hs Hk) as (l' & I & P). exists l'. split; [right; exact I|exact P].
  - cbn [groups] in Hs. destruct (groups its) as [h g] eqn:G. cbn [fst snd] in *.
    destruct Hs as [Hs| ->].
    + destruct (IH ss (or_introl Hs) Hk) as (l' & I & P). exists l'. split; [right; exact I|exact P].
    + destruct Hk as [->|Hk]; [exists l; split; [left; reflexivity|exact C]|].
      destruct (IH h (or_intror eq_refl) Hk) as (l' & I & P). exists l'. split; [right; exact I|exact P].
Qed.

Lemma pubs_In : forall ss k, In k (pubs ss) -> In (SPub k) ss.
Proof.
  intros ss k H. unfold pubs in H. apply in_flat_map in H as (s & Hs & Hk). destruct s; cbn in Hk; try contradiction.
  destruct Hk as [->|[]]. exact Hs.
Qed.

Lemma last_In : forall A (l : list A) d, l <> [] -> In (last l d) l.
Proof.
  intros A l d H. rewrite (app_removelast_last d H) at 2. apply in_or_app. right. left. reflexivity.
Qed.

(** Every peer of an accepted file has a public key, taken from a PublicKey line of the file. *)
Theorem C08_file_peers_have_keys : forall e append lines d p, lp64 e -> text lines ->
  read_config e append lines = Some d -> In p (d_peers d) ->
  p_has_pub p = true /\ is_key (p_pub p) /\
  exists line, In line lines /\ peer_line (e_resolve e) (normal line) (SPub (p_pub p)).
Proof.
  intros e append lines d p He Hl H Hp. apply (read_config_iff e He) in H as (its & R & -> & P); [|exact Hl].
  cbn [device_of d_peers] in Hp. apply in_map_iff in Hp as (ss & <- & Hs). rewrite Forall_forall in P. specialize (P ss Hs).
  cbn [peer_of p_has_pub p_pub].
  assert (I : In (SPub (last (pubs ss) zero_key)) ss) by (apply pubs_In, last_In, P).
  destruct (items_pub _ _ _ _ _ _ _ R (or_introl Hs) I) as (l & Il & Pl).
  split; [apply some_nonempty, P|]. split; [|eauto].
  inversion Pl as [| ? ? ? ? ? K| | |]. apply K.
Qed.

Theorem C08_cmd_peers_have_keys : forall e argv d p, lp64 e -> (forall path c s r, e_file e path = FFile c s r -> Forall is_byte c) ->
  text argv -> config_read_cmd e argv = Some d -> In p (d_peers d) ->
  p_has_pub p = true /\ exists arg, In arg argv /\ key_value arg (p_pub p).
Proof.
  intros e argv d p He Hf Ha H Hp. apply config_read_cmd_iff in H as (dargs & ds & pargs & gs & -> & D & G & ->); try assumption.
  cbn [cmd_device d_peers] in Hp. apply in_map_iff in Hp as (g & <- & Hg). split; [reflexivity|].
  assert (K : exists a, In a pargs /\ peer_group (e_resolve e) (keyfile_of e) a g).
  { clear - G Hg. induction G as [|a g' pargs gs H HF IH]; [destruct Hg|]. destruct Hg as [->|Hg]; [exists a; split; [left; reflexivity|exact H]|].
    destruct (IH Hg) as (a' & I & P). exists a'. split; [right; exact I|exact P]. }
  destruct K as (a & Ia & P). destruct P as [v k args acts K _]. exists v. split; [|exact K].
  apply in_or_app. right. apply in_concat. exists (str "peer" :: v :: concat args). split; [exact Ia|]. right. left. reflexivity.
Qed.

(** ** C09 *)
Theorem C09_setconf_resets : forall e lines d, lp64 e -> text lines -> read_config e false lines = Some d ->
  d_replace_peers d = true /\ d_has_priv d = true /\ d_has_port d = true /\ d_has_fwmark d = true /\
  Forall (fun p => p_replace_aips p = true) (d_peers d) /\
  exists its, reads (e_port e) (e_resolve e) normal NoSection lines its /\
    (ports its = [] -> d_port d = 0) /\ (fwmarks its = [] -> d_fwmark d = 0) /\ (privs its = [] -> d_priv d = repeat 0 32).
Proof.
  intros e lines d He Hl H. apply (read_config_iff e He) in H as (its & R & -> & P); [|exact Hl].
  repeat (split; [reflexivity|]). split.
  - apply Forall_forall. intros p Hp. cbn in Hp. apply in_map_iff in Hp as (ss & <- & _). reflexivity.
  - exists its. split; [exact R|]. cbn [device_of d_port d_fwmark d_priv]. repeat split; intros ->; reflexivity.
Qed.

Theorem C09_addconf_leaves_alone : forall e lines d, lp64 e -> text lines -> read_config e true lines = Some d ->
  d_replace_peers d = false /\
  exists its, reads (e_port e) (e_resolve e) normal NoSection lines its /\
    (d_has_port d = true <-> ports its <> []) /\ (d_has_fwmark d = true <-> fwmarks its <> []) /\ (d_has_priv d = true <-> privs its <> []).
Proof.
  intros e lines d He Hl H. apply (read_config_iff e He) in H as (its & R & -> & P); [|exact Hl].
  split; [reflexivity|]. exists its. split; [exact R|]. cbn [device_of d_has_port d_has_fwmark d_has_priv negb orb].
  repeat split; intro H; apply some_nonempty, H.
Qed.

(** ** C10, C11 *)
Theorem C10_fwmark_exact : forall e v n, lp64 e -> Forall is_byte v -> parse_fwmark e v = Some n <-> fwmark_value v n.
Proof. intros e v n He Hv. apply parse_fwmark_iff; assumption. Qed.

(** Where unsigned long has 32 bits, strtoul saturates at the largest mark and the text is accepted: the
    unrestricted claim is false. *)
Theorem C10_fwmark_ilp32_refuted : exists e v n, e_ulmax e = 0xffffffff /\ Forall is_byte v /\
  parse_fwmark e v = Some n /\ ~ fwmark_value v n.
Proof.
  exists (mk_env true 0xffffffff (fun _ => None) (fun _ _ => None) (fun _ => FNoOpen)), (str "4294967296"), 0xffffffff.
  split; [reflexivity|]. split; [apply str_bytes|]. split; [vm_compute; reflexivity|].
  intro H. inversion H as [? C|? ? D L E|h m D L E].
  - apply decimal_iff in D as [_ D]. vm_compute in D. discriminate.
Qed.

Example C10_values : parse_fwmark env0 (str "0xfFfFFffF") = Some 0xffffffff /\ parse_fwmark env0 (str "OFF") = Some 0
  /\ parse_fwmark env0 (str "4294967296") = None /\ parse_fwmark env0 (str "0x") = None /\ parse_fwmark env0 (str "-1") = None.
Proof. vm_compute. auto. Qed.

Theorem C11_keepalive_exact : forall e v n, 65535 < e_ulmax e -> Forall is_byte v ->
  parse_keepalive e v = Some n <-> keepalive_value v n.
Proof. intros e v n He Hv. apply parse_keepalive_iff; assumption. Qed.

Example C11_values : parse_keepalive env0 (str "65535") = Some 65535 /\ parse_keepalive env0 (str "65536") = None
  /\ parse_keepalive env0 (str "0x1") = None /\ parse_keepalive env0 (str "Off") = Some 0.
Proof. vm_compute. auto. Qed.

(** ** C12, C13 *)
Theorem C12_allowedips_exact : forall e p v p', 255 < e_ulmax e -> Forall is_byte v ->
  parse_allowedips e p v = Some p' <->
  exists l, aips_value v l /\ p' = set_aips (p_aips p ++ l) (set_replace_aips true p).
Proof. intros e p v p' He Hv. apply parse_allowedips_iff; assumption. Qed.

Theorem C12_entries_well_formed : forall v l, aips_value v l -> Forall wf_aip l.
Proof.
  intros v l H. destruct H as [|f fs l F H NE]; [constructor|].
  clear F NE. remember (f :: fs) as fields eqn:E. clear E f fs.
  induction H as [|x a fs l Ha Hl IH]; constructor; [eapply aip_value_wf, Ha|exact IH].
Qed.

Example C12_values : exists p, parse_allowedips env0 peer0 (str "10.0.0.1,::1/128,0.0.0.0/0") = Some p /\
  p_aips p = [mk_aip AF_INET [10; 0; 0; 1] 32; mk_aip AF_INET6 (repeat 0 15 ++ [1]) 128; mk_aip AF_INET [0; 0; 0; 0] 0]
  /\ parse_allowedips env0 peer0 (str "10.0.0.1,") = None /\ parse_allowedips env0 peer0 (str "10.0.0.1/33") = None
  /\ parse_allowedips env0 peer0 (str "10.0.0.1/") = None /\ parse_allowedips env0 peer0 (str "10.0.0.1/ 3") = None.
Proof. eexists. vm_compute. auto 10. Qed.

(** The second component of [parse_aip] is the warning: the mask text it prints. *)
Theorem C13_host_part_warning_exact : forall e s a w, 255 < e_ulmax e -> Forall is_byte s -> parse_aip e s = Some (a, w) ->
  (host_part a = 0 -> w = None) /\
  (host_part a <> 0 -> exists m, w = Some (Some m) /\ exists ip, s = ip ++ 47 :: m).
Proof. intros e s a w He Hs. apply parse_aip_warning; assumption. Qed.

Theorem C13_check_exact : forall a, wf_aip a -> validate_netmask a = true <-> host_part a = 0.
Proof. exact validate_netmask_correct. Qed.

Example C13_values : validate_netmask (mk_aip AF_INET6 (253 :: repeat 0 14 ++ [1]) 127) = false
  /\ validate_netmask (mk_aip AF_INET6 (253 :: repeat 0 14 ++ [1]) 128) = true
  /\ validate_netmask (mk_aip AF_INET [128; 0; 0; 0] 0) = false.
Proof. vm_compute. auto. Qed.

(** ** C14, C15 *)

(** Memory-level: no access outside the duplicated string, and the split is the specified one. *)
Theorem C14_split_exact : forall v, ~ In 0 v -> split_mem v <> SUb /\
  (forall h p, split_mem v = SSplit h p <-> endpoint_split v h p) /\
  (split_mem v = SReject <-> forall h p, ~ endpoint_split v h p).
Proof.
  intros v H. rewrite split_mem_spec by exact H. destruct (split_endpoint v) as [[h p]|] eqn:S.
  - split; [discriminate|]. split.
    + intros h' p'. rewrite <- split_endpoint_iff, S. split; intro E; injection E as -> ->; reflexivity.
    + split; [discriminate|]. intro N. exfalso. eapply N, split_endpoint_iff, S.
  - split; [discriminate|]. split.
    + intros h' p'. rewrite <- split_endpoint_iff, S. split; discriminate.
    + split; [|reflexivity]. intros _ h' p' E. apply split_endpoint_iff in E. congruence.
Qed.

(** A malformed endpoint makes no look-up at all, whatever the resolver would do. *)
Theorem C14_malformed_no_lookup : forall fuel f retries v, ~ In 0 v -> (forall h p, ~ endpoint_split v h p) ->
  parse_endpoint_mem fuel f retries v = EpReject 0.
Proof.
  intros fuel f retries v H N. unfold parse_endpoint_mem. apply (C14_split_exact v H) in N. rewrite N. reflexivity.
Qed.

Example C14_values : split_mem (str "[fe80::1%eth0]:51820") = SSplit (str "fe80::1%eth0") (str "51820")
  /\ split_mem (str "a:b:c") = SSplit (str "a:b") (str "c") /\ split_mem (str "[::1]") = SReject
  /\ split_mem (str "[::1]:") = SReject /\ split_mem (str "h:") = SReject /\ split_mem (str "[") = SReject.
Proof. vm_compute. auto 10. Qed.

(** C15: with [n] retries, the loop ends within [n+1] look-ups, whatever the outcomes. *)
Theorem C15_bounded : forall f n, 0 <= n -> exists r k ds, lookups (S (Z.to_nat n)) f n = Some (r, k, ds) /\ Z.of_nat k <= n + 1.
Proof.
  intros f n Hn. pose proof (lookups_spec (S (Z.to_nat n)) f n ltac:(lia)) as H.
  destruct (lookups (S (Z.to_nat n)) f n) as [[[r k] ds]|].
  - destruct H as (m & -> & _ & _ & B & _). exists r, (S m), ds. split; [reflexivity|]. specialize (B Hn). lia.
  - destruct H as [_ H]. specialize (H Hn). lia.
Qed.

(** Whenever it ends: all look-ups but the last one failed temporarily, the last one decides (success is used,
    a permanent failure or running out of retries fails), and the delays slept between them are [delay 0],
    [delay 1], ... *)
Theorem C15_outcome : forall fuel f n r k ds, -1 <= n -> lookups fuel f n = Some (r, k, ds) ->
  exists m, k = S m /\ (forall i, (i < m)%nat -> f i = LTemp) /\ (0 <= n -> Z.of_nat m <= n) /\ ds = map delay (seq 0 m) /\
    ((exists fam len ep, f m = LOk fam len ep /\ r = LrOk fam len ep) \/ (f m = LPerm /\ r = LrFail) \/
     (f m = LTemp /\ r = LrFail /\ Z.of_nat m = n)).
Proof.
  intros fuel f n r k ds Hn H. pose proof (lookups_spec fuel f n Hn) as S. rewrite H in S.
  destruct S as (m & S1 & _ & S3 & S4 & S5 & S6). exists m. repeat (split; [assumption|]).
  destruct (f m) as [fam len ep| |]; [left; eauto|right; left; auto|right; right; tauto].
Qed.

(** With "infinity" it goes on exactly as long as the outcomes are temporary failures. *)
Theorem C15_infinite : forall fuel f, lookups fuel f (-1) = None <-> forall i, (i < fuel)%nat -> f i = LTemp.
Proof.
  intros fuel f. pose proof (lookups_spec fuel f (-1) ltac:(lia)) as S. split.
  - intro H. rewrite H in S. apply S.
  - intro H. destruct (lookups fuel f (-1)) as [[[r k] ds]|]; [|reflexivity]. exfalso.
    destruct S as (m & _ & L & _ & _ & _ & S). rewrite (H m L) in S. lia.
Qed.

(** The delays: one second, growing by 6/5, never above 20 seconds, never shrinking. *)
Theorem C15_delays : delay 0 = 1000000 /\ forall i, delay (S i) = Z.min 20000000 (delay i * 6 / 5) /\
  1000000 <= delay i <= 20000000 /\ delay i <= delay (S i).
Proof. split; [reflexivity|]. intro i. split; [reflexivity|]. apply delay_range. Qed.

Example C15_run : lookups 5 (fun i => if Nat.eqb i 3 then LOk AF_INET 16 (Ep4 [1; 2; 3; 4] 5) else LTemp) 15 =
  Some (LrOk AF_INET 16 (Ep4 [1; 2; 3; 4] 5), 4%nat, [1000000; 1200000; 1440000]).
Proof. reflexivity. Qed.

(** The retry setting: a decimal number up to INT_MAX is taken as is. *)
Theorem C15_retries_setting : forall ulmax s n, INT_MAX < ulmax -> decimal s n -> n <= INT_MAX ->
  parse_dns_retries ulmax (Some s) = Some n.
Proof.
  intros ulmax s n Hu D L. apply decimal_iff in D as [NE D]. unfold parse_dns_retries.
  destruct (beq s (str "infinity")) eqn:E; [apply beq_eq in E; subst; discriminate D|].
  destruct s as [|c s]; [congruence|].
  assert (C : 48 <= c <= 57).
  { cbn [num_value] in D. rewrite digit_in_10 in D. destruct ((48 <=? c) && (c <=? 57)) eqn:G; [|discriminate].
    rewrite andb_true_iff, !Z.leb_le in G. exact G. }
  pose proof (strtoul10 ulmax c s C) as S. rewrite D in S. rewrite S.
  destruct (Z.ltb_spec ulmax n); [lia|]. destruct (Z.ltb_spec INT_MAX n); [lia|]. reflexivity.
Qed.

(** A larger one, and anything that is not a number, is refused; without the setting there are 15 retries, and "infinity" is no limit. *)
Theorem C15_retries_range : forall ulmax s n, parse_dns_retries ulmax s = Some n ->
  n <= INT_MAX /\ (s = None -> n = 15) /\ (s = Some (str "infinity") -> n = -1).
Proof.
  intros ulmax [s|] n H; cbn [parse_dns_retries] in H.
  - split.
    + destruct (beq s (str "infinity")); [injection H as <-; discriminate|]. destruct (strtoul ulmax 10 s) as [ret [|? ?]]; [|discriminate].
      destruct (Z.ltb_spec INT_MAX ret); [discriminate|]. injection H as <-. assumption.
    + split; [discriminate|]. intro E. injection E as ->. injection H as <-. reflexivity.
  - injection H as <-. repeat split; discriminate.
Qed.
Theorem C15_retries_refused : forall ulmax s n, INT_MAX < ulmax -> decimal s n -> INT_MAX < n -> parse_dns_retries ulmax (Some s) = None.
Proof.
  intros ulmax s n Hu D L. apply decimal_iff in D as [NE D]. unfold parse_dns_retries.
  destruct (beq s (str "infinity")) eqn:E; [apply beq_eq in E; subst; discriminate D|].
  destruct s as [|c s]; [congruence|].
  assert (C : 48 <= c <= 57).
  { cbn [num_value] in D. rewrite digit_in_10 in D. destruct ((48 <=? c) && (c <=? 57)) eqn:G; [|discriminate].
    rewrite andb_true_iff, !Z.leb_le in G. exact G. }
  pose proof (strtoul10 ulmax c s C) as S. rewrite D in S. rewrite S.
  destruct (Z.ltb_spec ulmax n); [destruct (Z.ltb_spec INT_MAX ulmax); [reflexivity|lia]|]. destruct (Z.ltb_spec INT_MAX n); [reflexivity|lia].
Qed.
(** The endpoint that is set is the one the last look-up gave, and it is a whole IPv4 or IPv6 socket address. *)
Theorem C15_address : forall fuel f n value ep k, -1 <= n -> parse_endpoint_mem fuel f n value = EpSet ep k ->
  exists h p m fam len, split_mem value = SSplit h p /\ k = S m /\ f h p m = LOk fam len ep /\ ((fam = AF_INET /\ len = 16) \/ (fam = AF_INET6 /\ len = 28)).
Proof.
  intros fuel f n value ep k Hn H. unfold parse_endpoint_mem in H. destruct (split_mem value) as [| |h p] eqn:Es; try discriminate.
  destruct (lookups fuel (f h p) n) as [[[r j] ds]|] eqn:El; [|discriminate]. destruct (take_addr r) as [ep'|] eqn:Et; [|discriminate]. injection H as -> ->.
  destruct (C15_outcome _ _ _ _ _ _ Hn El) as (m & -> & _ & _ & _ & O). exists h, p, m.
  destruct O as [(fam & len & e' & E & ->)|[[_ ->]|(_ & -> & _)]]; [|discriminate|discriminate]. cbn [take_addr] in Et.
  destruct (((fam =? AF_INET) && (len =? 16)) || ((fam =? AF_INET6) && (len =? 28))) eqn:B; [|discriminate]. injection Et as ->.
  exists fam, len. split; [reflexivity|]. split; [reflexivity|]. split; [exact E|].
  rewrite orb_true_iff, !andb_true_iff, !Z.eqb_eq in B. tauto.
Qed.
Example C15_address_example : parse_endpoint_mem 5 (fun _ _ i => if Nat.eqb i 2 then LOk AF_INET 16 (Ep4 [1; 2; 3; 4] 5) else LTemp) 15 (str "a.example:5") = EpSet (Ep4 [1; 2; 3; 4] 5) 3
  /\ parse_endpoint_mem 5 (fun _ _ _ => LOk 1 110 EpNone) 15 (str "a.example:5") = EpReject 1.
Proof. split; reflexivity. Qed.

(** But a negative number is not always refused: strtoul wraps it around. *)
Theorem C15_negative_retries_refuted : exists s n, hd 0 s = 45 /\ parse_dns_retries 18446744073709551615 (Some s) = Some n.
Proof. exists (str "-18446744073709551615"), 1. split; reflexivity. Qed.

(** ** C16 *)
Theorem C16_keyfile_exact : forall e path k, (forall c s r, e_file e path = FFile c s r -> Forall is_byte c) ->
  parse_keyfile e path = Some k <->
  exists contents seekable, e_file e path = FFile contents seekable false /\ keyfile_value contents seekable k.
Proof. exact parse_keyfile_iff. Qed.

Example C16_values : parse_keyfile env0 (str "/k") = Some (zrange 224 32) /\ parse_keyfile env0 (str "/dev/null") = Some (repeat 0 32)
  /\ parse_keyfile env0 (str "/nope") = None.
Proof. vm_compute. auto. Qed.

(** ** C17 *)
Theorem C17_cmd_exact : forall e argv d, lp64 e -> (forall path c s r, e_file e path = FFile c s r -> Forall is_byte c) ->
  text argv ->
  config_read_cmd e argv = Some d <-> cmd_means (e_port e) (e_resolve e) (keyfile_of e) argv d.
Proof. intros e argv d He Hf Ha. apply config_read_cmd_iff; assumption. Qed.

Example C17_run : config_read_cmd env0 (map str ["listen-port"; "51820"; "peer"; "AAECAwQFBgcICQoLDA0ODxAREhMUFRYXGBkaGxwdHh8=";
    "allowed-ips"; "10.0.0.0/8, ::/0"; "remove"; "preshared-key"; "/k"]%string) =
  Some (mk_device [] 0 false false false true false zero_key zero_key 0 51820
    [mk_peer true true true true false (zrange 0 32) (zrange 224 32) EpNone 0 0 0 0 0
      [mk_aip AF_INET [10; 0; 0; 0] 8; mk_aip AF_INET6 (repeat 0 16) 0]]).
Proof. vm_compute. reflexivity. Qed.
Example C17_rejects : config_read_cmd env0 (map str ["peer"]%string) = None /\ config_read_cmd env0 (map str ["remove"]%string) = None
  /\ config_read_cmd env0 (map str ["peer"; "AAECAwQFBgcICQoLDA0ODxAREhMUFRYXGBkaGxwdHh8="; "listen-port"; "51820"]%string) = None.
Proof. vm_compute. auto. Qed.

(** An empty list clears the allowed IPs with 'wg set' but "AllowedIPs =" in a file is refused. *)
Theorem C12_empty_list_differs : forall e, lp64 e ->
  config_read_cmd e (map str ["peer"; "AAECAwQFBgcICQoLDA0ODxAREhMUFRYXGBkaGxwdHh8="; "allowed-ips"; ""]%string) <> None /\
  read_config e false (map str ["[Peer]"; "PublicKey = AAECAwQFBgcICQoLDA0ODxAREhMUFRYXGBkaGxwdHh8="; "AllowedIPs = "]%string) = None.
Proof. intros [[] um ? ? ?] H; split; vm_compute; [discriminate|reflexivity|discriminate|reflexivity]. Qed.

Print Assumptions C05_irrelevant_edits.
Print Assumptions C06_accepted_iff_valid.
Print Assumptions C07_device_is_what_lines_say.
Print Assumptions C07_meaning_unique.
Print Assumptions C08_file_peers_have_keys.
Print Assumptions C08_cmd_peers_have_keys.
Print Assumptions C09_setconf_resets.
Print Assumptions C09_addconf_leaves_alone.
Print Assumptions C10_fwmark_exact.
Print Assumptions C10_fwmark_ilp32_refuted.
Print Assumptions C11_keepalive_exact.
Print Assumptions C12_allowedips_exact.
Print Assumptions C12_entries_well_formed.
Print Assumptions C12_empty_list_differs.
Print Assumptions C13_host_part_warning_exact.
Print Assumptions C13_check_exact.
Print Assumptions C14_split_exact.
Print Assumptions C14_malformed_no_lookup.
Print Assumptions C15_bounded.
Print Assumptions C15_outcome.
Print Assumptions C15_infinite.
Print Assumptions C15_delays.
Print Assumptions C15_retries_setting.
Print Assumptions C15_negative_retries_refuted.
Print Assumptions C16_keyfile_exact.
Print Assumptions C17_cmd_exact.
