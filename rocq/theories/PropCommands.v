(** C39: dispatch, honest exit status.  C06 (second half): a rejected file changes nothing.  C45: names. *)
From Coq Require Import String ZArith List Bool Lia.
From Verif Require Import Base Ctype Encoding EncodingSpec Cstr Inet Types NumSpec ConfigSpec Config ConfigProofs ConfigProofs2 ConfigProofs3 ConfigProofs4
  PropConfig NlSpec KernelSpec NlSet NlSetProofs2 NlSetProofs4 PropNetlink Uapi Setconf Showconf Show Keys Wg.
Import ListNotations.
Open Scope Z_scope.

(** ** Dispatch *)
Definition commands : list (list Z) := map str ["show"; "showconf"; "set"; "setconf"; "addconf"; "syncconf"; "genkey"; "genpsk"; "pubkey"]%string.

Theorem C39_dispatch : forall W (Y : system W) prog w,
  wg_main Y [prog] w = show_main (y_show Y) W (y_list Y) (y_backend Y) [str "show"] w
  /\ (forall a, In a (map str ["-v"; "--version"; "version"]%string) -> wg_main Y [prog; a] w = (Exit 0 version_text, w))
  /\ (forall a, In a (map str ["-h"; "--help"; "help"]%string) -> wg_main Y [prog; a] w = (Exit 0 (usage_text prog), w))
  /\ (forall a, In (str "  " ++ a ++ str ": ") (map (fun d => str "  " ++ str (fst d) ++ str ": ") descriptions) -> In a commands)
  /\ (forall rest, wg_main Y (prog :: str "show" :: rest) w = show_main (y_show Y) W (y_list Y) (y_backend Y) (str "show" :: rest) w)
  /\ (forall rest, wg_main Y (prog :: str "showconf" :: rest) w
        = let '(s, t, w1) := showconf_main (y_scope_name Y) (y_backend Y) (str "showconf" :: rest) w in (Exit s t, w1))
  /\ (forall rest, wg_main Y (prog :: str "set" :: rest) w
        = let '(s, w1) := set_main W (y_env Y) (y_backend Y) (str "set" :: rest) w in (Exit s [], w1))
  /\ (forall a rest, In a (map str ["setconf"; "addconf"; "syncconf"]%string) -> wg_main Y (prog :: a :: rest) w
        = let '(s, w1) := setconf_main W (y_env Y) (y_backend Y) (y_qsort Y) (lines_of Y) (a :: rest) w in (Exit s [], w1))
  /\ (forall a rest, In a (map str ["genkey"; "genpsk"]%string) -> wg_main Y (prog :: a :: rest) w
        = let '(s, t) := genkey_main (y_random Y) (y_junk Y) (a :: rest) in (Exit s t, w))
  /\ (forall rest, wg_main Y (prog :: str "pubkey" :: rest) w
        = let '(s, t) := pubkey_main (e_sg (y_env Y)) (y_public Y) (str "pubkey" :: rest) (y_stdin Y) in (Exit s t, w))
  /\ (forall a rest, ~ In a commands -> ~ (rest = [] /\ In a (map str ["-v"; "--version"; "version"; "-h"; "--help"; "help"]%string)) ->
        wg_main Y (prog :: a :: rest) w = (Exit 1 [], w)).
Proof.
  intros W Y prog w.
  assert (P : forall (r : Z * W), quiet r = let '(s, w1) := r in (Exit s [], w1)) by (intros [s w1]; reflexivity).
  assert (Q : forall (r : Z * list Z), silent r w = let '(s, t) := r in (Exit s t, w)) by (intros [s t]; reflexivity).
  split; [reflexivity|]. split; [intros a [<-|[<-|[<-|[]]]]; reflexivity|]. split; [intros a [<-|[<-|[<-|[]]]]; reflexivity|].
  split.
  { intros a H. apply in_map_iff in H as ([n d] & E & H). apply app_inv_head, app_inv_tail in E. subst a. cbn [fst]. unfold commands. apply in_map.
    unfold descriptions in H. cbn [In] in H. repeat (destruct H as [H|H]; [injection H as <- _; cbn [In]; tauto|]). destruct H. }
  split; [intros [|x rest]; reflexivity|]. split; [intros [|x rest]; reflexivity|].
  split; [intros [|x rest]; rewrite <- P; reflexivity|].
  split; [intros a rest [<-|[<-|[<-|[]]]]; destruct rest; rewrite <- P; reflexivity|].
  split; [intros a rest [<-|[<-|[]]]; destruct rest; rewrite <- Q; reflexivity|].
  split; [intros [|x rest]; rewrite <- Q; reflexivity|].
  intros a rest Hc Ho.
  assert (L : lookup a (subcommands Y) = None).
  { assert (G : forall (t : list (list Z * (list (list Z) -> W -> ending * W))), ~ In a (map fst t) -> lookup a t = None).
    { induction t as [|[n f] t IH]; intro H; [reflexivity|]. cbn [lookup]. destruct (beq a n) eqn:E.
      - apply beq_eq in E. exfalso. apply H. left. symmetry. exact E.
      - apply IH. intro H1. apply H. right. exact H1. }
    apply G. exact Hc. }
  cbn [wg_main]. destruct rest as [|b rest]; [|rewrite L; reflexivity].
  assert (E : forall names, (forall n, In n names -> In n ["-v"; "--version"; "version"; "-h"; "--help"; "help"]%string) -> existsb (fun n => beq a (str n)) names = false).
  { intros names Hn. destruct (existsb _ names) eqn:E; [|reflexivity]. apply existsb_exists in E as (n & H & E). apply beq_eq in E. exfalso. apply Ho. split; [reflexivity|].
    subst a. apply in_map, Hn, H. }
  rewrite !E; [rewrite L; reflexivity| |]; cbn [In]; tauto.
Qed.

(** ** The commands that change an interface *)

(** Whether the path holds a valid configuration, and what it denotes. *)
Definition file_means {W} (Y : system W) (append : bool) (path : list Z) (d : device) : Prop :=
  exists contents err, y_file Y path = Some (contents, err)
    /\ config_means (e_port (y_env Y)) (e_resolve (y_env Y)) append (getlines contents) d.
(** Files consist of bytes; 64-bit platform. *)
Definition sane {W} (Y : system W) : Prop :=
  lp64 (y_env Y) /\ (forall path c err, y_file Y path = Some (c, err) -> Forall is_byte c)
  /\ (forall path c s r, e_file (y_env Y) path = FFile c s r -> Forall is_byte c).

Lemma getlines_bytes : forall n t, (length t <= n)%nat -> Forall is_byte t -> text (getlines t).
Proof.
  induction n as [|n IH]; intros [|c t] L H; cbn [length] in L; try lia; try constructor.
  inversion H as [|x y Hc Ht]; subst. cbn [getlines]. pose proof (IH t ltac:(lia) Ht) as T. destruct (c =? 10).
  - apply Forall_cons; [repeat constructor; lia|exact T].
  - unfold text in T. destruct (getlines t) as [|l ls]; [repeat constructor; apply Hc|]. inversion T as [|x y T1 T2]; subst. apply Forall_cons; [apply Forall_cons; assumption|assumption].
Qed.

Lemma file_means_iff : forall W (Y : system W) append path, sane Y ->
  match lines_of Y path with
  | None => forall d, ~ file_means Y append path d
  | Some lines => forall d, read_config (y_env Y) append lines = Some d <-> file_means Y append path d
  end.
Proof.
  intros W Y append path (He & Hf & _). unfold lines_of, option_map, file_means. destruct (y_file Y path) as [[c err]|] eqn:E; cbn [fst].
  - intro d. rewrite (C07_device_is_what_lines_say (y_env Y) append (getlines c) d He).
    + split; [intro H; exists c, err; split; [reflexivity|exact H]|]. intros (c' & err' & Ec & H). injection Ec as <- <-. exact H.
    + apply (getlines_bytes (length c)); [lia|]. apply (Hf _ _ _ E).
  - intros d (c & err & Ec & _). discriminate.
Qed.

(** C06.  If the file cannot be opened or is not valid, each of the three commands fails and the rest of the world is as before: no request of
    any kind was made. *)
Theorem C06_rejected_changes_nothing : forall W (Y : system W) prog cmd iface path w, sane Y ->
  In cmd (map str ["setconf"; "addconf"; "syncconf"]%string) ->
  (forall d, ~ file_means Y (beq cmd (str "addconf")) path d) ->
  wg_main Y [prog; cmd; iface; path] w = (Exit 1 [], w).
Proof.
  intros W Y prog cmd iface path w Hs Hc Hn.
  destruct (C39_dispatch W Y prog w) as (_ & _ & _ & _ & _ & _ & _ & D & _). rewrite (D cmd [iface; path] Hc). clear D.
  pose proof (file_means_iff W Y (beq cmd (str "addconf")) path Hs) as F. unfold setconf_main.
  destruct (lines_of Y path) as [lines|]; [|reflexivity].
  destruct (read_config (y_env Y) (beq cmd (str "addconf")) lines) as [d|] eqn:E; [|reflexivity].
  exfalso. apply (Hn d), F. reflexivity.
Qed.

(** A valid file is sent, for setconf and addconf in one call, and the call's result decides the exit status. *)
Theorem C39_setconf : forall W (Y : system W) prog cmd iface path w d, sane Y ->
  In cmd (map str ["setconf"; "addconf"]%string) -> file_means Y (beq cmd (str "addconf")) path d ->
  forall ret w', b_set (y_backend Y) (set_name (firstn 15 iface) d) w = (ret, w') ->
  wg_main Y [prog; cmd; iface; path] w = (Exit (if ret =? 0 then 0 else 1) [], w').
Proof.
  intros W Y prog cmd iface path w d Hs Hc Hm ret w' Hb.
  assert (Hc' : In cmd (map str ["setconf"; "addconf"; "syncconf"]%string)) by (cbn [map In] in *; tauto).
  destruct (C39_dispatch W Y prog w) as (_ & _ & _ & _ & _ & _ & _ & D & _). rewrite (D cmd [iface; path] Hc'). clear D.
  pose proof (file_means_iff W Y (beq cmd (str "addconf")) path Hs) as F. unfold setconf_main.
  destruct (lines_of Y path) as [lines|]; [|exfalso; exact (F d Hm)]. apply F in Hm. rewrite Hm. cbv zeta.
  assert (N : beq cmd (str "syncconf") = false) by (destruct Hc as [<-|[<-|[]]]; reflexivity). rewrite N, Hb.
  destruct (Z.eqb_spec ret 0); reflexivity.
Qed.

Theorem C39_set : forall W (Y : system W) prog iface args w, sane Y -> text args -> args <> [] ->
  (forall d, cmd_means (e_port (y_env Y)) (e_resolve (y_env Y)) (keyfile_of (y_env Y)) args d ->
     forall ret w', b_set (y_backend Y) (set_name (firstn 15 iface) d) w = (ret, w') ->
     wg_main Y (prog :: str "set" :: iface :: args) w = (Exit (if ret =? 0 then 0 else 1) [], w'))
  /\ ((forall d, ~ cmd_means (e_port (y_env Y)) (e_resolve (y_env Y)) (keyfile_of (y_env Y)) args d) ->
      wg_main Y (prog :: str "set" :: iface :: args) w = (Exit 1 [], w)).
Proof.
  intros W Y prog iface args w (He & _ & Hf) Ht Hne.
  destruct (C39_dispatch W Y prog w) as (_ & _ & _ & _ & _ & _ & D & _). rewrite (D (iface :: args)). clear D. unfold set_main.
  destruct args as [|a args]; [congruence|]. cbn [skipn]. set (A := a :: args) in *. split.
  - intros d Hm ret w' Hb. apply (C17_cmd_exact (y_env Y) A d He Hf Ht) in Hm. rewrite Hm, Hb. destruct (Z.eqb_spec ret 0); reflexivity.
  - intro Hn. destruct (config_read_cmd (y_env Y) A) as [d|] eqn:E; [|reflexivity]. exfalso. apply (Hn d), (C17_cmd_exact (y_env Y) A d He Hf Ht), E.
Qed.

(** Success of any of the four commands, with whatever arguments, means that an update was made and that the interface reported success. *)
Theorem C39_success_is_honest : forall W (Y : system W) prog cmd rest w out w',
  In cmd (map str ["set"; "setconf"; "addconf"; "syncconf"]%string) ->
  wg_main Y (prog :: cmd :: rest) w = (Exit 0 out, w') ->
  out = [] /\ exists iface args d w1, rest = iface :: args /\ d_name d = firstn 15 iface /\ b_set (y_backend Y) d w1 = (0, w')
    /\ (cmd <> str "syncconf" -> w1 = w).
Proof.
  intros W Y prog cmd rest w out w' Hc H.
  destruct (C39_dispatch W Y prog w) as (_ & _ & _ & _ & _ & _ & D1 & D2 & _).
  destruct Hc as [<-|Hc].
  - rewrite (D1 rest) in H. clear D1 D2. unfold set_main in H. destruct rest as [|iface [|a args]]; try (discriminate).
    destruct (config_read_cmd (y_env Y) (skipn 2 (str "set" :: iface :: a :: args))) as [d|]; [|discriminate].
    destruct (b_set (y_backend Y) (set_name (firstn 15 iface) d) w) as [ret w1] eqn:E. destruct (Z.eqb_spec ret 0) as [E0|E0]; [|discriminate].
    cbn [negb] in H. injection H as <- <-. subst ret. split; [reflexivity|]. exists iface, (a :: args), (set_name (firstn 15 iface) d), w.
    split; [reflexivity|]. split; [reflexivity|]. split; [exact E|]. reflexivity.
  - rewrite (D2 cmd rest Hc) in H. clear D1 D2. unfold setconf_main in H.
    destruct rest as [|iface [|path [|x rest]]]; try discriminate.
    destruct (lines_of Y path) as [lines|]; [|discriminate].
    destruct (read_config (y_env Y) (beq cmd (str "addconf")) lines) as [d|]; [|discriminate]. cbv zeta in H.
    set (d1 := set_name (firstn 15 iface) d) in *.
    assert (G : forall d' w1, (let '(s, w2) := let '(ret, w2) := b_set (y_backend Y) d' w1 in if negb (ret =? 0) then (1, w2) else (0, w2) in (Exit s [], w2)) = (Exit 0 out, w') ->
      out = [] /\ b_set (y_backend Y) d' w1 = (0, w')).
    { intros d' w1 E. destruct (b_set (y_backend Y) d' w1) as [ret w2]. destruct (Z.eqb_spec ret 0) as [E0|E0]; [|discriminate].
      cbn [negb] in E. injection E as <- <-. subst ret. split; reflexivity. }
    destruct (beq cmd (str "syncconf")) eqn:Es.
    + destruct (sync_conf W (y_backend Y) (y_qsort Y) d1 w) as [[d'|] w1] eqn:Ey; [|discriminate].
      apply G in H as [Ho Hb]. split; [exact Ho|]. exists iface, [path], d', w1. split; [reflexivity|]. split.
      * unfold sync_conf in Ey. destruct (d_peers d1); [injection Ey as <- _; reflexivity|].
        destruct (b_get (y_backend Y) (d_name d1) w) as [[r o] w2]. destruct (negb (r =? 0)); [discriminate|]. destruct o as [rt|]; [|discriminate].
        destruct (d_peers rt); injection Ey as <- _; reflexivity.
      * split; [exact Hb|]. apply beq_eq in Es. congruence.
    + apply G in H as [Ho Hb]. split; [exact Ho|]. exists iface, [path], d1, w. split; [reflexivity|]. split; [reflexivity|]. split; [exact Hb|reflexivity].
Qed.

(** ** From the file to the interface *)

(** What getaddrinfo promises. *)
Definition world_ok (e : env) : Prop :=
  (forall v p, e_port e v = Some p -> 0 <= p < 65536) /\ (forall h p ep, e_resolve e h p = Some ep -> wf_endpoint ep).

Lemma hexadecimal_nonneg : forall s n, hexadecimal s n -> 0 <= n.
Proof. intros s n H. induction H as [c v [D|[D|D]]|s n c v H IH [D|[D|D]]]; lia. Qed.
Lemma fwmark_range : forall v m, fwmark_value v m -> 0 <= m < 2 ^ 32.
Proof. intros v m H. change (2 ^ 32) with 4294967296. destruct H as [v H|v n H|h n H]; [lia|apply decimal_nonneg in H; lia|apply hexadecimal_nonneg in H; lia]. Qed.
Lemma ka_range : forall v m, keepalive_value v m -> 0 <= m < 65536.
Proof. intros v m H. destruct H as [v H|v n H]; [lia|apply decimal_nonneg in H; lia]. Qed.
Lemma last_in : forall (A : Type) (l : list A) d, l = [] /\ last l d = d \/ In (last l d) l.
Proof. intros A l d. destruct l as [|x l]; [left; split; reflexivity|]. right. destruct (exists_last (l := x :: l)) as (m & y & ->); [discriminate|]. rewrite last_last. apply in_or_app. right. left. reflexivity. Qed.
Lemma last_ok : forall (A : Type) (P : A -> Prop) l d, Forall P l -> P d -> P (last l d).
Proof. intros A P l d H Hd. destruct (last_in A l d) as [[_ ->]|Hi]; [exact Hd|]. rewrite Forall_forall in H. apply H, Hi. Qed.

Definition dev_ok (s : dev_setting) : Prop := match s with SPort p => 0 <= p < 65536 | SFwmark m => 0 <= m < 2 ^ 32 | SPriv k => wf_key k end.
Definition pset_ok (s : peer_setting) : Prop :=
  match s with SEndpoint e => wf_endpoint e | SPub k | SPsk k => wf_key k | SAips l => Forall wf_aip l | SKa n => 0 <= n < 65536 end.
Definition item_ok (i : ConfigSpec.item) : Prop := match i with ItDev s => dev_ok s | ItPeerS s => pset_ok s | _ => True end.

Lemma reads_ok : forall e s lines its, world_ok e -> reads (e_port e) (e_resolve e) normal s lines its -> Forall item_ok its.
Proof.
  intros e s lines its [Hp Hr] H. induction H as [s|s l ls its E H IH|s l ls its E H IH|s l ls its E H IH|l ls its x E H IH|l ls its x E H IH]; try constructor; try exact I; try assumption.
  - inversion E as [k v p K N V|k v m K N V|k v x' K N V]; subst; cbn [item_ok dev_ok]; [apply (Hp v), V|apply (fwmark_range v), V|apply V].
  - inversion E as [k v h p ep K N V R|k v x' K N V|k v l' K N V|k v n K N V|k v x' K N V]; subst; cbn [item_ok pset_ok];
      [apply (Hr h p), R|apply V|apply (C12_entries_well_formed v), V|apply (ka_range v), V|apply V].
Qed.

Lemma zero_key_ok : wf_key zero_key.
Proof. split; [reflexivity|]. apply Forall_forall. intros x H. apply repeat_spec in H. subst. unfold is_byte. lia. Qed.

Lemma settings_peer_ok : forall ss rm ra hp hk ha pub, Forall pset_ok ss -> wf_key pub ->
  wf_peer (mk_peer rm ra hp hk ha pub (last (psks ss) zero_key) (last (eps ss) EpNone) 0 0 0 0 (last (kas ss) 0) (aips ss)).
Proof.
  intros ss rm ra hp hk ha pub H Hp.
  assert (G : forall (B : Type) (f : peer_setting -> list B) (P : B -> Prop), (forall s, pset_ok s -> Forall P (f s)) -> Forall P (flat_map f ss)).
  { intros B f P Hf. apply Forall_forall. intros x Hx. apply in_flat_map in Hx as (s & Hs & Hx). rewrite Forall_forall in H. specialize (Hf s (H s Hs)). rewrite Forall_forall in Hf. apply Hf, Hx. }
  unfold wf_peer. cbn [p_pub p_psk p_endpoint p_ka p_aips p_rx p_tx p_hs_sec p_hs_nsec]. split; [exact Hp|].
  split; [apply last_ok; [apply G; intros []; cbn; intro; repeat constructor; apply H0|apply zero_key_ok]|].
  split; [apply last_ok; [apply G; intros []; cbn; intro; repeat constructor; assumption|exact I]|].
  split; [apply (last_ok Z (fun n => 0 <= n < 65536)); [apply G; intros []; cbn; intro; repeat constructor; lia|lia]|].
  split; [apply G; intros []; cbn; intro; try constructor; assumption|]. change (2 ^ 63) with 9223372036854775808. change (2 ^ 64) with 18446744073709551616. lia.
Qed.

Lemma dev_settings_ok : forall its, Forall item_ok its ->
  wf_key (last (privs its) zero_key) /\ 0 <= last (fwmarks its) 0 < 2 ^ 32 /\ 0 <= last (ports its) 0 < 65536.
Proof.
  intros its H.
  assert (G : forall (B : Type) (f : ConfigSpec.item -> list B) (P : B -> Prop), (forall s, item_ok s -> Forall P (f s)) -> Forall P (flat_map f its)).
  { intros B f P Hf. apply Forall_forall. intros x Hx. apply in_flat_map in Hx as (s & Hs & Hx). rewrite Forall_forall in H. specialize (Hf s (H s Hs)). rewrite Forall_forall in Hf. apply Hf, Hx. }
  split; [apply last_ok; [apply G; intros [| |[]|]; cbn; intro; repeat constructor; apply H0|apply zero_key_ok]|].
  change (2 ^ 32) with 4294967296.
  split; [apply (last_ok Z (fun n => 0 <= n < 4294967296))|apply (last_ok Z (fun n => 0 <= n < 65536))]; try lia; apply G; intros [| |[]|]; cbn; intro; repeat constructor; lia.
Qed.

Lemma groups_ok : forall its, Forall item_ok its -> Forall pset_ok (fst (groups its)) /\ Forall (Forall pset_ok) (snd (groups its)).
Proof.
  induction 1 as [|i its Hi H IH]; [split; constructor|]. cbn [groups]. destruct i; destruct (groups its) as [h g]; cbn [fst snd] in *; try exact IH.
  - split; [constructor|]. apply Forall_cons; apply IH.
  - split; [apply Forall_cons; [exact Hi|apply IH]|apply IH].
Qed.

(** Every accepted configuration is one the encoders of C18-C20, C24 can send. *)
Theorem C39_configurations_can_be_sent : forall e append lines d, world_ok e ->
  config_means (e_port e) (e_resolve e) append lines d -> wf_device d.
Proof.
  intros e append lines d Hw (its & R & -> & P). apply reads_ok in R; [|exact Hw]. destruct (dev_settings_ok its R) as (K & F & Q). destruct (groups_ok its R) as [_ G].
  unfold wf_device, device_of. cbn [d_pub d_priv d_fwmark d_port d_peers]. split; [apply zero_key_ok|]. split; [exact K|]. split; [exact F|]. split; [exact Q|].
  apply Forall_forall. intros p Hp. apply in_map_iff in Hp as (ss & <- & Hs). rewrite Forall_forall in G. specialize (G ss Hs). apply settings_peer_ok; [exact G|].
  apply last_ok; [|apply zero_key_ok]. apply Forall_forall. intros x Hx. apply in_flat_map in Hx as (s & Hi & Hx). rewrite Forall_forall in G. specialize (G s Hi).
  destruct s; cbn in Hx; try contradiction. destruct Hx as [<-|[]]. exact G.
Qed.
Theorem C39_arguments_can_be_sent : forall e argv d, world_ok e ->
  cmd_means (e_port e) (e_resolve e) (keyfile_of e) argv d -> wf_device d.
Proof.
  intros e argv d [Wp Wr] (dargs & ds & pargs & gs & -> & D & G & ->).
  assert (KF : forall path k, keyfile_of e path k -> wf_key k).
  { intros path k (c & s & _ & [(_ & _ & ->)|(t & ws & _ & [K _] & _)]); [apply zero_key_ok|exact K]. }
  assert (HD : Forall item_ok (map ItDev ds)).
  { clear G. induction D as [|a s dargs ds H D IH]; [constructor|]. cbn [map]. apply Forall_cons; [|exact IH].
    destruct H as [v p N V|v m V|path k V]; cbn [item_ok dev_ok]; [apply (Wp v), V|apply (fwmark_range v), V|apply (KF path), V]. }
  destruct (dev_settings_ok _ HD) as (K & F & Q).
  unfold wf_device, cmd_device. cbn [d_pub d_priv d_fwmark d_port d_peers]. split; [apply zero_key_ok|]. split; [exact K|]. split; [exact F|]. split; [exact Q|].
  clear - G Wr KF. induction G as [|a g pargs gs H G IH]; [constructor|]. cbn [map]. apply Forall_cons; [|exact IH].
  destruct H as [v k args acts [Hk _] HA]. unfold cmd_peer. cbn [fst snd]. apply settings_peer_ok; [|exact Hk].
  clear - HA Wr KF. induction HA as [|a s args acts H HA IH]; [constructor|]. unfold sets. cbn [flat_map]. apply Forall_app. split; [|exact IH].
  destruct H as [|v h p ep S R|v l A|v n A|path k A]; repeat constructor; cbn [pset_ok].
  - apply (Wr h p), R.
  - eapply C12_entries_well_formed, A.
  - apply (ka_range v), A.
  - apply (ka_range v), A.
  - apply (KF path), A.
  - apply (KF path), A.
Qed.

(** The kernel interface of C18-C20 as the other side: netlink messages, acknowledgements and all. *)
Definition netlink (pubkey : list Z -> list Z) (B id portid : Z) (now : nat -> Z) (quote : iface -> list Z -> list Z) (flags : iface -> list Z -> Z) (buf : list Z)
  (get : list Z -> iface -> Z * option device * iface) : backend iface :=
  mk_backend iface get (fun d s => match kernel_set_device (answers (interface pubkey) portid quote flags) B id portid now d buf s with
                                   | Some (ret, s', _) => (ret, s')
                                   | None => (-1, s)      (* access outside a buffer *)
                                   end).

Lemma netlink_set : forall pubkey B id portid now quote flags buf get d name s,
  272 <= B <= 8192 -> (forall i, 0 <= now i < 2 ^ 32) -> fair (interface pubkey) portid quote flags -> Forall is_char name -> wf_device d ->
  b_set (netlink pubkey B id portid now quote flags buf get) (set_name (firstn 15 name) d) s = (0, apply_request pubkey s (request_of d)).
Proof.
  intros pubkey B id portid now quote flags buf get d name s HB Hnow Hf Hn Hw.
  destruct (C19_fragmentation_invisible B id now (set_name (firstn 15 name) d) pubkey portid quote flags buf s) as (log & qs & E & _); try assumption.
  - split; [|cbn [set_name d_name]; rewrite firstn_length; lia]. cbn [set_name d_name]. apply Forall_forall. intros x Hx. rewrite Forall_forall in Hn. apply Hn.
    rewrite <- (firstn_skipn 15 name). apply in_or_app. left. exact Hx.
  - cbn [b_set netlink]. rewrite E. reflexivity.
Qed.

(** "wg setconf" and "wg addconf" on the kernel's interface: whatever the (valid) file and whatever the state before, the interface afterwards
    is what one atomic application of the file makes of it, and the command succeeds. *)
Theorem C39_setconf_end_to_end : forall (Y : system iface) pubkey B id portid now quote flags buf get prog cmd name path s d,
  sane Y -> world_ok (y_env Y) -> y_backend Y = netlink pubkey B id portid now quote flags buf get ->
  272 <= B <= 8192 -> (forall i, 0 <= now i < 2 ^ 32) -> fair (interface pubkey) portid quote flags -> Forall is_char name ->
  In cmd (map str ["setconf"; "addconf"]%string) -> file_means Y (beq cmd (str "addconf")) path d ->
  wg_main Y [prog; cmd; name; path] s = (Exit 0 [], apply_request pubkey s (request_of d)).
Proof.
  intros Y pubkey B id portid now quote flags buf get prog cmd name path s d Hs Hw Hb HB Hnow Hf Hn Hc Hm.
  assert (Wd : wf_device d) by (destruct Hm as (c & err & _ & M); apply (C39_configurations_can_be_sent (y_env Y) _ _ _ Hw M)).
  rewrite (C39_setconf iface Y prog cmd name path s d Hs Hc Hm 0 (apply_request pubkey s (request_of d))); [reflexivity|].
  rewrite Hb. apply netlink_set; assumption.
Qed.
Theorem C39_set_end_to_end : forall (Y : system iface) pubkey B id portid now quote flags buf get prog name args s d,
  sane Y -> world_ok (y_env Y) -> y_backend Y = netlink pubkey B id portid now quote flags buf get ->
  272 <= B <= 8192 -> (forall i, 0 <= now i < 2 ^ 32) -> fair (interface pubkey) portid quote flags -> Forall is_char name ->
  text args -> args <> [] -> cmd_means (e_port (y_env Y)) (e_resolve (y_env Y)) (keyfile_of (y_env Y)) args d ->
  wg_main Y (prog :: str "set" :: name :: args) s = (Exit 0 [], apply_request pubkey s (request_of d)).
Proof.
  intros Y pubkey B id portid now quote flags buf get prog name args s d Hs Hw Hb HB Hnow Hf Hn Ht Hne Hm.
  pose proof (C39_arguments_can_be_sent (y_env Y) args d Hw Hm) as Wd.
  destruct (C39_set iface Y prog name args s Hs Ht Hne) as [H _]. rewrite (H d Hm 0 (apply_request pubkey s (request_of d))); [reflexivity|].
  rewrite Hb. apply netlink_set; assumption.
Qed.

(** ** A concrete system: the file of C06, one that breaks off, and recorded updates *)
Definition recorder : backend (list device) := mk_backend (list device) (fun _ l => (-19, None, l)) (fun d l => (0, d :: l)).
Definition unlines0 (ls : list (list Z)) : list Z := flat_map (fun l => l ++ [10]) ls.
Definition show_env0 : show_env := mk_show_env true false None 0 (fun _ _ => []) (fun _ => []).
Definition sys0 {W} (B : backend W) : system W :=
  mk_system W env0 B (fun w => (Some [0], w)) show_env0 (fun l => l) (fun _ _ => [])
    (fun p => if beq p (str "/etc/wg0.conf") then Some (unlines0 file0, false)
              else if beq p (str "/broken") then Some (firstn 234 (unlines0 file0), true) else None)
    (mk_random None None false []) (repeat 0 32) [] (fun k => k).

Lemma sys0_sane : forall W (B : backend W), sane (sys0 B) /\ world_ok env0.
Proof.
  intros W B. assert (FB : Forall is_byte (unlines0 file0)).
  { apply Forall_forall. intros x Hx. apply in_flat_map in Hx as (l & Hl & Hx). pose proof file0_text as T. unfold text in T. rewrite Forall_forall in T. specialize (T l Hl).
    apply in_app_or in Hx as [Hx|[<-|[]]]; [|unfold is_byte; lia]. rewrite Forall_forall in T. apply T, Hx. }
  split; [split; [reflexivity|split]|].
  - intros path c err. cbn [sys0 y_file]. destruct (beq path (str "/etc/wg0.conf")); [intro E; injection E as <- _; exact FB|].
    destruct (beq path (str "/broken")); [|discriminate]. intro E. injection E as <- _. apply Forall_forall. intros x Hx. rewrite Forall_forall in FB. apply FB.
    rewrite <- (firstn_skipn 234 (unlines0 file0)). apply in_or_app. left. exact Hx.
  - intros path c s r. cbn [sys0 y_env env0 e_file]. destruct (beq path (str "/k")); [intro E; injection E as <- _ _|destruct (beq path (str "/dev/null")); [intro E; injection E as <- _ _; constructor|discriminate]].
    repeat (apply Forall_cons; [unfold is_byte; lia|]). constructor.
  - split.
    + intros v p. cbn [env0 e_port]. destruct (beq v (str "51820")); [intro E; injection E as <-; lia|discriminate].
    + intros h p ep. cbn [env0 e_resolve]. destruct (beq h (str "192.0.2.1") && beq p (str "51820")); [intro E; injection E as <-|discriminate].
      cbn [wf_endpoint]. split; [reflexivity|]. split; [repeat constructor; lia|lia].
Qed.

Example C39_example : wg_main (sys0 recorder) [str "wg"; str "setconf"; str "wg0"; str "/etc/wg0.conf"] []
  = (Exit 0 [], [set_name (str "wg0") (dev0 false)]).
Proof. vm_compute. reflexivity. Qed.
Example C39_example_kernel : exists s, wg_main (sys0 (netlink (fun k => k) 272 30 77 (fun i => Z.of_nat i) ex_quote (fun _ _ => 0) [] (fun _ s => (-19, None, s))))
    [str "wg"; str "setconf"; str "wg0"; str "/etc/wg0.conf"] (mk_iface zero_key 0 0 [] []) = (Exit 0 [], s) /\ i_port s = 51820 /\ length (i_aips s) = 3%nat.
Proof. eexists. split; [vm_compute; reflexivity|]. split; reflexivity. Qed.
Example C06_example_rejected : wg_main (sys0 recorder) [str "wg"; str "syncconf"; str "wg0"; str "/nope"] [] = (Exit 1 [], []).
Proof. vm_compute. reflexivity. Qed.

(** A read error in the middle of the file passes for its end: the beginning alone is applied, and the command reports success.
    (setconf.c:119 does not look at ferror.) *)
Theorem C06_read_error_refuted : exists d, y_file (sys0 recorder) (str "/broken") = Some (firstn 234 (unlines0 file0), true)
  /\ wg_main (sys0 recorder) [str "wg"; str "setconf"; str "wg0"; str "/broken"] [] = (Exit 0 [], [d])
  /\ d_peers (dev0 false) <> d_peers d /\ map p_endpoint (d_peers d) = [EpNone].
Proof. eexists. split; [reflexivity|]. split; [vm_compute; reflexivity|]. split; [discriminate|reflexivity]. Qed.

(** ** C45: which interface is changed *)

(** Names that fit (up to 15 characters) are addressed exactly. *)
Theorem C45_short_names : forall W (Y : system W) prog cmd iface rest w out w',
  In cmd (map str ["set"; "setconf"; "addconf"; "syncconf"]%string) -> (length iface <= 15)%nat ->
  wg_main Y (prog :: cmd :: iface :: rest) w = (Exit 0 out, w') ->
  exists d w1, b_set (y_backend Y) d w1 = (0, w') /\ d_name d = iface.
Proof.
  intros W Y prog cmd iface rest w out w' Hc Hl H. destruct (C39_success_is_honest W Y prog cmd (iface :: rest) w out w' Hc H) as (_ & i & args & d & w1 & E & Hn & Hb & _).
  injection E as <- _. exists d, w1. split; [exact Hb|]. rewrite Hn. apply firstn_all2. exact Hl.
Qed.
(** A longer name is silently cut, and another interface, if there is one of the shorter name, is changed. *)
Theorem C45_long_names_refuted : forall W (Y : system W) prog cmd iface path w d, sane Y -> (15 < length iface)%nat ->
  In cmd (map str ["setconf"; "addconf"]%string) -> file_means Y (beq cmd (str "addconf")) path d ->
  wg_main Y [prog; cmd; iface; path] w = wg_main Y [prog; cmd; firstn 15 iface; path] w /\ firstn 15 iface <> iface.
Proof.
  intros W Y prog cmd iface path w d Hs Hl Hc Hm. split.
  - destruct (b_set (y_backend Y) (set_name (firstn 15 iface) d) w) as [ret w'] eqn:E.
    rewrite (C39_setconf W Y prog cmd iface path w d Hs Hc Hm ret w' E).
    rewrite (C39_setconf W Y prog cmd (firstn 15 iface) path w d Hs Hc Hm ret w'); [reflexivity|]. rewrite firstn_firstn. exact E.
  - intro E. apply (f_equal (@length Z)) in E. rewrite firstn_length in E. lia.
Qed.
Example C45_example : wg_main (sys0 recorder) [str "wg"; str "setconf"; str "wireguard-office2"; str "/etc/wg0.conf"] []
  = (Exit 0 [], [set_name (str "wireguard-offic") (dev0 false)]).
Proof. vm_compute. reflexivity. Qed.

(** ** The status of show and showconf *)
(** showconf fails, and prints nothing, whenever the interface could not be read, whatever the (nonzero) reason. *)
Theorem C39_showconf : forall W (Y : system W) prog iface w ret dev w1, b_get (y_backend Y) iface w = (ret, dev, w1) ->
  (ret <> 0 -> wg_main Y [prog; str "showconf"; iface] w = (Exit 1 [], w1))
  /\ (forall d, ret = 0 -> dev = Some d -> wg_main Y [prog; str "showconf"; iface] w = (Exit 0 (conf_text (y_scope_name Y) d), w1)).
Proof.
  intros W Y prog iface w ret dev w1 G.
  assert (E : wg_main Y [prog; str "showconf"; iface] w = let '(s, t, w1) := showconf_main (y_scope_name Y) (y_backend Y) [str "showconf"; iface] w in (Exit s t, w1)) by reflexivity.
  rewrite E. unfold showconf_main. rewrite G. split.
  - intro H. destruct (Z.eqb_spec ret 0); [contradiction|reflexivity].
  - intros d -> ->. reflexivity.
Qed.
(** syncconf with a file that has peers fails, and changes nothing, whenever the interface could not be read. *)
Theorem C39_syncconf_unread : forall W (Y : system W) prog iface path w d ret dev w1, sane Y -> file_means Y false path d -> d_peers d <> [] ->
  b_get (y_backend Y) (firstn 15 iface) w = (ret, dev, w1) -> ret <> 0 -> wg_main Y [prog; str "syncconf"; iface; path] w = (Exit 1 [], w1).
Proof.
  intros W Y prog iface path w d ret dev w1 Hs Hm Hp G Hr.
  destruct (C39_dispatch W Y prog w) as (_ & _ & _ & _ & _ & _ & _ & D & _). rewrite (D (str "syncconf") [iface; path]) by (cbn [map In]; tauto). clear D.
  pose proof (file_means_iff W Y false path Hs) as F. unfold setconf_main. change (beq (str "syncconf") (str "addconf")) with false.
  destruct (lines_of Y path) as [lines|]; [|exfalso; exact (F d Hm)]. apply F in Hm. rewrite Hm. cbv zeta. change (beq (str "syncconf") (str "syncconf")) with true. cbv iota.
  unfold sync_conf. cbn [d_peers d_name set_name]. destruct (d_peers d) as [|p ps]; [congruence|]. rewrite G. destruct (Z.eqb_spec ret 0); [contradiction|reflexivity].
Qed.
(** What reading the interfaces one after the other gives. *)
Fixpoint reads {W} (B : backend W) (names : list (list Z)) (w : W) : list (Z * option device) :=
  match names with
  | [] => []
  | n :: rest => let '(r, dev, w1) := b_get B n w in (r, dev) :: reads B rest w1
  end.
(** 'wg show', 'wg show all' and 'wg show all <parameter>' succeed iff there is no interface or one could be read. *)
Theorem C39_show_all : forall E W list_devices (B : backend W) a0 args w buf w1 st out w2,
  list_devices w = (Some buf, w1) -> args = [] \/ args = [str "all"] \/ (exists p, args = [str "all"; p] /\ forall d, ugly_print E d p true <> None) ->
  show_main E W list_devices B (a0 :: args) w = (Exit st out, w2) ->
  (st = 0 \/ st = 1) /\ (st = 0 <-> names_of buf = [] \/ exists r dev, In (r, dev) (reads B (names_of buf) w1) /\ 0 <= r).
Proof.
  intros E W ld B a0 args w buf w1 st out w2 L A H.
  assert (X : exists param, (forall p, param = Some p -> forall d, ugly_print E d p true <> None) /\ show_all E W B param (names_of buf) (match names_of buf with [] => 0 | _ => 1 end) [] w1 = (Exit st out, w2)).
  { unfold show_main in H. rewrite L in H. destruct A as [->|[->|(p & -> & Hp)]]; cbn [length Nat.ltb Nat.leb hd_error] in H.
    - exists None. split; [discriminate|exact H].
    - exists None. change (beq (str "all") (str "all")) with true in H. cbv iota in H. split; [discriminate|exact H].
    - exists (Some p). change (beq (str "all") (str "all")) with true in H. cbv iota in H. split; [intros p0 Ep; injection Ep as <-; exact Hp|exact H]. }
  destruct X as (param & V & S). clear H A L.
  assert (G : forall names ret o w, ret = 0 \/ ret = 1 -> show_all E W B param names ret o w = (Exit st out, w2) -> (st = 0 \/ st = 1) /\ (st = 0 <-> ret = 0 \/ exists r dev, In (r, dev) (reads B names w) /\ 0 <= r)).
  { clear S w1 w buf. induction names as [|n names IH]; intros ret o w Hr S; cbn [show_all reads] in *.
    - injection S as <- _ _. split; [exact Hr|]. split; [auto|]. intros [->|(r & dev & [] & _)]. reflexivity.
    - destruct (b_get B n w) as [[r dev] w1]. destruct (Z.ltb_spec r 0) as [Hn|Hn].
      + apply IH in S; [|exact Hr]. destruct S as [S1 S2]. split; [exact S1|]. rewrite S2. split.
        * intros [->|(r' & dev' & I & P)]; [left; reflexivity|right; exists r', dev'; split; [right; exact I|exact P]].
        * intros [->|(r' & dev' & [I|I] & P)]; [left; reflexivity|injection I as <- _; lia|right; exists r', dev'; auto].
      + assert (Y : exists o' , show_all E W B param names 0 o' w1 = (Exit st out, w2)).
        { destruct param as [p|].
          - destruct dev as [d|]; destruct (ugly_print E _ p true) as [t|] eqn:U; try (exfalso; eapply V; [reflexivity|exact U]); [eauto|discriminate].
          - destruct dev as [d|]; [eauto|discriminate]. }
        destruct Y as [o' Y]. apply IH in Y; [|left; reflexivity]. destruct Y as [S1 S2]. split; [exact S1|]. rewrite S2. split.
        * intros _. right. exists r, dev. split; [left; reflexivity|exact Hn].
        * intros _. left. reflexivity. }
  apply G in S; [|destruct (names_of buf); auto]. destruct S as [S1 S2]. split; [exact S1|]. rewrite S2. destruct (names_of buf); [tauto|].
  split; [intros [H|H]; [discriminate|right; exact H]|intros [H|H]; [discriminate|right; exact H]].
Qed.
