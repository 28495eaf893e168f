(** Proofs about src/ipc-uapi.h: reports of device states are read back exactly. *)
From Coq Require Import String ZArith List Bool Lia.
From Verif Require Import Base Ctype Encoding EncodingSpec EncodingProofs HexProofs Cstr CstrProofs Inet InetProofs TextProofs Types
  NumSpec ConfigSpec Config ConfigProofs ConfigProofs2 ConfigProofs4 NlSpec UapiSpec Uapi UapiProofs UapiProofs2 UapiProofs3.
Import ListNotations.
Open Scope Z_scope.

Lemma decimal_print : forall n, 0 <= n -> decimal (print_dec n) n.
Proof. intros n H. apply decimal_iff. split; [apply print_num_nonempty|apply print_dec_value, H]. Qed.

(** A protocol read exactly is read by this code the same way. *)
Lemma get_pair_exact : forall ulmax ep b k v i, 255 <= ulmax -> get_pair ep (fun n => n) (fun n => n) b k v i -> get_pair ep (narrow8 ulmax) clip64 b k v i.
Proof.
  intros ulmax ep b k v i U H. inversion H; subst; try (constructor; assumption).
  - apply (gp_ep _ _ _ v h p e); assumption.
  - pose proof (decimal_nonneg _ _ H2). assert (full <= 128) by (inversion H1; lia).
    assert (E : narrow8 ulmax n = n) by (unfold narrow8; rewrite Z.min_l by lia; apply Z.mod_small; lia).
    replace (GAip (mk_aip fam a n)) with (GAip (mk_aip fam a (narrow8 ulmax n))) by (rewrite E; reflexivity).
    apply (gp_aip _ _ _ h m fam a full n); [assumption|assumption|assumption|]. rewrite E. assumption.
  - assert (E : clip64 n = n) by (unfold clip64; lia). replace (GRx n) with (GRx (clip64 n)) by (rewrite E; reflexivity). apply gp_rx; [assumption|]. rewrite E. assumption.
  - assert (E : clip64 n = n) by (unfold clip64; lia). replace (GTx n) with (GTx (clip64 n)) by (rewrite E; reflexivity). apply gp_tx; [assumption|]. rewrite E. assumption.
Qed.
Lemma get_lines_exact : forall ulmax ep, 255 <= ulmax -> forall b ls its, get_lines ep (fun n => n) (fun n => n) b ls its -> get_lines ep (narrow8 ulmax) clip64 b ls its.
Proof.
  intros ulmax ep U b ls its H. induction H as [b|b l k v i ls its P G H IH]; [constructor|].
  apply (gl_cons _ _ _ _ l k v i); [exact P|apply get_pair_exact; assumption|exact IH].
Qed.

Section Report.
Variable ep_of : list Z -> list Z -> endpoint -> Prop.
Variable host6 : list Z -> Z -> list Z.
Notation glines := (get_lines ep_of (fun n => n) (fun n => n)).

Definition ends (b : bool) (its : list get_item) : bool := b || existsb is_peer its.
Lemma glines_app : forall b l1 i1, glines b l1 i1 -> forall l2 i2, glines (ends b i1) l2 i2 -> glines b (l1 ++ l2) (i1 ++ i2).
Proof.
  induction 1 as [b|b l k v i ls its P G H IH]; intros l2 i2 H2; cbn [app].
  - unfold ends in H2. cbn [existsb] in H2. rewrite orb_false_r in H2. exact H2.
  - apply (gl_cons _ _ _ b l k v i); [exact P|exact G|]. apply IH. unfold ends in *. cbn [existsb] in H2. rewrite <- orb_assoc. exact H2.
Qed.

Lemma line_pair : forall k v, ~ In 61 (str k) -> ~ In 0 (str k) -> ~ In 10 (str k) -> ~ In 0 v -> ~ In 10 v -> pair_line (line k v) (str k) v.
Proof.
  intros k v H1 H2 H3 H4 H5. unfold line. repeat split; try assumption; rewrite in_app_iff; cbn [In]; intros [G|[G|G]]; try lia; auto.
Qed.
Ltac noc := let G := fresh in intro G; vm_compute in G; repeat destruct G as [G|G]; try discriminate G; contradiction G.
Lemma one : forall b k v i, ~ In 61 (str k) -> ~ In 0 (str k) -> ~ In 10 (str k) -> ~ In 0 v -> ~ In 10 v ->
  get_pair ep_of (fun n => n) (fun n => n) b (str k) v i -> glines b [line k v] [i].
Proof. intros. apply (gl_cons _ _ _ b _ (str k) v i); [apply line_pair; assumption|assumption|constructor]. Qed.

Lemma dec_no : forall c n, 0 <= n -> ~ addr_char c -> ~ In c (print_dec n).
Proof. intros c n H. apply not_in_by, dec_addr, H. Qed.
Lemma hex_no : forall c k, wf_key k -> ~ key_char c -> ~ In c (hex_spec k).
Proof. intros c k H. rewrite <- (key_to_hex_spec k H). apply not_in_by, hex_chars, H. Qed.
Lemma hex_key_spec : forall k, wf_key k -> hex_key (hex_spec k) k.
Proof. intros k H. split; [exact H|]. apply unhex_hex. apply H. Qed.
Lemma some_when : forall (b : bool) A (x : A), some (if b then [x] else []) = b.
Proof. intros [|]; reflexivity. Qed.

Ltac ac := unfold addr_char, key_char; lia.

Lemma aip_report : forall a, wf_aip a -> glines true [line "allowed_ip" (aip_text a)] [GAip a].
Proof.
  intros [fam ip c] W. unfold wf_aip in W. cbn [a_family a_ip a_cidr] in W. unfold aip_text. cbn [a_family a_ip a_cidr].
  assert (N : forall x h, Forall addr_char h -> 0 <= c -> ~ addr_char x -> x <> 47 -> ~ In x (h ++ 47 :: print_dec c)).
  { intros x h Hh Hc Hx H47. rewrite in_app_iff. cbn [In]. intros [G|[G|G]]; [|lia|]; revert G; [apply (not_in_by _ _ _ Hh Hx)|apply dec_no; assumption]. }
  destruct W as [(-> & L & B & H)|(-> & L & B & H)].
  - change (AF_INET =? AF_INET) with true. cbv iota. pose proof (ntop4_addr ip B) as C.
    apply one; [noc|noc|noc|apply N; [exact C|lia|ac|lia]|apply N; [exact C|lia|ac|lia]|].
    apply (gp_aip ep_of (fun n => n) (fun n => n) (inet_ntop4 ip) (print_dec c) AF_INET ip 32 c); [apply (not_in_by _ _ _ C); ac| |apply decimal_print; lia|lia].
    apply ip_4; [|apply inet4_roundtrip; split; assumption]. apply (not_in_by _ _ _ (ntop4_chars ip B)). lia.
  - change (AF_INET6 =? AF_INET) with false. cbv iota. pose proof (ntop6_chars ip B) as C. assert (Ba : bytes_n 16 ip) by (split; assumption).
    apply one; [noc|noc|noc|apply N; [exact C|lia|ac|lia]|apply N; [exact C|lia|ac|lia]|].
    apply (gp_aip ep_of (fun n => n) (fun n => n) (inet_ntop6 ip) (print_dec c) AF_INET6 ip 128 c); [apply (not_in_by _ _ _ C); ac| |apply decimal_print; lia|lia].
    apply ip_6; [apply ntop6_colon_in, Ba|apply inet6_roundtrip, Ba].
Qed.
Lemma aips_report : forall l, Forall wf_aip l -> glines true (map (fun a => line "allowed_ip" (aip_text a)) l) (map GAip l).
Proof.
  induction 1 as [|a l Ha Hl IH]; [constructor|]. apply (glines_app true [line "allowed_ip" (aip_text a)] [GAip a] (aip_report a Ha)). exact IH.
Qed.

Definition ep_items (e : endpoint) : list get_item := match e with EpNone => [] | _ => [GEp e] end.
Lemma ep_report : forall e, wf_endpoint e -> resolves ep_of host6 e -> glines true (ep_text host6 e) (ep_items e).
Proof.
  intros e W R. destruct e as [|a p|a p f s]; cbn [ep_text ep_items resolves] in *; [constructor| |].
  - destruct W as (L & B & P). pose proof (ntop4_chars a B) as C.
    apply one; [noc|noc|noc| | |].
    1-2: rewrite in_app_iff; cbn [In]; intros [G|[G|G]]; [revert G; apply (not_in_by _ _ _ C); lia|lia|revert G; apply dec_no; [lia|ac]].
    apply (gp_ep _ _ _ _ (inet_ntop4 a) (print_dec p)); [|exact R]. apply es_plain.
    + destruct (inet_ntop4 a); [cbn; lia|]. cbn. inversion_clear C. lia.
    + apply (not_in_by _ _ _ (print_dec_digits p ltac:(lia))). lia.
    + apply print_num_nonempty.
  - destruct W as (L & B & P & _). destruct R as (R & N93 & N10 & N0).
    apply one; [noc|noc|noc| | |].
    1-2: cbn [In]; rewrite in_app_iff; cbn [In]; intros [G|[G|[G|[G|G]]]]; [lia|contradiction|lia|lia|revert G; apply dec_no; [lia|ac]].
    apply (gp_ep _ _ _ _ (host6 a s) (print_dec p)); [|exact R]. apply es_bracket; [exact N93|apply print_num_nonempty].
Qed.

Definition peer_items (p : peer) : list get_item :=
  GPsk (p_psk p) :: ep_items (p_endpoint p) ++ when (p_has_ka p) (GKa (p_ka p)) ++
  [GSec (p_hs_sec p); GNsec (p_hs_nsec p); GTx (p_tx p); GRx (p_rx p)] ++ map GAip (p_aips p).

Lemma peer_items_ends : forall p, existsb is_peer (peer_items p) = false.
Proof.
  intro p. unfold peer_items. cbn [existsb is_peer orb]. rewrite !existsb_app.
  assert (E : existsb is_peer (map GAip (p_aips p)) = false) by (induction (p_aips p); [reflexivity|assumption]). rewrite E.
  destruct (p_endpoint p), (p_has_ka p); reflexivity.
Qed.

Lemma peer_report_ok : forall b p, reported_peer p -> resolves ep_of host6 (p_endpoint p) ->
  glines b (peer_report host6 p) (GPeer (p_pub p) :: peer_items p).
Proof.
  intros b p ((Wk & Ws & We & Wa & Wi & Wr & Wt & Wh & Wn) & _ & _ & _ & _ & _ & Hs & Hn) R. unfold peer_report, peer_items.
  apply (glines_app b [_] [_]).
  { apply one; [noc|noc|noc|apply hex_no; [exact Wk|ac]|apply hex_no; [exact Wk|ac]|]. apply gp_peer, hex_key_spec, Wk. }
  unfold ends. cbn [existsb is_peer orb]. rewrite orb_true_r.
  apply (glines_app true [_] [_]).
  { apply one; [noc|noc|noc|apply hex_no; [exact Ws|ac]|apply hex_no; [exact Ws|ac]|]. apply gp_psk, hex_key_spec, Ws. }
  apply (glines_app true (ep_text host6 (p_endpoint p)) (ep_items (p_endpoint p))); [apply ep_report; assumption|].
  apply (glines_app true (when (p_has_ka p) _) (when (p_has_ka p) (GKa (p_ka p)))).
  { destruct (p_has_ka p); [|constructor]. apply one; [noc|noc|noc|apply dec_no; [lia|ac]|apply dec_no; [lia|ac]|]. apply gp_ka; [apply decimal_print; lia|lia]. }
  apply (glines_app true [_; _; _; _] [_; _; _; _]); [|apply aips_report, Wi].
  apply (glines_app true [_] [_]); [apply one; [noc|noc|noc|apply dec_no; [lia|ac]|apply dec_no; [lia|ac]|]; apply gp_sec; [apply decimal_print; lia|lia]|].
  apply (glines_app true [_] [_]); [apply one; [noc|noc|noc|apply dec_no; [lia|ac]|apply dec_no; [lia|ac]|]; apply gp_nsec; [apply decimal_print; lia|lia]|].
  apply (glines_app true [_] [_]); [apply one; [noc|noc|noc|apply dec_no; [lia|ac]|apply dec_no; [lia|ac]|]; apply (gp_tx ep_of (fun n => n) (fun n => n)); [apply decimal_print; lia|lia]|].
  apply one; [noc|noc|noc|apply dec_no; [lia|ac]|apply dec_no; [lia|ac]|]; apply (gp_rx ep_of (fun n => n) (fun n => n)); [apply decimal_print; lia|lia].
Qed.

Lemma peers_report_ok : forall ps b, Forall reported_peer ps -> Forall (fun p => resolves ep_of host6 (p_endpoint p)) ps ->
  exists its, glines b (flat_map (peer_report host6) ps) its /\ gpeers (its ++ [GErrno 0]) = (match ps with [] => [GErrno 0] | _ => [] end, 
     map (fun p => (p_pub p, peer_items p)) (removelast ps) ++ match rev ps with [] => [] | p :: _ => [(p_pub p, peer_items p ++ [GErrno 0])] end)
    /\ gprivs its = [] /\ gports its = [] /\ gmarks its = [] /\ gerrnos its = [].
Proof.
  assert (NE : forall p h g r, gpeers r = (h, g) -> gpeers (peer_items p ++ r) = (peer_items p ++ h, g)).
  { intros p h g r E. unfold peer_items.
    assert (A : forall l, gpeers (map GAip l ++ r) = (map GAip l ++ h, g)) by (induction l as [|a l IH]; cbn [map app gpeers]; [exact E|rewrite IH; reflexivity]).
    destruct (p_endpoint p), (p_has_ka p); cbn [ep_items when app gpeers]; rewrite <- ?app_assoc; cbn [app gpeers]; rewrite A; reflexivity. }
  assert (F : forall p, gprivs (peer_items p) = [] /\ gports (peer_items p) = [] /\ gmarks (peer_items p) = [] /\ gerrnos (peer_items p) = []).
  { intro p. unfold peer_items, gprivs, gports, gmarks, gerrnos.
    assert (A : forall (f : get_item -> list (list Z)) l, (forall a, f (GAip a) = []) -> flat_map f (map GAip l) = []) by (intros f l H; induction l as [|a l IH]; cbn; [reflexivity|rewrite H, IH; reflexivity]).
    assert (A' : forall (f : get_item -> list Z) l, (forall a, f (GAip a) = []) -> flat_map f (map GAip l) = []) by (intros f l H; induction l as [|a l IH]; cbn; [reflexivity|rewrite H, IH; reflexivity]).
    destruct (p_endpoint p), (p_has_ka p); cbn [ep_items when app flat_map]; rewrite A, !A' by reflexivity; auto. }
  induction ps as [|p ps IH]; intros b H1 H2.
  - exists []. split; [constructor|]. cbn. auto.
  - inversion_clear H1 as [|? ? Hp Hps]. inversion_clear H2 as [|? ? Rp Rps]. destruct (IH (ends b (GPeer (p_pub p) :: peer_items p)) Hps Rps) as (its & G & E & E1 & E2 & E3 & E4).
    exists ((GPeer (p_pub p) :: peer_items p) ++ its). split; [|split].
    + cbn [flat_map]. apply glines_app; [apply peer_report_ok; assumption|exact G].
    + cbn [app gpeers]. rewrite <- app_assoc, (NE p _ _ _ E). destruct ps as [|p' ps].
      * cbn. reflexivity.
      * rewrite app_nil_r. change (removelast (p :: p' :: ps)) with (p :: removelast (p' :: ps)). cbn [map app]. f_equal. f_equal. f_equal.
        change (rev (p :: p' :: ps)) with (rev (p' :: ps) ++ [p]). destruct (rev (p' :: ps)) as [|q qs] eqn:Q; [|reflexivity].
        apply (f_equal (@rev peer)) in Q. rewrite rev_involutive in Q. discriminate.
    + destruct (F p) as (F1 & F2 & F3 & F4). unfold gprivs, gports, gmarks, gerrnos in *. cbn [app flat_map]. rewrite !flat_map_app.
      rewrite F1, F2, F3, F4, E1, E2, E3, E4. auto.
Qed.

Lemma gpeer_items : forall p t, reported_peer p -> (t = [] \/ t = [GErrno 0]) -> gpeer (p_pub p, peer_items p ++ t) = p.
Proof.
  intros p t (W & R1 & R2 & R3 & R4 & R5 & R6 & R7) Ht. unfold gpeer. cbn [fst snd].
  assert (G : gpsks (peer_items p ++ t) = [p_psk p] /\ geps (peer_items p ++ t) = match p_endpoint p with EpNone => [] | e => [e] end
    /\ gkas (peer_items p ++ t) = when (p_has_ka p) (p_ka p) /\ gaips (peer_items p ++ t) = p_aips p /\ gsecs (peer_items p ++ t) = [p_hs_sec p]
    /\ gnsecs (peer_items p ++ t) = [p_hs_nsec p] /\ grxs (peer_items p ++ t) = [p_rx p] /\ gtxs (peer_items p ++ t) = [p_tx p]).
  { unfold gpsks, geps, gkas, gaips, gsecs, gnsecs, grxs, gtxs, peer_items.
    assert (A : forall A (f : get_item -> list A) l, (forall a, f (GAip a) = []) -> (forall n, f (GErrno n) = []) -> flat_map f (map GAip l ++ t) = []).
    { intros A f l H H'. rewrite flat_map_app. replace (flat_map f t) with (@nil A) by (destruct Ht as [-> | ->]; cbn; rewrite ?H'; reflexivity). rewrite app_nil_r.
      induction l as [|a l IH]; cbn; [reflexivity|rewrite H, IH; reflexivity]. }
    assert (I : forall l, flat_map (fun i : get_item => match i with GAip k => [k] | _ => [] end) (map GAip l ++ t) = l).
    { intro l. rewrite flat_map_app. replace (flat_map (fun i : get_item => match i with GAip k => [k] | _ => [] end) t) with (@nil allowedip) by (destruct Ht as [-> | ->]; reflexivity). rewrite app_nil_r.
      induction l as [|a l IH]; cbn; [reflexivity|rewrite IH; reflexivity]. }
    destruct (p_endpoint p), (p_has_ka p); cbn [ep_items when flat_map app]; rewrite I, !A by reflexivity; repeat split; reflexivity. }
  destruct G as (-> & -> & -> & -> & -> & -> & -> & ->). cbn [existsb last]. rewrite orb_false_r.
  rewrite <- R4. replace (some (when (p_has_ka p) (p_ka p))) with (p_has_ka p) by (destruct (p_has_ka p); reflexivity).
  replace (last (when (p_has_ka p) (p_ka p)) 0) with (p_ka p) by (destruct (p_has_ka p); [reflexivity|symmetry; symmetry; apply R5; reflexivity]).
  replace (last match p_endpoint p with EpNone => [] | e => [e] end EpNone) with (p_endpoint p) by (destruct (p_endpoint p); reflexivity).
  destruct p; cbn in *; subst; reflexivity.
Qed.

Lemma report_reply : forall pubkey d, reported pubkey d -> Forall (fun p => resolves ep_of host6 (p_endpoint p)) (d_peers d) ->
  reply ep_of (fun n => n) (fun n => n) pubkey (d_name d) (report host6 d) 0 d.
Proof.
  intros pubkey d ((_ & Wk & Wm & Wp & _) & Nm & R1 & R2 & R3 & R4 & R5 & R6 & R7 & R8) Re.
  destruct (peers_report_ok (d_peers d) false R8 Re) as (its & G & E & E1 & E2 & E3 & E4).
  set (pre := when (d_has_priv d) (GPriv (d_priv d)) ++ when (d_has_port d) (GPort (d_port d)) ++ when (d_has_fwmark d) (GMark (d_fwmark d))).
  assert (Ep : existsb is_peer pre = false) by (unfold pre; destruct (d_has_priv d), (d_has_port d), (d_has_fwmark d); reflexivity).
  unfold report. eexists. exists (pre ++ its ++ [GErrno 0]), []. split; [reflexivity|].
  assert (Gp : glines false (when (d_has_priv d) (line "private_key" (hex_spec (d_priv d))) ++ when (d_has_port d) (line "listen_port" (print_dec (d_port d))) ++ when (d_has_fwmark d) (line "fwmark" (print_dec (d_fwmark d)))) pre).
  { unfold pre. apply (glines_app false (when (d_has_priv d) _)).
    { destruct (d_has_priv d); [|constructor]. apply one; [noc|noc|noc|apply hex_no; [exact Wk|ac]|apply hex_no; [exact Wk|ac]|]. apply gp_priv, hex_key_spec, Wk. }
    replace (ends false (when (d_has_priv d) (GPriv (d_priv d)))) with false by (destruct (d_has_priv d); reflexivity).
    apply (glines_app false (when (d_has_port d) _)).
    { destruct (d_has_port d); [|constructor]. apply one; [noc|noc|noc|apply dec_no; [lia|ac]|apply dec_no; [lia|ac]|]. apply gp_port; [apply decimal_print; lia|lia]. }
    replace (ends false (when (d_has_port d) (GPort (d_port d)))) with false by (destruct (d_has_port d); reflexivity).
    destruct (d_has_fwmark d); [|constructor]. apply one; [noc|noc|noc|apply dec_no; [lia|ac]|apply dec_no; [lia|ac]|]. apply gp_mark; [apply decimal_print; lia|lia]. }
  split; [|split; [|split]].
  - replace (when (d_has_priv d) (line "private_key" (hex_spec (d_priv d))) ++ when (d_has_port d) (line "listen_port" (print_dec (d_port d))) ++
             when (d_has_fwmark d) (line "fwmark" (print_dec (d_fwmark d))) ++ flat_map (peer_report host6) (d_peers d) ++ [line "errno" (str "0")])
      with ((when (d_has_priv d) (line "private_key" (hex_spec (d_priv d))) ++ when (d_has_port d) (line "listen_port" (print_dec (d_port d))) ++
             when (d_has_fwmark d) (line "fwmark" (print_dec (d_fwmark d)))) ++ flat_map (peer_report host6) (d_peers d) ++ [line "errno" (str "0")]) by (rewrite <- !app_assoc; reflexivity).
    apply (glines_app false _ pre Gp). unfold ends. rewrite Ep. cbn [orb]. apply (glines_app false _ its G).
    apply one; [noc|noc|noc|noc|noc|]. apply gp_errno; [|lia]. apply decimal_iff. split; [discriminate|reflexivity].
  - unfold gerrnos in *. rewrite !flat_map_app. cbn. destruct (flat_map _ pre); [|discriminate]. rewrite E4. discriminate.
  - unfold gerrnos in *. rewrite !flat_map_app, E4. cbn [flat_map app]. replace (flat_map (fun i : get_item => match i with GErrno k => [k] | _ => [] end) pre) with (@nil Z); [reflexivity|].
    unfold pre. destruct (d_has_priv d), (d_has_port d), (d_has_fwmark d); reflexivity.
  - unfold gdevice.
    assert (P : gprivs (pre ++ its ++ [GErrno 0]) = when (d_has_priv d) (d_priv d) /\ gports (pre ++ its ++ [GErrno 0]) = when (d_has_port d) (d_port d)
      /\ gmarks (pre ++ its ++ [GErrno 0]) = when (d_has_fwmark d) (d_fwmark d)).
    { unfold gprivs, gports, gmarks in *. rewrite !flat_map_app, E1, E2, E3. unfold pre.
      destruct (d_has_priv d), (d_has_port d), (d_has_fwmark d); cbn; auto. }
    destruct P as (-> & -> & ->).
    assert (Q : snd (gpeers (pre ++ its ++ [GErrno 0])) = snd (gpeers (its ++ [GErrno 0]))).
    { clear. unfold pre. destruct (gpeers (its ++ [GErrno 0])) as [h g] eqn:E. destruct (d_has_priv d), (d_has_port d), (d_has_fwmark d); cbn [when app gpeers]; rewrite E; reflexivity. }
    rewrite Q, E. cbn [snd]. rewrite map_app, map_map. cbn [fst snd].
    assert (M : map (fun p => gpeer (p_pub p, peer_items p)) (removelast (d_peers d)) = removelast (d_peers d)).
    { assert (Hr : Forall reported_peer (removelast (d_peers d))).
      { clear - R8. induction R8 as [|p ps H Hs IH]; [constructor|]. destruct ps; [constructor|]. constructor; [exact H|exact IH]. }
      clear - Hr. induction Hr as [|p ps H Hs IH]; [reflexivity|]. cbn [map]. rewrite IH. f_equal. pose proof (gpeer_items p [] H (or_introl eq_refl)) as G. rewrite app_nil_r in G. exact G. }
    rewrite M.
    assert (M2 : removelast (d_peers d) ++ map gpeer (match rev (d_peers d) with [] => [] | p :: _ => [(p_pub p, peer_items p ++ [GErrno 0])] end) = d_peers d).
    { destruct (d_peers d) as [|p ps] eqn:D; [reflexivity|]. pose proof (app_removelast_last peer0 (l := p :: ps) ltac:(discriminate)) as A.
      assert (Q1 : rev (p :: ps) = last (p :: ps) peer0 :: rev (removelast (p :: ps))) by (rewrite A at 1; rewrite rev_app_distr; reflexivity).
      rewrite Q1. cbn [map]. rewrite gpeer_items; [symmetry; exact A| |right; reflexivity].
      rewrite Forall_forall in R8. apply R8. rewrite A at 2. apply in_or_app. right. left. reflexivity. }
    rewrite M2. rewrite (firstn_all2 (d_name d)) by exact Nm.
    replace (some (when (d_has_priv d) (d_priv d))) with (d_has_priv d) by (destruct (d_has_priv d); reflexivity).
    replace (some (when (d_has_port d) (d_port d))) with (d_has_port d) by (destruct (d_has_port d); reflexivity).
    replace (some (when (d_has_fwmark d) (d_fwmark d))) with (d_has_fwmark d) by (destruct (d_has_fwmark d); reflexivity).
    destruct d as [nm ix rp hpv hpb hpo hfw pb pv fw po ps]; cbn in *. subst ix rp hpb.
    destruct hpv; cbn in *; [|rewrite R5 by reflexivity]; (destruct hpo; cbn in *; [|rewrite R6 by reflexivity]); (destruct hfw; cbn in *; [|rewrite R7 by reflexivity]); subst pb; reflexivity.
Qed.
End Report.
