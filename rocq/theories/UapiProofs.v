(** Proofs about src/ipc-uapi.h: the set request. *)
From Coq Require Import String ZArith List Bool Lia.
From Verif Require Import Base Ctype Encoding EncodingSpec HexProofs Cstr CstrProofs Inet InetProofs TextProofs Types
  NumSpec ConfigSpec Config ConfigProofs ConfigProofs2 ConfigProofs4 NlSpec KernelSpec UapiSpec Uapi.
Import ListNotations.
Open Scope Z_scope.

Lemma dec_fold : forall s n, fold_left dec_step s (Some n) = num_value 10 n s.
Proof.
  induction s as [|c s IH]; intro n; cbn [fold_left num_value dec_step]; [reflexivity|]. rewrite digit_in_10.
  destruct ((48 <=? c) && (c <=? 57)); [apply IH|]. clear. induction s; [reflexivity|exact IHs].
Qed.
Lemma read_dec_print : forall b n, 0 <= n < b -> read_dec b (print_dec n) = Some n.
Proof.
  intros b n H. unfold read_dec. rewrite dec_fold, print_dec_value by lia.
  pose proof (print_num_nonempty 10 n) as N. fold (print_dec n) in N. destruct (print_dec n); [congruence|].
  destruct (Z.ltb_spec n b); [reflexivity|lia].
Qed.
Lemma wf_is_key : forall k, wf_key k -> is_key k.
Proof. intros k H. exact H. Qed.
Lemma read_key_hex : forall k, wf_key k -> read_key (key_to_hex k) = Some k.
Proof.
  intros k H. unfold read_key. rewrite (key_to_hex_spec k H), hex_spec_length. destruct H as [H1 H2]. rewrite H1.
  apply unhex_hex, H2.
Qed.

Lemma split_unlines : forall ls t, Forall (fun l => ~ In 10 l) ls -> split_all 10 (unlines ls ++ t) = ls ++ split_all 10 t.
Proof.
  induction ls as [|l ls IH]; intros t H; [reflexivity|]. inversion_clear H as [|? ? Hl Hls].
  unfold unlines. cbn [flat_map]. fold (unlines ls). rewrite <- !app_assoc. cbn [app].
  rewrite split_all_app by exact Hl. rewrite IH by exact Hls. reflexivity.
Qed.
Lemma until_blank_app : forall ls r, Forall (fun l => l <> []) ls -> until_blank (ls ++ [] :: r) = Some (ls, r).
Proof.
  induction ls as [|l ls IH]; intros r H; [reflexivity|]. inversion_clear H as [|? ? Hl Hls]. cbn [app until_blank].
  rewrite IH by exact Hls. destruct l; [congruence|reflexivity].
Qed.
Lemma run_items_app : forall z a b q, run_items z (a ++ b) q = match run_items z a q with Some q' => run_items z b q' | None => None end.
Proof.
  induction a as [|l a IH]; intros b q; [reflexivity|]. cbn [app run_items].
  destruct (read_item z l); [|reflexivity]. destruct (step_item q s); [apply IH|reflexivity].
Qed.
Lemma unlines_app : forall a b, unlines (a ++ b) = unlines a ++ unlines b.
Proof. intros. unfold unlines. apply flat_map_app. Qed.

Section SetText.
Variable scope_name : list Z -> Z -> list Z.
Variable zone : list Z -> list Z -> option Z.
Hypothesis Z_ok : zones_ok scope_name zone.

Definition kv (k : string) (v : list Z) : list Z := str k ++ 61 :: v.
Lemma outl_kv : forall k v, outl k v = unlines [kv k v].
Proof. intros. unfold outl, unlines, kv. cbn [flat_map]. rewrite app_nil_r, <- app_assoc. reflexivity. Qed.

Definition good_line (l : list Z) : Prop := l <> [] /\ ~ In 10 l.

(** [says ls q q']: lines that can be part of a request and turn [q] into [q']. *)
Definition says (t : list Z) (q q' : request) : Prop :=
  exists ls, t = unlines ls /\ Forall good_line ls /\ run_items zone ls q = Some q'.
Lemma says_nil : forall q, says [] q q.
Proof. intro q. exists []. split; [reflexivity|]. split; [constructor|reflexivity]. Qed.
Lemma says_app : forall t1 t2 q q1 q2, says t1 q q1 -> says t2 q1 q2 -> says (t1 ++ t2) q q2.
Proof.
  intros t1 t2 q q1 q2 (a & -> & Ga & Ra) (b & -> & Gb & Rb). exists (a ++ b). split; [symmetry; apply unlines_app|].
  split; [apply Forall_app; split; assumption|]. rewrite run_items_app, Ra. exact Rb.
Qed.
Lemma says_line : forall k v i q q', ~ In 10 (str k) -> ~ In 10 v -> read_item zone (kv k v) = Some i -> step_item q i = Some q' ->
  says (outl k v) q q'.
Proof.
  intros k v i q q' H1 H2 R S. rewrite outl_kv. exists [kv k v]. split; [reflexivity|]. split.
  - constructor; [|constructor]. split; [unfold kv; destruct (str k); discriminate|]. unfold kv. rewrite in_app_iff. cbn [In]. intros [G|[G|G]]; [auto|lia|auto].
  - cbn [run_items]. rewrite R, S. reflexivity.
Qed.

Lemma not10_dec : forall n, 0 <= n -> ~ In 10 (print_dec n).
Proof. intros n H. apply (not_in_by addr_char); [apply dec_addr, H|unfold addr_char; lia]. Qed.
Lemma not10_hex : forall k, wf_key k -> ~ In 10 (key_to_hex k).
Proof. intros k H. apply (not_in_by key_char); [apply hex_chars, H|unfold key_char; lia]. Qed.

Ltac no10 := let G := fresh in intro G; vm_compute in G; repeat destruct G as [G|G]; try discriminate G; contradiction G.

(** The endpoint. *)
Lemma read_ep_plain : forall c t, c <> 91 -> read_ep zone (c :: t) =
  match split_first 58 (c :: t) with
  | Some (h, p) => match inet_pton4 h, read_dec 65536 p with Some a, Some n => Some (Ep4 a n) | _, _ => None end
  | None => None
  end.
Proof. intros c t H. destruct c as [|p|p]; try reflexivity. repeat (destruct p as [p|p|]; try reflexivity). congruence. Qed.

Lemma wf_ep_text : forall e, wf_endpoint e -> e <> EpNone ->
  exists v, set_endpoint_text scope_name e = outl "endpoint" v /\ ~ In 10 v /\ read_ep zone v = Some (no_flow e).
Proof.
  intros e W N. destruct e as [|a p|a p f s]; [congruence| |]; cbn [wf_endpoint] in W; unfold set_endpoint_text, nameinfo.
  - destruct W as (L & B & P). cbn [andb]. eexists. split; [reflexivity|].
    pose proof (ntop4_chars a B) as C. split.
    + rewrite in_app_iff. cbn [In]. intros [G|[G|G]].
      * revert G. apply (not_in_by addr_char); [apply ntop4_addr, B|unfold addr_char; lia].
      * lia.
      * revert G. apply not10_dec. lia.
    + assert (R : inet_pton4 (inet_ntop4 a) = Some a) by (apply inet4_roundtrip; split; assumption).
      destruct (inet_ntop4 a) as [|c h] eqn:E; [discriminate|]. cbn [app]. rewrite read_ep_plain.
      2:{ inversion_clear C. lia. }
      rewrite app_comm_cons, split_first_app by (apply (not_in_by _ 58 _ C); lia). rewrite R, read_dec_print by lia. reflexivity.
  - destruct W as (L & B & P & F & S). assert (Ba : bytes_n 16 a) by (split; assumption).
    assert (R : inet_pton6 (inet_ntop6 a) = Some a) by (apply inet6_roundtrip, Ba).
    assert (Hc : has_char 58 (inet_ntop6 a ++ (if s =? 0 then [] else 37 :: scope_name a s)) = true).
    { apply has_char_In, in_app_iff. left. apply ntop6_colon_in, Ba. }
    rewrite Hc. cbn [andb]. eexists. split; [reflexivity|].
    pose proof (ntop6_chars a B) as C.
    assert (N10 : forall c, ~ addr_char c -> ~ In c (inet_ntop6 a)) by (intro c; apply not_in_by; exact C).
    destruct (Z.eqb_spec s 0) as [-> | Hs].
    + rewrite app_nil_r. split.
      * cbn [In]. rewrite in_app_iff. cbn [In]. intros [G|[G|[G|[G|G]]]]; try lia.
        -- revert G. apply N10. unfold addr_char. lia.
        -- revert G. apply not10_dec. lia.
      * cbn [read_ep]. rewrite split_first_app by (apply N10; unfold addr_char; lia). rewrite read_dec_print by lia.
        unfold read_host6. replace (split_first 37 (inet_ntop6 a)) with (@None (list Z * list Z)).
        -- rewrite R. reflexivity.
        -- symmetry. apply split_first_none, N10. unfold addr_char. lia.
    + destruct (Z_ok a s L B ltac:(lia)) as (Z1 & Z2 & Z3). split.
      * intro G. cbn [In] in G. rewrite !in_app_iff in G. cbn [In] in G. decompose [or] G; try lia; try contradiction; clear G; match goal with X : In 10 _ |- _ => rename X into G end.
        -- revert G. apply N10. unfold addr_char. lia.
        -- revert G. apply not10_dec. lia.
      * cbn [read_ep]. rewrite split_first_app.
        -- rewrite read_dec_print by lia. unfold read_host6. rewrite split_first_app by (apply N10; unfold addr_char; lia).
           rewrite R, Z1. reflexivity.
        -- rewrite in_app_iff. cbn [In]. intros [G|[G|G]]; [|lia|contradiction]. revert G. apply N10. unfold addr_char. lia.
Qed.

Lemma wf_aip_text : forall a, wf_aip a -> exists v, set_aip_text a = outl "allowed_ip" v /\ ~ In 10 v /\ read_prefix v = Some a.
Proof.
  intros [fam ip c] W. unfold set_aip_text. unfold wf_aip in W. cbn [a_family a_ip a_cidr] in *.
  destruct W as [(-> & L & B & H)|(-> & L & B & H)]; cbn [a_family a_ip a_cidr] in *.
  - change (AF_INET =? AF_INET) with true. cbv iota. eexists. split; [reflexivity|]. split.
    + rewrite in_app_iff. cbn [In]. intros [G|[G|G]]; [|lia|].
      * revert G. apply (not_in_by addr_char); [apply ntop4_addr, B|unfold addr_char; lia].
      * revert G. apply not10_dec. lia.
    + unfold read_prefix. pose proof (ntop4_chars ip B) as C. rewrite split_first_app by (apply (not_in_by _ 47 _ C); lia).
      replace (has_char 58 (inet_ntop4 ip)) with false.
      2:{ symmetry. apply not_true_is_false. rewrite has_char_In. apply (not_in_by _ 58 _ C). lia. }
      rewrite inet4_roundtrip by (split; assumption). rewrite read_dec_print by lia. reflexivity.
  - change (AF_INET6 =? AF_INET) with false. change (AF_INET6 =? AF_INET6) with true. cbv iota. eexists. split; [reflexivity|].
    assert (Ba : bytes_n 16 ip) by (split; assumption). pose proof (ntop6_chars ip B) as C. split.
    + rewrite in_app_iff. cbn [In]. intros [G|[G|G]]; [|lia|].
      * revert G. apply (not_in_by _ _ _ C). unfold addr_char. lia.
      * revert G. apply not10_dec. lia.
    + unfold read_prefix. rewrite split_first_app by (apply (not_in_by _ 47 _ C); unfold addr_char; lia).
      replace (has_char 58 (inet_ntop6 ip)) with true by (symmetry; apply has_char_In, ntop6_colon_in, Ba).
      rewrite inet6_roundtrip by exact Ba. rewrite read_dec_print by lia. reflexivity.
Qed.

Definition with_last (q : request) (p : rq_peer) : request :=
  mk_request (rq_name q) (rq_priv q) (rq_port q) (rq_fwmark q) (rq_replace q) (rq_peers q ++ [p]).
Lemma on_last_with : forall f q p, on_last f (with_last q p) = Some (with_last q (f p)).
Proof. intros. unfold on_last, with_last. cbn [rq_peers]. rewrite rev_app_distr. cbn [rev app]. rewrite rev_involutive. reflexivity. Qed.

Lemma says_aips : forall l q p, Forall wf_aip l ->
  says (flat_map set_aip_text l) (with_last q p)
    (with_last q (mk_rq_peer (rp_pub p) (rp_remove p) (rp_replace p) (rp_psk p) (rp_endpoint p) (rp_ka p) (rp_aips p ++ l))).
Proof.
  induction l as [|a l IH]; intros q p H.
  - rewrite app_nil_r. destruct p. apply says_nil.
  - inversion_clear H as [|? ? Ha Hl]. cbn [flat_map]. destruct (wf_aip_text a Ha) as (v & E & N & R).
    eapply says_app.
    + rewrite E. eapply says_line with (i := UAip a); [no10|exact N| |cbn [step_item]; apply on_last_with].
      change (kv "allowed_ip" v) with (str "allowed_ip" ++ 61 :: v). unfold read_item. rewrite split_first_app by no10.
      cbn -[read_prefix]. rewrite R. reflexivity.
    + specialize (IH q (mk_rq_peer (rp_pub p) (rp_remove p) (rp_replace p) (rp_psk p) (rp_endpoint p) (rp_ka p) (rp_aips p ++ [a])) Hl).
      cbn [rp_pub rp_remove rp_replace rp_psk rp_endpoint rp_ka rp_aips] in IH. rewrite <- app_assoc in IH. exact IH.
Qed.

Ltac item := match goal with |- read_item _ (kv ?k ?v) = _ => change (kv k v) with (str k ++ 61 :: v); unfold read_item; rewrite split_first_app by no10; cbn -[read_key read_dec read_ep key_to_hex print_dec Z.pow] end.

Lemma says_peer : forall q p, wf_peer p -> says (set_peer_text scope_name p) q (with_last q (said_peer p)).
Proof.
  intros q p (Wk & Ws & We & Wa & Wi & _). unfold set_peer_text, said_peer.
  eapply says_app.
  { eapply says_line with (i := UPeer (p_pub p)); [no10|apply not10_hex, Wk| |reflexivity]. item. rewrite read_key_hex by exact Wk. reflexivity. }
  fold (with_last q (mk_rq_peer (p_pub p) false false None None None [])).
  destruct (p_remove p).
  - eapply says_line with (i := URemove); [no10|no10| |cbn [step_item]; apply on_last_with]. item. reflexivity.
  - eapply says_app with (q1 := with_last q (mk_rq_peer (p_pub p) false false (opt (p_has_psk p) (p_psk p)) None None [])).
    { destruct (p_has_psk p); [|apply says_nil].
      eapply says_line with (i := UPsk (p_psk p)); [no10|apply not10_hex, Ws| |cbn [step_item]; apply on_last_with]. item. rewrite read_key_hex by exact Ws. reflexivity. }
    eapply says_app with (q1 := with_last q (mk_rq_peer (p_pub p) false false (opt (p_has_psk p) (p_psk p)) (match p_endpoint p with EpNone => None | e => Some (no_flow e) end) None [])).
    { destruct (p_endpoint p) as [|a pp|a pp f s] eqn:E; [apply says_nil| |].
      - destruct (wf_ep_text _ We) as (v & T & N & R); [congruence|]. rewrite T.
        eapply says_line with (i := UEp (Ep4 a pp)); [no10|exact N| |cbn [step_item]; apply on_last_with]. item. rewrite R. reflexivity.
      - destruct (wf_ep_text _ We) as (v & T & N & R); [congruence|]. rewrite T.
        eapply says_line with (i := UEp (Ep6 a pp 0 s)); [no10|exact N| |cbn [step_item]; apply on_last_with]. item. rewrite R. reflexivity. }
    eapply says_app with (q1 := with_last q (mk_rq_peer (p_pub p) false false (opt (p_has_psk p) (p_psk p)) (match p_endpoint p with EpNone => None | e => Some (no_flow e) end) (opt (p_has_ka p) (p_ka p)) [])).
    { destruct (p_has_ka p); [|apply says_nil].
      eapply says_line with (i := UKa (p_ka p)); [no10|apply not10_dec; lia| |cbn [step_item]; apply on_last_with]. item. rewrite read_dec_print by lia. reflexivity. }
    eapply says_app with (q1 := with_last q (mk_rq_peer (p_pub p) false (p_replace_aips p) (opt (p_has_psk p) (p_psk p)) (match p_endpoint p with EpNone => None | e => Some (no_flow e) end) (opt (p_has_ka p) (p_ka p)) [])).
    { destruct (p_replace_aips p); [|apply says_nil].
      eapply says_line with (i := UReplaceAips); [no10|no10| |cbn [step_item]; apply on_last_with]. item. reflexivity. }
    apply (says_aips (p_aips p) q (mk_rq_peer (p_pub p) false (p_replace_aips p) (opt (p_has_psk p) (p_psk p)) (match p_endpoint p with EpNone => None | e => Some (no_flow e) end) (opt (p_has_ka p) (p_ka p)) [])). exact Wi.
Qed.

Lemma says_peers : forall ps q, Forall wf_peer ps -> says (flat_map (set_peer_text scope_name) ps) q
  (mk_request (rq_name q) (rq_priv q) (rq_port q) (rq_fwmark q) (rq_replace q) (rq_peers q ++ map said_peer ps)).
Proof.
  induction ps as [|p ps IH]; intros q H; cbn [flat_map map].
  - rewrite app_nil_r. destruct q. apply says_nil.
  - inversion_clear H as [|? ? Hp Hps]. eapply says_app; [apply says_peer, Hp|].
    specialize (IH (with_last q (said_peer p)) Hps). unfold with_last in IH at 2 3 4 5 6 7. cbn [rq_name rq_priv rq_port rq_fwmark rq_replace rq_peers] in IH.
    rewrite <- app_assoc in IH. exact IH.
Qed.

Lemma set_text_says : forall d, wf_device d -> read_set zone (set_text scope_name d) = Some (said d).
Proof.
  intros d (_ & Wk & Wm & Wp & Wps). unfold set_text.
  assert (S : says ((if d_has_priv d then outl "private_key" (key_to_hex (d_priv d)) else []) ++
      (if d_has_port d then outl "listen_port" (print_dec (d_port d)) else []) ++
      (if d_has_fwmark d then outl "fwmark" (print_dec (d_fwmark d)) else []) ++
      (if d_replace_peers d then outl "replace_peers" (str "true") else []) ++
      flat_map (set_peer_text scope_name) (d_peers d)) (mk_request [] None None None false []) (said d)).
  { eapply says_app with (q1 := mk_request [] (opt (d_has_priv d) (d_priv d)) None None false []).
    { destruct (d_has_priv d); [|apply says_nil].
      eapply says_line with (i := UPriv (d_priv d)); [no10|apply not10_hex, Wk| |reflexivity]. item. rewrite read_key_hex by exact Wk. reflexivity. }
    eapply says_app with (q1 := mk_request [] (opt (d_has_priv d) (d_priv d)) (opt (d_has_port d) (d_port d)) None false []).
    { destruct (d_has_port d); [|apply says_nil].
      eapply says_line with (i := UPort (d_port d)); [no10|apply not10_dec; lia| |reflexivity]. item. rewrite read_dec_print by lia. reflexivity. }
    eapply says_app with (q1 := mk_request [] (opt (d_has_priv d) (d_priv d)) (opt (d_has_port d) (d_port d)) (opt (d_has_fwmark d) (d_fwmark d)) false []).
    { destruct (d_has_fwmark d); [|apply says_nil].
      eapply says_line with (i := UMark (d_fwmark d)); [no10|apply not10_dec; lia| |reflexivity]. item. rewrite read_dec_print by lia. reflexivity. }
    eapply says_app with (q1 := mk_request [] (opt (d_has_priv d) (d_priv d)) (opt (d_has_port d) (d_port d)) (opt (d_has_fwmark d) (d_fwmark d)) (d_replace_peers d) []).
    { destruct (d_replace_peers d); [|apply says_nil].
      eapply says_line with (i := UReplacePeers); [no10|no10| |reflexivity]. item. reflexivity. }
    apply (says_peers (d_peers d) (mk_request [] (opt (d_has_priv d) (d_priv d)) (opt (d_has_port d) (d_port d)) (opt (d_has_fwmark d) (d_fwmark d)) (d_replace_peers d) []) Wps). }
  destruct S as (ls & E & G & R). rewrite !app_assoc in E |- *. rewrite <- !app_assoc in E. rewrite <- !app_assoc.
  rewrite !(app_assoc _ _ [10]) || idtac.
  match goal with |- read_set _ ?t = _ => assert (ET : t = unlines (str "set=1" :: ls) ++ [10]) end.
  { rewrite outl_kv. change (unlines (str "set=1" :: ls)) with (unlines [kv "set" (str "1")] ++ unlines ls). rewrite <- E, <- !app_assoc. reflexivity. }
  rewrite ET. unfold read_set. rewrite split_unlines.
  - cbn [split_all Z.eqb Pos.eqb]. change ((str "set=1" :: ls) ++ [[]; []]) with ((str "set=1" :: ls) ++ [] :: [[]]). rewrite until_blank_app.
    + rewrite beq_refl. exact R.
    + constructor; [discriminate|]. eapply Forall_impl; [|exact G]. intros l [Hl _]. exact Hl.
  - constructor; [no10|]. eapply Forall_impl; [|exact G]. intros l [_ Hl]. exact Hl.
Qed.
End SetText.

(** Applying what is said is applying the update. *)
Lemma said_applies : forall pubkey s d, Forall (fun p => no_flow (p_endpoint p) = p_endpoint p) (d_peers d) ->
  apply_request pubkey s (said d) = apply_request pubkey s (request_of d).
Proof.
  intros pubkey s d H. unfold apply_request, said, request_of. cbn [rq_priv rq_port rq_fwmark rq_replace rq_peers].
  match goal with |- fold_left _ _ ?x = fold_left _ _ _ => generalize x end.
  induction H as [|p ps Hp Hps IH]; intro i; cbn [map fold_left]; [reflexivity|].
  replace (apply_peer pubkey i (said_peer p)) with (apply_peer pubkey i (rq_peer_of p)); [apply IH|].
  unfold said_peer, rq_peer_of. destruct (p_remove p) eqn:R; [reflexivity|].
  replace (match p_endpoint p with EpNone => None | e => Some (no_flow e) end) with (match p_endpoint p with EpNone => None | e => Some e end); [reflexivity|].
  destruct (p_endpoint p); try reflexivity. rewrite Hp. reflexivity.
Qed.
