(** The sequence of messages kernel_set_device sends: size, progress, contents and joint effect. *)
From Coq Require Import ZArith List Bool Lia.
From Verif Require Import Base Types NlSpec KernelSpec Nl NlSet NlProofs NlSetProofs NlSetProofs2.
Import ListNotations.
Open Scope Z_scope.

(** The messages sent when each is acknowledged. *)
Fixpoint messages (B id : Z) (now : nat -> Z) (fuel i : nat) (d : device) (at_ : option (list peer * list allowedip))
    : option (list (list Z)) :=
  match fuel with
  | O => None
  | S f =>
      match build B id (now i) d at_ with
      | None => None
      | Some (msg, [], _) => Some [msg]
      | Some (msg, ps, al) =>
          match messages B id now f (S i) d (Some (ps, al)) with
          | Some l => Some (msg :: l)
          | None => None
          end
      end
  end.

Definition state_of (d : device) (at_ : option (list peer * list allowedip)) : list peer * list allowedip :=
  match at_ with None => (d_peers d, []) | Some x => x end.
Definition is_first (at_ : option (list peer * list allowedip)) : bool := match at_ with None => true | Some _ => false end.

Lemma finish_len : forall b, 4 <= len b -> len (finish b) = len b.
Proof.
  intros b H. unfold finish. rewrite len_app, len_le. unfold len at 1. rewrite skipn_length. unfold len in *. lia.
Qed.

Lemma taken_secs : forall B ps al secs ps' al', taken ps al secs ps' al' -> Forall wf_peer ps -> ok_state ps al ->
  len (enc_secs secs) <= B -> B < 65000 ->
  Forall ok_sec secs /\ Forall (fun s => len (sec_body s) < 65532) secs.
Proof.
  intros B. induction 1 as [|p ps al|p ps al secs ps' al' H IH|p ps al nest take rest E Hr Hn]; intros Hw Hok Hl HB; [split; constructor|split; constructor| |].
  - inversion Hw as [|? ? Hp Hps]; subst. rewrite enc_secs_cons, len_app, enc_sec_len in Hl.
    pose proof (len_nonneg (enc_secs secs)) as N.
    pose proof (len_nonneg (sec_body (mk_sec p (nonempty al) (nonempty (p_aips p)) (todo p al)))) as N0.
    destruct (IH Hps I ltac:(lia) HB) as [IH1 IH2].
    assert (Hok1 : ok_state [p] al) by (destruct al; exact Hok).
    set (s := mk_sec p (nonempty al) (nonempty (p_aips p)) (todo p al)) in *.
    pose proof (len_nonneg (sec_body s)) as N2.
    assert (Hsb : len (sec_body s) < 65532) by lia.
    split; constructor; try assumption.
    split; [exact Hp|]. split; [apply todo_wf; assumption|]. split.
    + cbn [s s_nest s_take]. intro Ea. destruct (p_aips p) eqn:Ep; [|discriminate]. rewrite (todo_nil p al Hok1 Ep). exact Ep.
    + cbn [s s_take]. destruct (nonempty (p_aips p)) eqn:Ea.
      * assert (len (enc_aips (todo p al)) <= len (sec_body s)); [|lia].
        unfold sec_body. cbn [s s_nest s_take s_peer s_cont]. rewrite ?Ea, len_app, len_enc, up4_id by apply enc_aips_4.
        pose proof (len_nonneg (head p (nonempty al))). lia.
      * destruct (p_aips p) eqn:Ep; [|discriminate]. rewrite (todo_nil p al Hok1 Ep). cbn [todo]. rewrite Ep. cbn. lia.
  - inversion Hw as [|? ? Hp Hps]; subst. rewrite enc_secs_cons, len_app, enc_sec_len in Hl.
    assert (Hok1 : ok_state [p] al) by (destruct al; exact Hok).
    pose proof (todo_wf p al Hp Hok1) as Hwt. rewrite E in Hwt. apply Forall_app in Hwt as [Hwt _].
    set (s := mk_sec p (nonempty al) nest take) in *.
    pose proof (len_nonneg (sec_body s)) as N2. pose proof (len_nonneg (enc_secs [])).
    assert (Hsb : len (sec_body s) < 65532) by lia.
    split; (constructor; [|constructor]); [|exact Hsb]. split; [exact Hp|]. split; [exact Hwt|]. split; [exact Hn|].
    cbn [s s_take]. destruct nest.
    + assert (len (enc_aips take) <= len (sec_body s)); [|lia].
      unfold sec_body. cbn [s s_nest s_take s_peer s_cont]. rewrite len_app, len_enc, up4_id by apply enc_aips_4.
      pose proof (len_nonneg (head p (nonempty al))). lia.
    + rewrite (Hn eq_refl). cbn. lia.
Qed.

Definition ok_at (d : device) (at_ : option (list peer * list allowedip)) : Prop :=
  match at_ with
  | None => True
  | Some (ps, al) => ps <> [] /\ ok_state ps al /\ exists x, d_peers d = x ++ ps
  end.

Lemma taken_suffix : forall ps al secs ps' al', taken ps al secs ps' al' -> exists x, ps = x ++ ps'.
Proof.
  induction 1 as [|p ps al|p ps al secs ps' al' H IH|p ps al nest take rest E Hr Hn]; try (exists []; reflexivity).
  destruct IH as (x & ->). exists (p :: x). reflexivity.
Qed.

Lemma build_spec : forall B id seq d at_, 272 <= B <= 8192 -> wf_device d -> wf_name (d_name d) -> ok_at d at_ ->
  let (ps, al) := state_of d at_ in
  exists msg secs ps' al', build B id seq d at_ = Some (msg, ps', al')
    /\ read_request msg = Some (rq_dev d (is_first at_) (map rq_sec secs))
    /\ taken ps al secs ps' al' /\ ok_state ps' al' /\ 4 <= len msg <= B
    /\ (ps <> [] -> (mes ps' al' < mes ps al)%nat) /\ (ps' <> [] -> ok_at d (Some (ps', al')))
    /\ firstn 16 (skipn 4 msg) = le 2 id ++ le 2 5 ++ le 4 seq ++ le 4 0 ++ [1; 1; 0; 0].
Proof.
  intros B id seq d at_ HB Hw Hn Hat.
  unfold build. change (match at_ with None => true | Some _ => false end) with (is_first at_).
  rewrite put_device_spec by (assumption || lia). pose proof (dev_part_len d (is_first at_) Hw Hn) as L.
  set (dp := header id seq ++ dev_part d (is_first at_)).
  assert (Ldp : 20 <= len dp <= 100) by (unfold dp; rewrite len_app, header_len; pose proof (len_nonneg (dev_part d (is_first at_))); lia).
  destruct (d_peers d) as [|p0 ps0] eqn:Ed.
  - (* no peers *)
    assert (Es : state_of d at_ = ([], [])).
    { destruct at_ as [[ps al]|]; cbn [state_of]; [|rewrite Ed; reflexivity].
      destruct Hat as (Hne & _ & x & E). rewrite Ed in E. destruct x, ps; try discriminate. congruence. }
    rewrite Es. exists (finish dp), [], [], []. split; [reflexivity|].
    split.
    { pose proof (read_message id seq d (is_first at_) false [] Hw Hn ltac:(constructor) ltac:(constructor) ltac:(cbn; lia) ltac:(reflexivity)) as R.
      rewrite app_nil_r in R. exact R. }
    split; [constructor|]. split; [exact I|]. rewrite finish_len by lia. split; [lia|]. split; [congruence|]. split; [congruence|]. reflexivity.
  - destruct (state_of d at_) as [ps al] eqn:Es.
    assert (Hst : ps <> [] /\ ok_state ps al /\ exists x, d_peers d = x ++ ps).
    { destruct at_ as [[ps1 al1]|]; cbn [state_of] in Es; injection Es as <- <-.
      - exact Hat.
      - rewrite Ed. split; [discriminate|]. split; [exact I|]. exists []. reflexivity. }
    assert (Em : (match at_ with None => (p0 :: ps0, []) | Some x => x end) = (ps, al)).
    { destruct at_ as [[ps1 al1]|]; cbn [state_of] in Es; [exact Es|]. rewrite Ed in Es. exact Es. }
    rewrite Em. destruct Hst as (Hne & Hok & x & Hx).
    assert (Hwp : Forall wf_peer ps).
    { destruct Hw as (_ & _ & _ & _ & Hp). rewrite Hx in Hp. apply Forall_app in Hp. tauto. }
    unfold nest_start. fold (nest_hdr 8). rewrite append_ok by (change (len (nest_hdr 8)) with 4; lia).
    assert (L1 : len (dp ++ nest_hdr 8) = len dp + 4) by (rewrite len_app; reflexivity).
    destruct (put_peers_spec B ps al (dp ++ nest_hdr 8)) as (secs & ps' & al' & E1 & E2 & E3 & E4 & E5); try assumption; try lia.
    rewrite L1 in *. rewrite E1. rewrite <- app_assoc.
    rewrite nest_end_app by (try apply enc_secs_4; pose proof (len_nonneg (enc_secs secs)); lia).
    pose proof (len_nonneg (enc_secs secs)) as N.
    destruct (taken_secs B ps al secs ps' al' E2 Hwp Hok ltac:(lia) ltac:(lia)) as [O1 O2].
    exists (finish (dp ++ enc (Z.lor (2 ^ 15) 8) (enc_secs secs))), secs, ps', al'.
    split; [reflexivity|]. split.
    { exact (read_message id seq d (is_first at_) true secs Hw Hn O1 O2 ltac:(lia) ltac:(discriminate)). }
    split; [exact E2|]. split; [exact E3|].
    rewrite finish_len by (rewrite len_app, len_enc, up4_id by apply enc_secs_4; lia).
    split; [rewrite len_app, len_enc, up4_id by apply enc_secs_4; lia|].
    split; [intros _; apply E5; [exact Hne|unfold peer_room; lia]|].
    split.
    + intro Hne'. split; [exact Hne'|]. split; [exact E3|]. destruct (taken_suffix _ _ _ _ _ E2) as (y & ->).
      exists (x ++ y). rewrite Hx, app_assoc. reflexivity.
    + unfold dp. rewrite <- app_assoc, finish_header. reflexivity.
Qed.

(** The requests of the messages after the first, and of the whole sequence. *)
Inductive frags (d : device) : option (list peer * list allowedip) -> list request -> Prop :=
| F_last : forall at_ secs, taken (fst (state_of d at_)) (snd (state_of d at_)) secs [] [] ->
    frags d at_ [rq_dev d (is_first at_) (map rq_sec secs)]
| F_more : forall at_ secs ps' al' rs, taken (fst (state_of d at_)) (snd (state_of d at_)) secs ps' al' -> ps' <> [] ->
    (mes ps' al' < mes (fst (state_of d at_)) (snd (state_of d at_)))%nat -> frags d (Some (ps', al')) rs ->
    frags d at_ (rq_dev d (is_first at_) (map rq_sec secs) :: rs).

Lemma ok_state_nil : forall al, ok_state [] al -> al = [].
Proof. intros [|a al] H; [reflexivity|contradiction]. Qed.

Lemma messages_spec : forall B id now d, 272 <= B <= 8192 -> wf_device d -> wf_name (d_name d) ->
  forall fuel i at_, ok_at d at_ -> (mes (fst (state_of d at_)) (snd (state_of d at_)) < fuel)%nat ->
  exists ms rs, messages B id now fuel i d at_ = Some ms /\ Forall (fun m => len m <= B) ms
    /\ Forall2 (fun m r => read_request m = Some r) ms rs /\ frags d at_ rs.
Proof.
  intros B id now d HB Hw Hn. induction fuel as [|f IH]; intros i at_ Hat Hf; [lia|].
  pose proof (build_spec B id (now i) d at_ HB Hw Hn Hat) as Hb. cbn [messages].
  destruct (state_of d at_) as [ps al] eqn:Es. cbn [fst snd] in Hf.
  destruct Hb as (msg & secs & ps' & al' & E1 & E2 & E3 & E4 & E5 & E6 & E7 & _). rewrite E1.
  destruct ps' as [|p' ps'].
  - apply ok_state_nil in E4. subst al'. exists [msg], [rq_dev d (is_first at_) (map rq_sec secs)].
    split; [reflexivity|]. split; [repeat constructor; lia|]. split; [repeat constructor; exact E2|].
    apply F_last. rewrite Es. exact E3.
  - assert (Hne : ps <> []) by (intros ->; inversion E3).
    destruct (IH (S i) (Some (p' :: ps', al'))) as (ms & rs & I1 & I2 & I3 & I4).
    { apply E7. discriminate. } { cbn [state_of fst snd]. specialize (E6 Hne). lia. }
    rewrite I1. exists (msg :: ms), (rq_dev d (is_first at_) (map rq_sec secs) :: rs). split; [reflexivity|].
    split; [constructor; [lia|exact I2]|]. split; [constructor; assumption|].
    eapply F_more; [rewrite Es; exact E3|discriminate| |exact I4].
    rewrite Es. apply E6, Hne.
Qed.

Lemma work_enough : forall d, (mes (d_peers d) [] < work d)%nat.
Proof.
  intro d. unfold mes, work. induction (d_peers d) as [|p ps IH]; cbn [fold_right peers_work] in *; [lia|]. fold (peers_work ps) in *. lia.
Qed.

(** ** Joint effect *)
Section Effect.
Variable pubkey : list Z -> list Z.

Definition part (p : peer) (cont : bool) (l : list allowedip) : rq_peer := rq_sec (mk_sec p cont true l).

Lemma rq_sec_part : forall s, rq_sec s = part (s_peer s) (s_cont s) (s_take s).
Proof. intros [p c n t]. reflexivity. Qed.

(** Everything still to be sent in state (ps, al). *)
Definition pending (ps : list peer) (al : list allowedip) : list rq_peer :=
  match ps with
  | [] => []
  | p :: ps' => part p (nonempty al) (todo p al) :: map rq_peer_of ps'
  end.

Lemma part_fresh : forall p, part p false (p_aips p) = rq_peer_of p.
Proof. intro p. reflexivity. Qed.
Lemma pending_fresh : forall ps, pending ps [] = map rq_peer_of ps.
Proof. intros [|p ps]; [reflexivity|]. cbn [pending map nonempty todo]. rewrite part_fresh. reflexivity. Qed.

Lemma has_drop : forall k s, has_peer k (drop_peer k s) = false.
Proof.
  intros k s. unfold has_peer, drop_peer. cbn [i_peers]. induction (i_peers s) as [|p l IH]; [reflexivity|].
  cbn [filter]. destruct (beq (k_pub p) k) eqn:E; cbn [negb existsb]; [exact IH|]. rewrite E. exact IH.
Qed.

Lemma update_id : forall q p, rp_psk q = None -> rp_endpoint q = None -> rp_ka q = None -> update_kpeer q p = p.
Proof. intros q p H1 H2 H3. unfold update_kpeer. rewrite H1, H2, H3. destruct p; reflexivity. Qed.

Lemma map_update_has : forall k f l, (forall p, k_pub (f p) = k_pub p) ->
  existsb (fun p => beq (k_pub p) k) (map (fun p => if beq (k_pub p) k then f p else p) l) = existsb (fun p => beq (k_pub p) k) l.
Proof.
  intros k f l Hf. induction l as [|p l IH]; [reflexivity|]. cbn [map existsb]. rewrite IH.
  destruct (beq (k_pub p) k) eqn:E; [rewrite Hf, E|rewrite E]; reflexivity.
Qed.

Lemma apply_split : forall s p cont a b,
  apply_peer pubkey s (part p cont (a ++ b)) = apply_peer pubkey (apply_peer pubkey s (part p cont a)) (part p true b).
Proof.
  intros s p cont a b.
  assert (Ea : forall s', apply_peer pubkey s' (part p true b) =
    if has_peer (p_pub p) s' then if p_remove p then drop_peer (p_pub p) s' else
      mk_iface (i_priv s') (i_port s') (i_fwmark s') (i_peers s') (fold_left (route (p_pub p)) b (i_aips s'))
    else if p_remove p then s' else if own_key pubkey s' (p_pub p) then s' else
      mk_iface (i_priv s') (i_port s') (i_fwmark s') (i_peers s' ++ [mk_kpeer (p_pub p) zero_key None 0]) (fold_left (route (p_pub p)) b (i_aips s'))).
  { intro s'. unfold apply_peer, part, rq_sec. cbn [s_peer s_cont s_take rp_pub rp_remove rp_replace negb andb opt rp_aips].
    destruct (has_peer (p_pub p) s'); [|reflexivity]. destruct (p_remove p); [reflexivity|]. f_equal.
    erewrite map_ext; [apply map_id|]. intro q. cbv beta.
    destruct (beq (k_pub q) (p_pub p)); [|reflexivity]. apply update_id; reflexivity. }
  rewrite Ea. clear Ea.
  unfold apply_peer, part, rq_sec. cbn [s_peer s_cont s_take rp_pub rp_remove rp_replace rp_aips].
  set (r1 := mk_rq_peer _ _ _ _ _ _ (a ++ b)). set (r2 := mk_rq_peer _ _ _ _ _ _ a).
  assert (Eu : forall q, update_kpeer r1 q = update_kpeer r2 q) by reflexivity.
  destruct (has_peer (p_pub p) s) eqn:Eh.
  - destruct (p_remove p) eqn:Er.
    + rewrite has_drop. reflexivity.
    + unfold has_peer at 1. cbn [i_peers]. rewrite map_update_has by reflexivity. unfold has_peer in Eh. rewrite Eh.
      cbn [i_priv i_port i_fwmark i_aips]. rewrite fold_left_app. reflexivity.
  - destruct (p_remove p) eqn:Er; [rewrite Eh; reflexivity|].
    destruct (own_key pubkey s (p_pub p)) eqn:Eo; [rewrite Eh, Eo; reflexivity|].
    unfold has_peer at 1. cbn [i_peers]. rewrite existsb_app. cbn [existsb update_kpeer k_pub].
    rewrite beq_refl, orb_true_r. cbn [orb]. cbn [i_priv i_port i_fwmark i_aips i_peers]. rewrite fold_left_app. reflexivity.
Qed.

Lemma taken_effect : forall ps al secs ps' al', taken ps al secs ps' al' ->
  forall s, fold_left (apply_peer pubkey) (map rq_sec secs ++ pending ps' al') s = fold_left (apply_peer pubkey) (pending ps al) s.
Proof.
  induction 1 as [|p ps al|p ps al secs ps' al' H IH|p ps al nest take rest E Hr Hn]; intro s; try reflexivity.
  - cbn [map app pending fold_left]. rewrite rq_sec_part. cbn [s_peer s_cont s_take]. rewrite IH, pending_fresh. reflexivity.
  - cbn [map app pending fold_left]. rewrite rq_sec_part. cbn [s_peer s_cont s_take]. rewrite E.
    replace (nonempty rest) with true by (destruct rest; [contradiction|reflexivity]).
    replace (todo p rest) with rest by (destruct rest; [contradiction|reflexivity]).
    rewrite apply_split. reflexivity.
Qed.

Lemma apply_later : forall s d l, apply_request pubkey s (rq_dev d false l) = fold_left (apply_peer pubkey) l s.
Proof. intros [a b c e f] d l. reflexivity. Qed.

Lemma frags_later : forall d at_ rs, frags d at_ rs -> is_first at_ = false -> forall s,
  fold_left (apply_request pubkey) rs s = fold_left (apply_peer pubkey) (pending (fst (state_of d at_)) (snd (state_of d at_))) s.
Proof.
  induction 1 as [at_ secs H|at_ secs ps' al' rs H Hne Hm Hf IH]; intros Ef s.
  - cbn [fold_left]. rewrite Ef, apply_later. rewrite <- (taken_effect _ _ _ _ _ H). cbn [pending]. rewrite app_nil_r. reflexivity.
  - cbn [fold_left]. rewrite Ef, apply_later. rewrite IH by reflexivity. cbn [state_of fst snd].
    rewrite <- fold_left_app. apply taken_effect, H.
Qed.

Lemma apply_request_peers : forall s q l1 l2,
  apply_request pubkey s (mk_request (rq_name q) (rq_priv q) (rq_port q) (rq_fwmark q) (rq_replace q) (l1 ++ l2))
  = fold_left (apply_peer pubkey) l2 (apply_request pubkey s (mk_request (rq_name q) (rq_priv q) (rq_port q) (rq_fwmark q) (rq_replace q) l1)).
Proof. intros s q l1 l2. unfold apply_request. cbn [rq_port rq_fwmark rq_replace rq_priv rq_peers]. rewrite fold_left_app. reflexivity. Qed.

Lemma apply_request_cong : forall s d l1 l2, (forall s', fold_left (apply_peer pubkey) l1 s' = fold_left (apply_peer pubkey) l2 s') ->
  apply_request pubkey s (rq_dev d true l1) = apply_request pubkey s (rq_dev d true l2).
Proof. intros s d l1 l2 H. unfold apply_request, rq_dev. cbn [rq_port rq_fwmark rq_replace rq_priv rq_peers]. apply H. Qed.

Theorem frags_effect : forall d rs, frags d None rs -> forall s,
  fold_left (apply_request pubkey) rs s = apply_request pubkey s (request_of d).
Proof.
  intros d rs H s. assert (Er : request_of d = rq_dev d true (pending (d_peers d) [])) by (rewrite pending_fresh; reflexivity).
  rewrite Er. inversion H as [at_ secs Ht|at_ secs ps' al' rs' Ht Hne Hm Hf]; subst; cbn [state_of fst snd is_first] in *.
  - cbn [fold_left]. apply apply_request_cong. intro s'. rewrite <- (taken_effect _ _ _ _ _ Ht). cbn [pending]. rewrite app_nil_r. reflexivity.
  - cbn [fold_left]. rewrite (frags_later d _ _ Hf eq_refl). cbn [state_of fst snd].
    transitivity (apply_request pubkey s (rq_dev d true (map rq_sec secs ++ pending ps' al')));
      [symmetry; exact (apply_request_peers s (rq_dev d true []) (map rq_sec secs) (pending ps' al'))|].
    apply apply_request_cong. intro s'. apply taken_effect, Ht.
Qed.
End Effect.

(** Whatever is read off the sections and splits along the allowed IPs is sent once. *)
Lemma taken_flat : forall (X : Type) (f : rq_peer -> list X),
  (forall p cont a b, f (part p cont (a ++ b)) = f (part p cont a) ++ f (part p true b)) ->
  forall ps al secs ps' al', taken ps al secs ps' al' ->
  flat_map f (map rq_sec secs ++ pending ps' al') = flat_map f (pending ps al).
Proof.
  intros X f Hf. induction 1 as [|p ps al|p ps al secs ps' al' H IH|p ps al nest take rest E Hr Hn]; try reflexivity.
  - cbn [map app pending flat_map]. rewrite rq_sec_part. cbn [s_peer s_cont s_take]. rewrite IH, pending_fresh. reflexivity.
  - cbn [map app pending flat_map]. rewrite rq_sec_part. cbn [s_peer s_cont s_take]. rewrite E, Hf.
    replace (nonempty rest) with true by (destruct rest; [contradiction|reflexivity]).
    replace (todo p rest) with rest by (destruct rest; [contradiction|reflexivity]). rewrite <- app_assoc. reflexivity.
Qed.
Lemma frags_flat : forall (X : Type) (f : rq_peer -> list X),
  (forall p cont a b, f (part p cont (a ++ b)) = f (part p cont a) ++ f (part p true b)) ->
  forall d at_ rs, frags d at_ rs ->
  flat_map f (flat_map rq_peers rs) = flat_map f (pending (fst (state_of d at_)) (snd (state_of d at_))).
Proof.
  intros X f Hf d. induction 1 as [at_ secs H|at_ secs ps' al' rs H Hne Hm Hfr IH].
  - cbn [flat_map rq_dev rq_peers]. rewrite app_nil_r. rewrite <- (taken_flat X f Hf _ _ _ _ _ H). cbn [pending]. rewrite app_nil_r. reflexivity.
  - cbn [flat_map rq_dev rq_peers]. rewrite flat_map_app, IH. cbn [state_of fst snd]. rewrite <- flat_map_app. apply (taken_flat X f Hf), H.
Qed.

Lemma frags_head : forall d at_ rs, frags d at_ rs -> is_first at_ = false -> Forall (fun q => q = rq_dev d false (rq_peers q)) rs.
Proof.
  induction 1 as [at_ secs H|at_ secs ps' al' rs H Hne Hm Hfr IH]; intro E; rewrite E; constructor; try reflexivity; try constructor.
  apply IH. reflexivity.
Qed.

Lemma frags_count : forall d at_ rs, frags d at_ rs -> (length rs <= S (mes (fst (state_of d at_)) (snd (state_of d at_))))%nat.
Proof.
  induction 1 as [at_ secs H|at_ secs ps' al' rs H Hne Hm Hfr IH]; cbn [length]; [lia|]. cbn [state_of fst snd] in IH. lia.
Qed.
