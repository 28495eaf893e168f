(** The dump of links (src/ipc-linux.h:35-140): the names in it, in order. *)
From Coq Require Import String ZArith List Bool Lia.
From Verif Require Import Base Types Encoding Config NlSpec NlProofs NlGetSpec Nl NlSet NlSetProofs4 NlGet NlGetProofs NlRun NlGetProofs3 Show Ipc IpcSpec IpcProofs.
Import ListNotations.
Open Scope Z_scope.

(** ** Strings inside attributes *)
Lemma until_nul_app : forall p x, In 0 p -> until_nul (p ++ x) = until_nul p.
Proof.
  induction p as [|c p IH]; intros x H; [contradiction|]. cbn [app until_nul]. destruct (Z.eqb_spec c 0); [reflexivity|].
  f_equal. apply IH. destruct H as [H|H]; [congruence|exact H].
Qed.
Lemma until_nul_no0 : forall p, ~ In 0 (until_nul p).
Proof. induction p as [|c p IH]; cbn [until_nul]; [auto|]. destruct (Z.eqb_spec c 0); [auto|]. intros [H|H]; [congruence|auto]. Qed.
Lemma until_nul_len : forall p, len (until_nul p) <= len p.
Proof. induction p as [|c p IH]; cbn [until_nul]; [lia|]. destruct (c =? 0); unfold len in *; cbn [length]; lia. Qed.

Lemma cstr_at_payload : forall m stop pos t p, in_attr m stop pos t p -> In 0 p -> cstr_at m (payload pos) = Some (until_nul p).
Proof.
  intros m stop pos t p (l & H1 & H2 & H3 & H4 & H5 & H6 & Ep) Hz. unfold cstr_at, payload.
  assert (E : skipn (Z.to_nat (pos + 4)) m = p ++ skipn (Z.to_nat (pos + l)) m).
  { rewrite <- (firstn_skipn (Z.to_nat (l - 4)) (skipn (Z.to_nat (pos + 4)) m)). rewrite skipn_skipn_Z by lia. f_equal.
    - subst p. unfold slice. f_equal. lia.
    - do 2 f_equal. lia. }
  rewrite E. destruct (Z.leb_spec 0 (pos + 4)); [|lia]. cbn [andb].
  replace (existsb (Z.eqb 0) (p ++ skipn (Z.to_nat (pos + l)) m)) with true.
  - rewrite until_nul_app by exact Hz. reflexivity.
  - symmetry. apply existsb_exists. exists 0. split; [apply in_or_app; left; exact Hz|reflexivity].
Qed.

Lemma strcmp_payload : forall m stop pos t p, in_attr m stop pos t p -> forall lit k, 0 <= k <= len p -> In 0 (skipn (Z.to_nat k) p) ->
  ~ In 0 lit -> strcmp_at lit m (payload pos + k) = Some (beq (until_nul (skipn (Z.to_nat k) p)) lit).
Proof.
  intros m stop pos t p H. induction lit as [|x lit IH]; intros k Hk Hz Hl.
  - assert (Hk1 : k + 1 <= len p).
    { destruct (Z_le_gt_dec (k + 1) (len p)); [assumption|]. replace (Z.to_nat k) with (length p) in Hz by (unfold len in *; lia). rewrite skipn_all in Hz. contradiction. }
    cbn [strcmp_at]. rewrite (rd_le_payload m stop pos t p k 1 H) by lia. destruct (skipn (Z.to_nat k) p) as [|c r]; [contradiction|].
    change (Z.to_nat 1) with 1%nat. cbn [firstn le_val until_nul]. replace (c + 256 * 0) with c by lia. destruct (c =? 0); reflexivity.
  - assert (Hk1 : k + 1 <= len p).
    { destruct (Z_le_gt_dec (k + 1) (len p)); [assumption|]. replace (Z.to_nat k) with (length p) in Hz by (unfold len in *; lia). rewrite skipn_all in Hz. contradiction. }
    cbn [strcmp_at]. rewrite (rd_le_payload m stop pos t p k 1 H) by lia. destruct (skipn (Z.to_nat k) p) as [|c r] eqn:E; [contradiction|].
    assert (Er : skipn (Z.to_nat (k + 1)) p = r) by (rewrite <- skipn_skipn_Z by lia; rewrite E; reflexivity).
    change (Z.to_nat 1) with 1%nat. cbn [firstn le_val until_nul]. replace (c + 256 * 0) with c by lia.
    destruct (Z.eqb_spec c x) as [->|Hc].
    + destruct (Z.eqb_spec x 0) as [->|Hx]; [exfalso; apply Hl; left; reflexivity|].
      cbn [beq]. rewrite Z.eqb_refl. cbn [andb]. rewrite <- Z.add_assoc. rewrite (IH (k + 1)); [rewrite Er; reflexivity|lia| |].
      * rewrite Er. destruct Hz as [Hz|Hz]; [congruence|exact Hz].
      * intro H0. apply Hl. right. exact H0.
    + destruct (Z.eqb_spec c 0); [reflexivity|]. cbn [beq]. apply Z.eqb_neq in Hc. rewrite Hc. reflexivity.
Qed.

(** ** The parsers on attributes *)
Definition f_linkinfo (t : Z) (p : list Z) (i : interface) : Z * interface :=
  (CB_OK, if (t =? 1) && beq (until_nul p) (str "wireguard") then mk_interface (if_name i) true else i).
Definition f_infomsg (t : Z) (p : list Z) (i : interface) : Z * interface :=
  if t =? 18 then fold_attrs f_linkinfo (attrs p) CB_OK i
  else if t =? 3 then (CB_OK, mk_interface (Some (Some (until_nul p))) (if_wg i)) else (CB_OK, i).

Definition ok_link (t : Z) (p : list Z) : Prop := t = 1 -> In 0 p.
Definition ok_info (t : Z) (p : list Z) : Prop := (t = 3 -> In 0 p) /\ (t = 18 -> Forall (fun k => fst k = 1 -> In 0 (snd k)) (attrs p)).

Lemma wireguard_no0 : ~ In 0 (str "wireguard").
Proof. vm_compute. intuition discriminate. Qed.

Lemma parse_linkinfo_f : forall m stop pos t p i, in_attr m stop pos t p -> ok_link t p -> parse_linkinfo m pos i = Some (f_linkinfo t p i).
Proof.
  intros m stop pos t p i H Hok. unfold parse_linkinfo, f_linkinfo. destruct (payload_len _ _ _ _ _ H) as [_ ->].
  destruct (Z.eqb_spec t 1) as [E|]; [|reflexivity]. replace (payload pos) with (payload pos + 0) by lia.
  pose proof (len_nonneg p). rewrite (strcmp_payload m stop pos t p H); [|lia|exact (Hok E)|exact wireguard_no0].
  cbn [Z.to_nat skipn andb]. destruct (beq (until_nul p) (str "wireguard")); reflexivity.
Qed.
Lemma parse_infomsg_f : forall m stop pos t p i, Forall is_byte m -> len m < 2 ^ 30 -> in_attr m stop pos t p -> ok_info t p ->
  parse_infomsg m pos i = Some (f_infomsg t p i).
Proof.
  intros m stop pos t p i Hb Hl H [Hok1 Hok2]. unfold parse_infomsg, f_infomsg. destruct (payload_len _ _ _ _ _ H) as [_ ->].
  destruct (Z.eqb_spec t 18) as [E|].
  { apply (nested_spec _ m (parse_linkinfo m) f_linkinfo ok_link stop pos t p i Hb Hl); [|exact H|exact (Hok2 E)].
    intros. eapply parse_linkinfo_f; eassumption. }
  destruct (Z.eqb_spec t 3) as [E|]; [|reflexivity]. rewrite (cstr_at_payload _ _ _ _ _ H (Hok1 E)). reflexivity.
Qed.

Definition kind_in (l : list (Z * list Z)) : bool := existsb (fun a => (fst a =? 1) && beq (until_nul (snd a)) (str "wireguard")) l.
Definition wg_in (l : list (Z * list Z)) : bool := existsb (fun a => (fst a =? 18) && kind_in (attrs (snd a))) l.

Lemma fold_linkinfo : forall l i, fold_attrs f_linkinfo l CB_OK i = (CB_OK, mk_interface (if_name i) (if_wg i || kind_in l)).
Proof.
  induction l as [|[t p] l IH]; intro i; cbn [fold_attrs kind_in existsb fst snd].
  - rewrite orb_false_r. destruct i; reflexivity.
  - unfold f_linkinfo at 1. change (CB_OK <=? CB_STOP) with false. cbv iota. rewrite IH. fold (kind_in l).
    destruct ((t =? 1) && beq (until_nul p) (str "wireguard")); cbn [if_name if_wg orb]; [|reflexivity]. rewrite orb_true_r. reflexivity.
Qed.
Lemma fold_infomsg : forall l i, fold_attrs f_infomsg l CB_OK i =
  (CB_OK, mk_interface (match find_attr 3 l with Some p => Some (Some (until_nul p)) | None => if_name i end) (if_wg i || wg_in l)).
Proof.
  induction l as [|[t p] l IH]; intro i; cbn [fold_attrs wg_in existsb fst snd find_attr].
  - rewrite orb_false_r. destruct i; reflexivity.
  - unfold f_infomsg at 1. fold (wg_in l). destruct (Z.eqb_spec t 18) as [->|H18].
    + rewrite fold_linkinfo. change (CB_OK <=? CB_STOP) with false. cbv iota. rewrite IH. cbn [if_name if_wg Z.eqb Pos.eqb andb].
      rewrite orb_assoc. destruct (find_attr 3 l); reflexivity.
    + cbn [andb orb]. destruct (Z.eqb_spec t 3) as [->|H3].
      * change (CB_OK <=? CB_STOP) with false. cbv iota. rewrite IH. cbn [if_name if_wg]. destruct (find_attr 3 l); reflexivity.
      * change (CB_OK <=? CB_STOP) with false. cbv iota. rewrite IH. destruct (find_attr 3 l); reflexivity.
Qed.

Lemma wg_in_spec : forall m, wg_in (link_attrs m) = true <-> of_kind (str "wireguard") m.
Proof.
  intro m. unfold wg_in, kind_in, of_kind. rewrite existsb_exists. split.
  - intros ([t p] & H1 & H2). cbn [fst snd] in H2. apply andb_true_iff in H2 as [H2 H3]. apply Z.eqb_eq in H2. subst t.
    apply existsb_exists in H3 as ([t k] & H3 & H4). cbn [fst snd] in H4. apply andb_true_iff in H4 as [H4 H5]. apply Z.eqb_eq in H4. subst t.
    apply beq_eq in H5. exists p, k. repeat split; assumption.
  - intros (p & k & H1 & H2 & H3). exists (18, p). split; [exact H1|]. cbn [fst snd]. rewrite Z.eqb_refl. cbn [andb].
    apply existsb_exists. exists (1, k). split; [exact H2|]. cbn [fst snd]. rewrite Z.eqb_refl, H3. apply beq_refl.
Qed.

Definition names_in (m : list Z) : list (list Z) :=
  if wg_in (link_attrs m) then
    match find_attr 3 (link_attrs m) with Some p => match until_nul p with [] => [] | n => [n] end | None => [] end
  else [].
Lemma names_in_listed : forall m, listed m (names_in m).
Proof.
  intro m. unfold listed, names_in, has_name. destruct (wg_in (link_attrs m)) eqn:W.
  - apply wg_in_spec in W. destruct (find_attr 3 (link_attrs m)) as [p|] eqn:F.
    + destruct (until_nul p) as [|c n] eqn:U.
      * right. split; [|reflexivity]. intros (n & _ & (q & E & E2) & Hn). congruence.
      * left. exists (c :: n). repeat split; [exact W|exists p; split; [reflexivity|exact U]|discriminate].
    + right. split; [|reflexivity]. intros (n & _ & (q & E & E2) & Hn). congruence.
  - right. split; [|reflexivity]. intros (n & K & _). apply wg_in_spec in K. congruence.
Qed.
Lemma listed_fun : forall m a b, listed m a -> listed m b -> a = b.
Proof.
  intros m a b [(n & K & (p & F & U) & N & ->)|[H ->]] [(n' & K' & (p' & F' & U') & N' & ->)|[H' ->]]; try reflexivity.
  - congruence.
  - exfalso. apply H'. exists n. repeat split; try assumption. exists p. split; assumption.
  - exfalso. apply H. exists n'. repeat split; try assumption. exists p'. split; assumption.
Qed.

Lemma stream_len : forall f b t p, In (t, p) (stream f b) -> len p <= len b.
Proof.
  induction f as [|f IH]; intros b t p H; [contradiction|]. cbn [stream] in H.
  destruct b as [|l0 [|l1 [|t0 [|t1 rest]]]]; try contradiction. cbv zeta in H.
  destruct ((4 <=? l0 + 256 * l1) && (l0 + 256 * l1 <=? len (l0 :: l1 :: t0 :: t1 :: rest))); [|contradiction].
  destruct H as [H|H].
  - injection H as _ <-. unfold len. rewrite firstn_length. cbn [length]. lia.
  - apply IH in H. unfold len in *. rewrite skipn_length in H. lia.
Qed.
Lemma attrs_len : forall b t p, In (t, p) (attrs b) -> len p <= len b.
Proof. intros b t p. apply stream_len. Qed.

(** ** The callback on a message *)
Definition g_list (hp : heap) (msg : list Z) (s : Z * slist) : Z * (Z * slist) :=
  let add := match find_attr 3 (link_attrs msg) with
             | Some p => if wg_in (link_attrs msg) then match string_list_add hp (snd s) (until_nul p) with Some x => x | None => (0, snd s) end else (CB_OK, snd s)
             | None => (CB_OK, snd s)
             end in
  if fst add <? 0 then (fst add, (- fst add, snd add))
  else (if fld 4 2 msg =? 3 then CB_OK else CB_OK + 1, (fst s, snd add)).

Lemma read_devices_cb_f : forall hp m nlh l s names, heap_ok hp -> holds (snd s) names -> Forall is_byte m -> len m < 2 ^ 30 -> 0 <= nlh -> rd_le m nlh 4 = Some l -> 32 <= l < 2 ^ 31 ->
  nlh + up4 l <= len m -> strings_end (slice m nlh (nlh + up4 l)) ->
  read_devices_cb hp m nlh s = Some (g_list hp (slice m nlh (nlh + up4 l)) s).
Proof.
  intros hp m nlh l s names Hh Hn Hb Hl Hp Hr Hl32 Hs Hok. unfold read_devices_cb, attr_parse. rewrite Hr, align32_up4 by lia. change (align 16) with 16.
  pose proof (up4_range l) as Ul.
  assert (E : link_attrs (slice m nlh (nlh + up4 l)) = attrs (slice m (nlh + 32) (nlh + up4 l))).
  { unfold link_attrs. f_equal. change 32%nat with (Z.to_nat 32). apply skipn_slice; lia. }
  replace (nlh + 16 + 16) with (nlh + 32) by lia.
  rewrite (attr_loop_spec _ m (parse_infomsg m) f_infomsg ok_info (nlh + up4 l) Hb Hl Hs).
  - rewrite <- E. rewrite fold_infomsg. cbn [if_name if_wg orb]. change (CB_OK =? CB_OK) with true. cbn [negb]. unfold g_list.
    rewrite (fld_slice m nlh (up4 l) 4 2) by lia.
    destruct (find_attr 3 (link_attrs (slice m nlh (nlh + up4 l)))) as [p|] eqn:F.
    + destruct (wg_in (link_attrs (slice m nlh (nlh + up4 l)))).
      * assert (Hlen : len (until_nul p) < 2 ^ 62).
        { pose proof (until_nul_len p). assert (len p <= len m); [|change (2 ^ 62) with 4611686018427387904; change (2 ^ 30) with 1073741824 in *; lia].
          rewrite E in F. clear - F Hp Hs Ul Hl32 Hb Hl.
          pose proof (attrs_len _ _ _ (NlGetProofs2.find_attr_in _ _ _ F)). rewrite len_slice in * by lia. lia. }
        destruct (add_holds hp (snd s) names (until_nul p) Hh Hn (until_nul_no0 p) Hlen) as (r & l' & Ea & _). rewrite Ea.
        cbn [fst snd]. destruct (r <? 0); reflexivity.
      * cbn [fst snd]. change (CB_OK <? 0) with false. reflexivity.
    + cbn [fst snd]. change (CB_OK <? 0) with false. reflexivity.
  - intros. eapply parse_infomsg_f; eassumption.
  - lia.
  - unfold len in *. lia.
  - rewrite <- E. exact Hok.
Qed.

(** ** mnl_cb_run on the messages of a datagram *)
Definition f_default {A} (msg : list Z) (st : Z * A) : Z * (Z * A) :=
  let type := fld 4 2 msg in let mlen := fld 0 4 msg in
  if type =? 2 then
    if mlen <? 36 then (CB_ERROR, (EBADMSG, snd st))
    else let e := s32 (fld 16 4 msg) in (if e =? 0 then CB_STOP else CB_ERROR, (ctl_errno e, snd st))
  else if type =? 3 then (CB_STOP, st)
  else (CB_OK, st).
Definition f_msg0 {A} (seq portid : Z) (h : list Z -> Z * A -> Z * (Z * A)) (msg : list Z) (ret : Z) (st : Z * A)
  : (Z * (Z * A)) + (Z * (Z * A)) :=
  let type := fld 4 2 msg in let flags := fld 6 2 msg in let mseq := fld 8 4 msg in let mpid := fld 12 4 msg in
  if negb (mpid =? 0) && negb (portid =? 0) && negb (mpid =? portid) then inl (CB_ERROR, (ESRCH, snd st))
  else if negb (mseq =? 0) && negb (seq =? 0) && negb (mseq =? seq) then inl (CB_ERROR, (EPROTO, snd st))
  else if Z.testbit flags 4 then inl (CB_ERROR, (EINTR, snd st))
  else if 16 <=? type then let r := h msg st in if fst r <=? CB_STOP then inl r else inr r
  else if (1 <=? type) && (type <=? 4) then let r := f_default msg st in if fst r <=? CB_STOP then inl r else inr r
  else inr (ret, st).
Fixpoint f_run0 {A} seq portid (h : list Z -> Z * A -> Z * (Z * A)) (ms : list (list Z)) (ret : Z) (st : Z * A) : Z * (Z * A) :=
  match ms with
  | [] => (ret, st)
  | m :: ms' =>
      match f_msg0 seq portid h m ret st with
      | inl r => r
      | inr r => f_run0 seq portid h ms' (fst r) (snd r)
      end
  end.

Lemma f_default_snd : forall A msg (st : Z * A), snd (snd (f_default msg st)) = snd st.
Proof.
  intros A msg st. unfold f_default. cbv zeta. destruct (fld 4 2 msg =? 2); [destruct (fld 0 4 msg <? 36); reflexivity|].
  destruct (fld 4 2 msg =? 3); reflexivity.
Qed.

Lemma cb_run_default_f : forall A m seq portid (cb : Z -> Z * A -> option (Z * (Z * A))) h (okm : list Z -> Prop) (I : A -> Prop),
  Forall is_byte m -> len m < 2 ^ 30 ->
  (forall pos l st, 0 <= pos -> rd_le m pos 4 = Some l -> 16 <= l < 2 ^ 31 -> pos + up4 l <= len m -> I (snd st) ->
     let msg := slice m pos (pos + up4 l) in
     okm msg -> 16 <= fld 4 2 msg -> cb pos st = Some (h msg st) /\ I (snd (snd (h msg st)))) ->
  forall fuel pos n ret st, 0 <= pos -> n < 2 ^ 30 -> - 4 <= n -> pos + up4 n <= len m -> (Z.to_nat n < fuel)%nat ->
  sane fuel n (skipn (Z.to_nat pos) m) -> Forall okm (msgs fuel n (skipn (Z.to_nat pos) m)) -> I (snd st) ->
  cb_run_default m seq portid cb fuel pos n ret st = Some (f_run0 seq portid h (msgs fuel n (skipn (Z.to_nat pos) m)) ret st).
Proof.
  intros A m seq portid cb h okm I Hb Hl Hcb. change (2 ^ 30) with 1073741824 in *. change (2 ^ 31) with 2147483648 in *.
  induction fuel as [|f IH]; intros pos n ret st Hp Hn Hn4 Hpn Hf Hs Hok HI; [lia|].
  pose proof (up4_range n) as Un.
  cbn [cb_run_default msgs sane] in *. unfold nlmsg_ok. destruct (Z.leb_spec 16 n) as [H16|H16]; [|reflexivity].
  rewrite (rd_le_slice m pos 4) by lia.
  assert (El : le_val (slice m pos (pos + 4)) = le_val (firstn 4 (skipn (Z.to_nat pos) m))).
  { unfold slice. replace (Z.to_nat (pos + 4 - pos)) with 4%nat by lia. reflexivity. }
  rewrite El. set (l := le_val (firstn 4 (skipn (Z.to_nat pos) m))) in *.
  specialize (Hs H16). destruct Hs as [Hs1 Hs2].
  change (2 ^ 31) with 2147483648 in Hs1.
  assert (Hl0 : 0 <= l).
  { rewrite <- El. apply le_val_bound. apply Forall_slice, Hb. }
  rewrite s32_small by (change (2 ^ 31) with 2147483648; lia).
  destruct (Z.leb_spec 16 l) as [Hl16|Hl16]; cbn [andb]; [|reflexivity].
  destruct (Z.leb_spec l n) as [Hln|Hln]; [|reflexivity].
  pose proof (up4_range l) as Ul. pose proof (up4_le l n Hln) as Uln.
  assert (Eu : firstn (Z.to_nat (up4 l)) (skipn (Z.to_nat pos) m) = slice m pos (pos + up4 l)).
  { unfold slice. f_equal. lia. }
  cbn [msgs] in Hok. destruct (Z.leb_spec 16 n) as [_|]; [|lia]. cbv zeta in Hok. fold l in Hok.
  destruct (Z.leb_spec 16 l) as [_|] in Hok; [|lia]. destruct (Z.leb_spec l n) as [_|] in Hok; [|lia]. cbn [andb] in Hok.
  rewrite Eu in *. inversion Hok as [|x y Hok1 Hok2]; subst.
  cbn [f_run0]. set (msg := slice m pos (pos + up4 l)) in *.
  rewrite (fld_slice m pos (up4 l) 4 2), (fld_slice m pos (up4 l) 6 2), (fld_slice m pos (up4 l) 8 4), (fld_slice m pos (up4 l) 12 4) by lia.
  fold msg. unfold f_msg0. cbv zeta.
  assert (E0 : fld 0 4 msg = l).
  { unfold fld, msg. rewrite firstn_skipn_slice by lia. rewrite <- El. do 2 f_equal; lia. }
  destruct (negb (fld 12 4 msg =? 0) && negb (portid =? 0) && negb (fld 12 4 msg =? portid)); [reflexivity|].
  destruct (negb (fld 8 4 msg =? 0) && negb (seq =? 0) && negb (fld 8 4 msg =? seq)); [reflexivity|].
  destruct (Z.testbit (fld 6 2 msg) 4); [reflexivity|].
  assert (Next : forall r st', I (snd st') -> cb_run_default m seq portid cb f (pos + align32 l) (s32 (n - align32 l)) r st' =
     Some (f_run0 seq portid h (msgs f (n - up4 l) (skipn (Z.to_nat (up4 l)) (skipn (Z.to_nat pos) m))) r st')).
  { intros r st' HI'. rewrite align32_up4 by (change (2 ^ 31) with 2147483648; lia).
    assert (En : s32 (n - up4 l) = n - up4 l).
    { destruct (Z_le_gt_dec 0 (n - up4 l)).
      - apply s32_small. change (2 ^ 31) with 2147483648. lia.
      - rewrite <- (s32_id (n - up4 l)) at 2 by (change (2 ^ 31) with 2147483648; lia). unfold s32. rewrite Z.mod_mod by lia. reflexivity. }
    rewrite En. rewrite skipn_skipn_Z in * by lia.
    assert (U2 : up4 (n - up4 l) = up4 n - up4 l).
    { replace n with (up4 l + (n - up4 l)) at 2 by lia. rewrite (up4_add (up4 l)) by apply up4_mult. lia. }
    apply IH; try lia.
    - apply Hs2. lia.
    - exact Hok2.
    - exact HI'. }
  destruct (Z.leb_spec 16 (fld 4 2 msg)) as [Ht|Ht].
  - destruct (Hcb pos l st) as [Ec HI2]; try lia; try assumption.
    { rewrite (rd_le_slice m pos 4) by lia. rewrite El. reflexivity. }
    fold msg in Ec, HI2. rewrite Ec. destruct (h msg st) as [r st'] eqn:Eh. cbn [orb andb fst snd] in *. destruct (r <=? CB_STOP); [reflexivity|]. apply Next. exact HI2.
  - destruct ((1 <=? fld 4 2 msg) && (fld 4 2 msg <=? 4)) eqn:Ec; cbn [orb andb].
    + assert (Ectl : run_default m pos (fld 4 2 msg) l st = Some (f_default msg st)).
      { unfold run_default, f_default. cbv zeta. rewrite E0. unfold s32_at.
        destruct (fld 4 2 msg =? 2).
        - destruct (Z.ltb_spec l 36); [reflexivity|]. rewrite (fld_slice m pos (up4 l) 16 4) by lia. reflexivity.
        - destruct (fld 4 2 msg =? 3); reflexivity. }
      rewrite Ectl. pose proof (f_default_snd A msg st) as Hsnd. destruct (f_default msg st) as [r st']. cbn [andb fst snd] in *. destruct (r <=? CB_STOP); [reflexivity|]. apply Next.
      cbn [snd]. rewrite Hsnd. exact HI.
    + apply Next. exact HI.
Qed.

(** ** A datagram of link messages *)
Lemma answer_msg0 : forall A seq portid (h : list Z -> Z * A -> Z * (Z * A)) m ret st, answer seq portid m ->
  f_msg0 seq portid h m ret st =
  if 16 <=? msg_type m then let r := h m st in if fst r <=? CB_STOP then inl r else inr r
  else if (1 <=? msg_type m) && (msg_type m <=? 4) then let r := f_default m st in if fst r <=? CB_STOP then inl r else inr r
  else inr (ret, st).
Proof.
  intros A seq portid h m ret st (Hm & Hs & Hp & Hf). destruct (msg_fields m Hm) as (Et & Ef & Es & Ep & El). unfold f_msg0. cbv zeta.
  rewrite Et, Ef, Es, Ep, Hf.
  replace (negb (msg_port m =? 0) && negb (portid =? 0) && negb (msg_port m =? portid)) with false.
  2: { symmetry. destruct Hp as [-> | ->]; [rewrite Z.eqb_refl; cbn [negb]; apply andb_false_r|reflexivity]. }
  replace (negb (msg_seq m =? 0) && negb (seq =? 0) && negb (msg_seq m =? seq)) with false; [reflexivity|].
  symmetry. destruct Hs as [-> | ->]; [rewrite Z.eqb_refl; cbn [negb]; apply andb_false_r|reflexivity].
Qed.

Lemma link_attrs_len : forall m p, find_attr 3 (link_attrs m) = Some p -> len p <= len m.
Proof.
  intros m p F. pose proof (attrs_len _ _ _ (NlGetProofs2.find_attr_in _ _ _ F)) as H. unfold len in *. rewrite skipn_length in H. lia.
Qed.

Lemma g_list_spec : forall hp m e l names, heap_ok hp -> holds l names -> len m < 2 ^ 30 -> fld 4 2 m <> 3 ->
  exists r l', g_list hp m (e, l) = r /\
    ((r = (CB_OK + 1, (e, l')) /\ holds l' (names ++ names_in m)) \/ (r = (- ENOMEM, (ENOMEM, l')) /\ holds l' names)).
Proof.
  intros hp m e l names Hh Hn Hl Ht. unfold g_list, names_in. cbn [fst snd]. apply Z.eqb_neq in Ht. rewrite Ht.
  destruct (find_attr 3 (link_attrs m)) as [p|] eqn:F.
  - destruct (wg_in (link_attrs m)) eqn:W.
    + assert (Hlen : len (until_nul p) < 2 ^ 62).
      { pose proof (until_nul_len p). pose proof (link_attrs_len _ _ F). change (2 ^ 62) with 4611686018427387904. change (2 ^ 30) with 1073741824 in *. lia. }
      destruct (add_holds hp l names (until_nul p) Hh Hn (until_nul_no0 p) Hlen) as (r & l' & -> & [[-> H]|[-> ->]]); cbn [fst snd].
      * eexists _, l'. split; [reflexivity|]. left. split; [reflexivity|]. destruct (until_nul p); exact H.
      * eexists _, l. split; [reflexivity|]. right. split; [reflexivity|exact Hn].
    + eexists _, l. split; [reflexivity|]. left. cbn [fst snd]. rewrite app_nil_r. split; [reflexivity|exact Hn].
  - eexists _, l. split; [reflexivity|]. left. cbn [fst snd]. destruct (wg_in (link_attrs m)); rewrite app_nil_r; split; try reflexivity; exact Hn.
Qed.

Lemma f_run0_links : forall hp seq portid, heap_ok hp -> forall ms rest ret e l names, Forall (link_message seq portid) ms -> holds l names ->
  (exists l' ret', f_run0 seq portid (g_list hp) (ms ++ rest) ret (e, l) = f_run0 seq portid (g_list hp) rest ret' (e, l')
    /\ holds l' (names ++ concat (map names_in ms)) /\ (ms <> [] -> ret' = CB_OK + 1) /\ (ms = [] -> ret' = ret))
  \/ (exists l', f_run0 seq portid (g_list hp) (ms ++ rest) ret (e, l) = (- ENOMEM, (ENOMEM, l'))).
Proof.
  intros hp seq portid Hh. induction ms as [|m ms IH]; intros rest ret e l names Hms Hn.
  - left. exists l, ret. cbn [map concat app]. rewrite app_nil_r. split; [reflexivity|]. split; [exact Hn|]. split; [intro H; contradiction H; reflexivity|reflexivity].
  - inversion Hms as [|x y (Ha & Ht & Hl32 & Hse) Hms']; subst. cbn [app f_run0 map concat].
    rewrite answer_msg0 by exact Ha. destruct (Z.leb_spec 16 (msg_type m)); [|lia]. cbv zeta.
    destruct (msg_fields m (proj1 Ha)) as (Et & _).
    destruct (g_list_spec hp m e l names Hh Hn) as (r & l' & -> & [[-> H1]|[-> H1]]).
    { destruct Ha as ((_ & Hl & _) & _). lia. }
    { rewrite Et. lia. }
    + cbn [fst snd]. change (CB_OK + 1 <=? CB_STOP) with false. cbv iota. cbn [fst snd].
      destruct (IH rest (CB_OK + 1) e l' (names ++ names_in m) Hms' H1) as [(l2 & r2 & E & H2 & H3 & H4)|(l2 & E)].
      * left. exists l2, r2. rewrite app_assoc. split; [exact E|]. split; [exact H2|]. split; [|discriminate].
        intros _. destruct ms as [|m0 ms0]; [apply H4; reflexivity|apply H3; discriminate].
      * right. exists l2. exact E.
    + right. exists l'. cbn [fst]. reflexivity.
Qed.

(** Messages whose strings are terminated, if they are data. *)
Definition okl (m : list Z) : Prop := 16 <= fld 4 2 m -> 32 <= fld 0 4 m /\ strings_end m.

Lemma link_okl : forall seq portid m, link_message seq portid m -> okl m.
Proof. intros seq portid m (Ha & Ht & Hl & Hs) _. destruct (msg_fields m (proj1 Ha)) as (_ & _ & _ & _ & El). rewrite El. split; assumption. Qed.

Lemma list_step : forall hp seq portid buf d rs e l names, heap_ok hp -> holds l names -> Forall is_byte buf -> Forall is_byte d -> len buf < 2 ^ 30 -> (4 | len buf) -> len d <= len buf ->
  let m := overwrite buf d in
  sane (S (length m)) (len d) m -> Forall okl (msgs (S (length m)) (len d) m) ->
  list_loop hp seq portid buf (Dgram d :: rs) (e, l) =
  let '(r, st') := f_run0 seq portid (g_list hp) (msgs (S (length m)) (len d) m) CB_OK (e, l) in
  if (r <? 0) && negb (fst st' =? EINTR) then Some (- fst st', snd st')
  else if r =? CB_OK + 1 then list_loop hp seq portid m rs st' else Some (0, snd st').
Proof.
  intros hp seq portid buf d rs e l names Hh Hn Hb Hbd Hl H4 Hd m Hs Hok.
  cbn [list_loop]. fold m. pose proof (len_nonneg buf). pose proof (len_nonneg d).
  assert (Lm : len m = len buf) by (apply overwrite_len; lia).
  assert (Hm : Forall is_byte m).
  { unfold m, overwrite. apply Forall_app. split; [exact Hbd|apply skipn_bytes, Hb]. }
  rewrite (cb_run_default_f _ m seq portid (read_devices_cb hp m) (g_list hp) okl (fun x => exists ns, holds x ns) Hm); [| | |lia|lia|lia| | | | |].
  - cbn [Z.to_nat skipn]. destruct (f_run0 seq portid (g_list hp) (msgs (S (length m)) (len d) m) CB_OK (e, l)) as [r st']. reflexivity.
  - rewrite Lm. exact Hl.
  - intros pos l0 st Hp Hr Hl0 Hpl (ns & HI) msg Hokm Ht. change (2 ^ 31) with 2147483648 in *. change (2 ^ 30) with 1073741824 in *.
    pose proof (up4_range l0) as Ul. destruct (Hokm Ht) as [H32 Hse].
    assert (E0 : fld 0 4 msg = l0).
    { pose proof (fld_slice m pos (up4 l0) 0 4 ltac:(lia) ltac:(lia) ltac:(lia) ltac:(lia) ltac:(lia)) as Ef. rewrite Z.add_0_r, Hr in Ef. injection Ef as Ef. symmetry. exact Ef. }
    split.
    + apply (read_devices_cb_f hp m pos l0 st ns Hh HI Hm); try assumption; change (2 ^ 31) with 2147483648; change (2 ^ 30) with 1073741824; lia.
    + unfold g_list. destruct (find_attr 3 (link_attrs msg)) as [p|] eqn:F.
      * destruct (wg_in (link_attrs msg)); [|exists ns; cbn [fst snd]; destruct (CB_OK <? 0); exact HI].
        assert (Hlen : len (until_nul p) < 2 ^ 62).
        { pose proof (until_nul_len p). pose proof (link_attrs_len _ _ F) as Hx. unfold msg in Hx. rewrite len_slice in Hx by lia. change (2 ^ 62) with 4611686018427387904. lia. }
        destruct (add_holds hp (snd st) ns (until_nul p) Hh HI (until_nul_no0 p) Hlen) as (r & l' & -> & [[-> H1]|[-> ->]]); cbn [fst snd].
        -- eexists. destruct (0 <? 0); exact H1.
        -- exists ns. destruct (- ENOMEM <? 0); exact HI.
      * exists ns. cbn [fst snd]. destruct (CB_OK <? 0); exact HI.
  - rewrite Z.add_0_l, Lm. rewrite <- (up4_id (len buf) H4). apply up4_le. lia.
  - unfold len in *. lia.
  - cbn [Z.to_nat skipn]. exact Hs.
  - cbn [Z.to_nat skipn]. exact Hok.
  - exists names. exact Hn.
Qed.
