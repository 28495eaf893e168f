(** A whole dump: from the datagrams to the device (C22). *)
From Coq Require Import ZArith List Bool Lia.
From Verif Require Import Base Types Encoding EncodingSpec HexProofs NlSpec NlGetSpec Nl NlSet NlGet NlProofs NlSetProofs4 NlGetProofs NlRun NlGetProofs2.
Import ListNotations.
Open Scope Z_scope.

Definition good_device_attr (x : Z * list Z) : Prop :=
  let (t, p) := x in
  (t = 1 -> len p = 4) /\ (t = 2 -> In 0 p) /\ (t = 3 -> len p = 32) /\ (t = 4 -> len p = 32)
  /\ (t = 6 -> len p = 2) /\ (t = 7 -> len p = 4) /\ Forall is_byte p.

Definition upd_device (l : list (Z * list Z)) (secs : list section) (d : device) : device :=
  mk_device (match find_attr 2 l with Some p => until_nul (firstn 15 p) | None => d_name d end)
    (match find_attr 1 l with Some p => le_val p | None => d_ifindex d end)
    (d_replace_peers d)
    (match find_attr 3 l with Some _ => true | None => d_has_priv d end)
    (match find_attr 4 l with Some _ => true | None => d_has_pub d end)
    (d_has_port d) (d_has_fwmark d)
    (some_or (find_attr 4 l) (d_pub d))
    (some_or (find_attr 3 l) (d_priv d))
    (match find_attr 7 l with Some p => le_val p | None => d_fwmark d end)
    (match find_attr 6 l with Some p => le_val p | None => d_port d end)
    (d_peers d ++ map got secs).

Ltac dev_proj := cbn [d_peers d_name d_ifindex d_replace_peers d_has_priv d_has_pub d_has_port d_has_fwmark d_pub d_priv d_fwmark d_port some_or].

Lemma upd_device_nil : forall d, upd_device [] [] d = d.
Proof. intros []. unfold upd_device. cbn. rewrite app_nil_r. reflexivity. Qed.

Definition the_sections (o : option (list Z)) (secs : list section) : Prop :=
  items (fun a x => is_section (snd a) x) (match o with None => [] | Some p => attrs p end) secs.

Lemma fold_device : forall l e d secs, once l -> Forall good_device_attr l -> the_sections (find_attr 8 l) secs ->
  fold_attrs f_device l CB_OK (e, d) = (CB_OK, (e, upd_device l secs d)).
Proof.
  induction l as [|[t p] l IH]; intros e q secs Ho Hg Ha.
  { inversion Ha; subst. cbn [fold_attrs]. rewrite upd_device_nil. reflexivity. }
  inversion Ho as [|x y Hx Hy]; subst. inversion Hg as [|x y G Hg']; subst. destruct G as (G1 & G2 & G3 & G4 & G6 & G7 & Gb).
  cbn [fold_attrs]. unfold f_device at 1. cbv zeta.
  assert (K : forall q', fold_attrs f_device l CB_OK (e, q') = (CB_OK, (e, upd_device l secs q')) \/ t = 8).
  { intro q'. destruct (Z.eq_dec t 8) as [->|N9]; [right; reflexivity|]. left. apply IH; [exact Hy|exact Hg'|].
    cbn [find_attr] in Ha. destruct (find_attr 8 l) eqn:F; [exact Ha|]. destruct (Z.eqb_spec t 8); [contradiction|exact Ha]. }
  Ltac dfin Hx := unfold okr, CB_OK, CB_STOP; cbn [Z.leb Z.compare]; fold CB_OK;
    match goal with K : forall q', _ |- fold_attrs f_device _ _ (_, ?q') = _ => destruct (K q') as [->|]; [|lia] end;
    do 2 f_equal; unfold upd_device; dev_proj; cbn [find_attr]; rewrite ?(find_attr_notin _ _ Hx); cbn [Z.eqb Pos.eqb];
    repeat match goal with |- context [match find_attr ?k ?l with _ => _ end] => destruct (find_attr k l) end; reflexivity.
  destruct (Z.eqb_spec t 1) as [->|N1]; [rewrite (G1 eq_refl); cbn [Z.eqb Pos.eqb]; dfin Hx|].
  destruct (Z.eqb_spec t 2) as [->|N2].
  { assert (len p =? 0 = false). { specialize (G2 eq_refl). destruct p; [contradiction|]. apply Z.eqb_neq. rewrite len_cons. pose proof (len_nonneg p). lia. }
    rewrite H. dfin Hx. }
  destruct (Z.eqb_spec t 3) as [->|N3]; [rewrite (G3 eq_refl); cbn [Z.eqb Pos.eqb]; dfin Hx|].
  destruct (Z.eqb_spec t 4) as [->|N4]; [rewrite (G4 eq_refl); cbn [Z.eqb Pos.eqb]; dfin Hx|].
  destruct (Z.eqb_spec t 6) as [->|N6]; [rewrite (G6 eq_refl); cbn [Z.eqb Pos.eqb]; dfin Hx|].
  destruct (Z.eqb_spec t 7) as [->|N7]; [rewrite (G7 eq_refl); cbn [Z.eqb Pos.eqb]; dfin Hx|].
  destruct (Z.eqb_spec t 8) as [->|N8].
  { assert (F8 : find_attr 8 l = None) by (apply find_attr_notin; exact Hx).
    cbn [find_attr] in Ha. rewrite F8 in Ha. cbn [Z.eqb Pos.eqb] in Ha.
    rewrite (fold_peers (attrs p) secs e q); [|apply Forall_forall; intros [t' p'] Hin; eapply attrs_bytes; eassumption|exact Ha].
    unfold CB_OK, CB_STOP. cbn [Z.leb Z.compare]. fold CB_OK.
    rewrite (IH e _ [] Hy Hg') by (rewrite F8; constructor). do 2 f_equal.
    unfold upd_device, set_peers. dev_proj. cbn [find_attr Z.eqb Pos.eqb map]. rewrite app_nil_r.
    repeat match goal with |- context [match find_attr ?k ?l with _ => _ end] => destruct (find_attr k l) end; reflexivity. }
  unfold okr, CB_OK, CB_STOP; cbn [Z.leb Z.compare]; fold CB_OK. destruct (K q) as [->|]; [|lia]. do 2 f_equal.
  unfold upd_device. cbn [find_attr].
  destruct (Z.eqb_spec t 1); [lia|]. destruct (Z.eqb_spec t 2); [lia|]. destruct (Z.eqb_spec t 3); [lia|]. destruct (Z.eqb_spec t 4); [lia|].
  destruct (Z.eqb_spec t 6); [lia|]. destruct (Z.eqb_spec t 7); [lia|].
  repeat match goal with |- context [match find_attr ?k ?l with _ => _ end] => destruct (find_attr k l) end; reflexivity.
Qed.

(** One message of a dump. *)
Definition add_dump (q : dump) (d : device) : device :=
  mk_device (some_or (du_name q) (d_name d)) (some_or (du_ifindex q) (d_ifindex d)) (d_replace_peers d)
    (match du_priv q with Some _ => true | None => d_has_priv d end) (match du_pub q with Some _ => true | None => d_has_pub d end)
    (d_has_port d) (d_has_fwmark d) (some_or (du_pub q) (d_pub d)) (some_or (du_priv q) (d_priv d))
    (some_or (du_fwmark q) (d_fwmark d)) (some_or (du_port q) (d_port d)) (d_peers d ++ map got (du_sections q)).

Lemma until_nul_firstn : forall n p, len (until_nul p) <= Z.of_nat n -> In 0 p -> until_nul (firstn n p) = until_nul p.
Proof.
  induction n as [|n IH]; intros [|c p] H Hin; try reflexivity.
  - cbn [until_nul] in *. destruct (c =? 0); [reflexivity|]. rewrite len_cons in H. pose proof (len_nonneg (until_nul p)). lia.
  - cbn [firstn until_nul] in *. destruct (Z.eqb_spec c 0); [reflexivity|]. f_equal. apply IH; [rewrite len_cons in H; lia|].
    destruct Hin as [E|Hin]; [contradiction|exact Hin].
Qed.

Lemma dump_attrs : forall b q e d, Forall is_byte b -> is_dump b q ->
  Forall (fun a => name_terminated (fst a) (snd a)) (attrs b) /\ fold_attrs f_device (attrs b) CB_OK (e, d) = (CB_OK, (e, add_dump q d)).
Proof.
  intros b q e d Hb (Ho & S1 & S2 & S3 & S4 & S6 & S7 & S8).
  assert (Hg : Forall good_device_attr (attrs b)).
  { apply Forall_forall. intros [t' p'] Hin. pose proof (find_attr_once _ _ _ Ho Hin) as F. unfold good_device_attr.
    repeat split; try (intros ->; rewrite F in *).
    - apply sized_some in S1 as [? _]. assumption.
    - destruct (du_name q); [apply S2|contradiction].
    - apply sized_some in S3 as [? _]. assumption.
    - apply sized_some in S4 as [? _]. assumption.
    - apply sized_some in S6 as [? _]. assumption.
    - apply sized_some in S7 as [? _]. assumption.
    - eapply attrs_bytes; eassumption. }
  split.
  - revert Hg. apply Forall_impl. intros [t p] (_ & G2 & _) Et. cbn [fst snd] in *. left. apply G2, Et.
  - rewrite (fold_device _ e d (du_sections q) Ho Hg S8). do 2 f_equal. unfold upd_device, add_dump.
    assert (En : match find_attr 2 (attrs b) with Some p => until_nul (firstn 15 p) | None => d_name d end = some_or (du_name q) (d_name d)).
    { destruct (find_attr 2 (attrs b)) as [p|], (du_name q) as [n|]; try contradiction; [|reflexivity].
      destruct S2 as (H0 & <- & L). cbn [some_or]. apply until_nul_firstn; [exact L|exact H0]. }
    rewrite En.
    assert (O : forall A n (f : list Z -> A) t o x, sized n f (find_attr t (attrs b)) = Some o -> match find_attr t (attrs b) with Some p => f p | None => x end = some_or o x).
    { intros A n f t o x H. destruct (find_attr t (attrs b)) as [p|]; [apply sized_some in H as [_ ->]; reflexivity|cbn in H; injection H as <-; reflexivity]. }
    assert (O2 : forall A n (f : list Z -> A) t o (x : bool), sized n f (find_attr t (attrs b)) = Some o -> match find_attr t (attrs b) with Some p => true | None => x end = match o with Some _ => true | None => x end).
    { intros A n f t o x H. destruct (find_attr t (attrs b)) as [p|]; [apply sized_some in H as [_ ->]; reflexivity|cbn in H; injection H as <-; reflexivity]. }
    rewrite (O _ _ _ _ _ _ S1), (O _ _ _ _ _ _ S6), (O _ _ _ _ _ _ S7), (O2 _ _ _ _ _ _ S3), (O2 _ _ _ _ _ _ S4).
    unfold some_or at 3 4. rewrite (O _ _ _ _ _ (d_pub d) S4), (O _ _ _ _ _ (d_priv d) S3). reflexivity.
Qed.

(** ** Messages in datagrams *)
Lemma len_firstn_le : forall (m : list Z) n, Z.of_nat n <= len m -> len (firstn n m) = Z.of_nat n.
Proof. intros m n H. unfold len in *. rewrite firstn_length. lia. Qed.

Lemma fld_msg : forall m a n, 0 <= a -> 0 <= n -> a + n <= len m -> fld a n m = le_val (firstn (Z.to_nat n) (skipn (Z.to_nat a) m)).
Proof. intros m a n H1 H2 H3. unfold fld, slice. do 2 f_equal. lia. Qed.

Lemma msgs_concat : forall ms rest, Forall message ms -> forall fuel, (length (concat ms) < fuel)%nat ->
  msgs fuel (len (concat ms)) (concat ms ++ rest) = ms /\ sane fuel (len (concat ms)) (concat ms ++ rest).
Proof.
  induction ms as [|m ms IH]; intros rest H fuel Hf.
  { destruct fuel as [|f]; [cbn in Hf; lia|]. cbn [concat msgs sane]. change (len []) with 0. cbn [Z.leb Z.compare]. split; [reflexivity|lia]. }
  inversion H as [|x y (Hb & Hl & H4 & Hv) Hms]; subst. destruct fuel as [|f]; [lia|]. cbn [concat] in *. rewrite app_length in Hf.
  rewrite len_app. pose proof (len_nonneg (concat ms)). change (2 ^ 30) with 1073741824 in Hl.
  assert (E4 : firstn 4 ((m ++ concat ms) ++ rest) = firstn 4 m).
  { rewrite <- app_assoc. rewrite firstn_app. replace (4 - length m)%nat with 0%nat by (unfold len in Hl; lia). cbn [firstn]. apply app_nil_r. }
  assert (Eu : Z.to_nat (up4 (len m)) = length m) by (rewrite up4_id by exact H4; unfold len; lia).
  cbn [msgs sane]. cbv zeta. rewrite E4, Hv, Eu, up4_id by exact H4. rewrite <- app_assoc. rewrite skipn_app_exact, firstn_app_exact.
  replace (len m + len (concat ms) - len m) with (len (concat ms)) by lia.
  destruct (IH rest Hms f ltac:(unfold len in *; lia)) as [I1 I2].
  destruct (Z.leb_spec 16 (len m + len (concat ms))); [|lia]. destruct (Z.leb_spec 16 (len m)); [|lia].
  destruct (Z.leb_spec (len m) (len m + len (concat ms))); [|lia]. cbn [andb]. rewrite I1. split; [reflexivity|].
  intros _. split; [change (2 ^ 31) with 2147483648; lia|]. intros _. exact I2.
Qed.

Lemma msg_fields : forall m, message m -> fld 4 2 m = msg_type m /\ fld 6 2 m = msg_flags m /\ fld 8 4 m = msg_seq m /\ fld 12 4 m = msg_port m /\ fld 0 4 m = len m.
Proof. intros m (Hb & Hl & H4 & Hv). rewrite !fld_msg by lia. repeat split; try reflexivity. exact Hv. Qed.

Definition g_device (msg : list Z) (s : st device) : Z * st device := fold_attrs f_device (attrs (skipn 20 msg)) CB_OK s.

Lemma answer_msg : forall A seq portid (g : option (list Z -> Z * A -> Z * (Z * A))) m ret st, answer seq portid m ->
  f_msg seq portid g m ret st =
  if 16 <=? msg_type m then
    match g with
    | Some h => let r := h m st in if fst r <=? CB_STOP then inl r else inr r
    | None => inr (ret, st)
    end
  else if (1 <=? msg_type m) && (msg_type m <=? 4) then let r := f_ctl m st in if fst r <=? CB_STOP then inl r else inr r
  else inr (ret, st).
Proof.
  intros A seq portid g m ret st (Hm & Hs & Hp & Hf). destruct (msg_fields m Hm) as (Et & Ef & Es & Ep & El). unfold f_msg. cbv zeta.
  rewrite Et, Ef, Es, Ep, Hf.
  replace (negb (msg_port m =? 0) && negb (portid =? 0) && negb (msg_port m =? portid)) with false.
  2: { symmetry. destruct Hp as [-> | ->]; [rewrite Z.eqb_refl; cbn [negb]; apply andb_false_r|reflexivity]. }
  replace (negb (msg_seq m =? 0) && negb (seq =? 0) && negb (msg_seq m =? seq)) with false; [reflexivity|].
  symmetry. destruct Hs as [-> | ->]; [rewrite Z.eqb_refl; cbn [negb]; apply andb_false_r|reflexivity].
Qed.

Lemma skipn_bytes : forall n m, Forall is_byte m -> Forall is_byte (skipn n m).
Proof. intros n m H. apply Forall_forall. intros x Hx. apply (proj1 (Forall_forall _ _) H). eapply in_skipn, Hx. Qed.

Lemma data_msg : forall seq portid m q ret e d, data_message seq portid m q ->
  f_msg seq portid (Some g_device) m ret (e, d) = inr (CB_OK, (e, add_dump q d)).
Proof.
  intros seq portid m q ret e d (Ha & Ht & Hl & Hd). rewrite answer_msg by exact Ha. destruct (Z.leb_spec 16 (msg_type m)); [|lia].
  cbv zeta. unfold g_device. destruct Ha as ((Hb & _) & _).
  destruct (dump_attrs (skipn 20 m) q e d (skipn_bytes 20 m Hb) Hd) as [_ ->]. reflexivity.
Qed.

Lemma done_msg : forall seq portid m ret (e : Z) (d : device), done_message seq portid m ->
  f_msg seq portid (Some g_device) m ret (e, d) = inl (CB_STOP, (0, d)).
Proof.
  intros seq portid m ret e d (Ha & Ht & Hf & Hl & Hv). rewrite answer_msg by exact Ha. rewrite Ht. cbn [Z.leb Z.compare Pos.compare Pos.compare_cont andb].
  destruct Ha as (Hm & _). destruct (msg_fields m Hm) as (Et & Ef & Es & Ep & El).
  unfold f_ctl. rewrite Et, Ef, El, Ht, Hf, Hl. cbn [Z.eqb Pos.eqb andb].
  assert (E16 : fld 16 4 m = 0).
  { rewrite fld_msg by lia. rewrite <- Hv. f_equal. apply firstn_all2. rewrite skipn_length. unfold len in Hl. change (Z.to_nat 16) with 16%nat. change (Z.to_nat 4) with 4%nat. lia. }
  rewrite E16. reflexivity.
Qed.

(** Attributes of the messages that are data: names terminated. *)
Definition okm (m : list Z) : Prop := Forall (fun a => name_terminated (fst a) (snd a)) (attrs (skipn 20 m)).

Lemma overwrite_len : forall buf d, len d <= len buf -> len (overwrite buf d) = len buf.
Proof. intros buf d H. unfold overwrite. rewrite len_app. unfold len in *. rewrite skipn_length. lia. Qed.

Lemma read_device_cb_slice : forall m nlh l s, Forall is_byte m -> len m < 2 ^ 30 -> 0 <= nlh -> rd_le m nlh 4 = Some l -> 16 <= l < 2 ^ 31 ->
  nlh + up4 l <= len m -> okm (slice m nlh (nlh + up4 l)) ->
  read_device_cb m nlh s = Some (g_device (slice m nlh (nlh + up4 l)) s).
Proof.
  intros m nlh l s Hb Hl Hn Hr H16 Hs Hok. unfold g_device, okm in *. pose proof (up4_range l).
  assert (E : skipn 20 (slice m nlh (nlh + up4 l)) = slice m (nlh + 20) (nlh + up4 l)).
  { change 20%nat with (Z.to_nat 20). apply skipn_slice; lia. }
  rewrite E in *. apply read_device_cb_f; assumption.
Qed.

(** A datagram, whatever was in the buffer. *)
Lemma recv_step : forall seq portid buf d rs st, Forall is_byte buf -> Forall is_byte d -> len buf < 2 ^ 30 -> (4 | len buf) -> 0 < len d <= len buf ->
  let m := overwrite buf d in
  sane (S (length m)) (len d) m -> Forall okm (msgs (S (length m)) (len d) m) ->
  recv_run seq portid (Some read_device_cb) buf (Dgram d :: rs) st =
  let '(r, st') := f_run seq portid (Some g_device) (msgs (S (length m)) (len d) m) CB_OK st in
  if r <=? 0 then Some (r, st', m, rs) else recv_run seq portid (Some read_device_cb) m rs st'.
Proof.
  intros seq portid buf d rs st Hb Hbd Hl H4 Hd m Hs Hok.
  assert (Er : recv_run seq portid (Some read_device_cb) buf (Dgram d :: rs) st =
    match cb_run m seq portid (Some (read_device_cb m)) (S (length m)) 0 (len d) CB_OK st with
    | None => None
    | Some (r, st') => if r <=? 0 then Some (r, st', m, rs) else recv_run seq portid (Some read_device_cb) m rs st'
    end).
  { cbn [recv_run]. fold m. destruct d as [|d0 d1]; [rewrite len_nil in Hd; lia|reflexivity]. }
  rewrite Er. clear Er. pose proof (len_nonneg buf).
  assert (Lm : len m = len buf) by (apply overwrite_len; lia).
  assert (Hm : Forall is_byte m).
  { unfold m, overwrite. apply Forall_app. split; [exact Hbd|apply skipn_bytes, Hb]. }
  rewrite (cb_run_f _ m seq portid (Some (read_device_cb m)) (Some g_device) okm Hm); [| | |lia|lia|lia| | | |].
  - cbn [Z.to_nat skipn]. destruct (f_run seq portid (Some g_device) (msgs (S (length m)) (len d) m) CB_OK st) as [r st']. reflexivity.
  - rewrite Lm. exact Hl.
  - intros. apply read_device_cb_slice; try assumption. rewrite Lm. exact Hl.
  - rewrite Z.add_0_l, Lm. rewrite <- (up4_id (len buf) H4). apply up4_le. lia.
  - unfold len in *. lia.
  - cbn [Z.to_nat skipn]. exact Hs.
  - cbn [Z.to_nat skipn]. exact Hok.
Qed.

Fixpoint add_dumps (qs : list dump) (d : device) : device :=
  match qs with [] => d | q :: qs' => add_dumps qs' (add_dump q d) end.
Lemma add_dumps_app : forall a b d, add_dumps (a ++ b) d = add_dumps b (add_dumps a d).
Proof. induction a as [|q a IH]; intros b d; [reflexivity|]. cbn [app add_dumps]. apply IH. Qed.

Lemma data_okm : forall seq portid m q, data_message seq portid m q -> okm m.
Proof.
  intros seq portid m q ((( Hb & _) & _) & _ & _ & Hd). unfold okm.
  destruct (dump_attrs (skipn 20 m) q 0 device0 (skipn_bytes 20 m Hb) Hd) as [H _]. exact H.
Qed.
Lemma done_okm : forall seq portid m, done_message seq portid m -> okm m.
Proof.
  intros seq portid m (_ & _ & _ & Hl & _). unfold okm. rewrite skipn_all2 by (unfold len in Hl; lia). constructor.
Qed.

Lemma f_run_data : forall seq portid ms qs rest ret e d, Forall2 (data_message seq portid) ms qs ->
  exists ret', f_run seq portid (Some g_device) (ms ++ rest) ret (e, d) = f_run seq portid (Some g_device) rest ret' (e, add_dumps qs d)
    /\ (ret' = ret \/ ret' = CB_OK).
Proof.
  intros seq portid ms qs rest ret e d H. revert ret d. induction H as [|m q ms qs Hm Hms IH]; intros ret d.
  - exists ret. split; [reflexivity|left; reflexivity].
  - cbn [app f_run]. rewrite (data_msg seq portid m q ret e d Hm). cbn [fst snd add_dumps].
    destruct (IH CB_OK (add_dump q d)) as (r & E & Hr). exists r. split; [exact E|]. right. destruct Hr; assumption.
Qed.

(** All datagrams: groups of messages, up to one that ends the run. *)
Lemma recv_stop : forall seq portid r e2 gs ms qs dn more, Forall2 (data_message seq portid) ms qs -> message dn -> okm dn -> r <= 0 ->
  (forall ret e d, f_msg seq portid (Some g_device) dn ret (e, d) = inl (r, (e2, d))) ->
  Forall message more -> Forall okm more ->
  concat gs = ms ++ dn :: more -> Forall (fun g => g <> []) gs ->
  forall buf d, Forall is_byte buf -> len buf < 2 ^ 30 -> (4 | len buf) -> Forall (fun g => len (concat g) <= len buf) gs ->
  exists buf' rs', recv_run seq portid (Some read_device_cb) buf (map (fun g => Dgram (concat g)) gs) (0, d) = Some (r, (e2, add_dumps qs d), buf', rs').
Proof.
  intros seq portid r e2. induction gs as [|g gs IH]; intros ms qs dn more Hd Hdm Hdo Hr0 Hdn Hmm Hmo Ec Hne buf d Hb Hl H4 Hfit.
  { destruct ms; discriminate. }
  inversion Hne as [|x y Hg Hgs]; subst. inversion Hfit as [|x y Hf1 Hf2]; subst. cbn [concat map] in *.
  assert (Hmsg : Forall message (ms ++ dn :: more)).
  { apply Forall_app. split.
    - clear - Hd. induction Hd as [|m q ms qs Hm Hms IHd]; constructor; [|exact IHd]. apply Hm.
    - constructor; [exact Hdm|exact Hmm]. }
  rewrite <- Ec in Hmsg. apply Forall_app in Hmsg as [Hmg Hmgs].
  assert (Hgb : Forall is_byte (concat g)).
  { clear - Hmg. induction Hmg as [|m g Hm Hg IHg]; [constructor|]. cbn [concat]. apply Forall_app. split; [apply Hm|exact IHg]. }
  assert (Hgp : 0 < len (concat g)).
  { destruct g as [|m g]; [congruence|]. inversion Hmg as [|x y (_ & Hlm & _) _]; subst. cbn [concat]. rewrite len_app. pose proof (len_nonneg (concat g)). lia. }
  set (M := overwrite buf (concat g)).
  assert (LM : len M = len buf) by (apply overwrite_len; lia).
  destruct (msgs_concat g (skipn (length (concat g)) buf) Hmg (S (length M))) as [Em Es].
  { unfold len in *. lia. }
  assert (EM : M = concat g ++ skipn (length (concat g)) buf) by reflexivity.
  rewrite <- EM in *.
  (* split g *)
  assert (Hsplit : (exists ms1 ms2 qs1 qs2, g = ms1 /\ ms = ms1 ++ ms2 /\ qs = qs1 ++ qs2 /\ Forall2 (data_message seq portid) ms1 qs1 /\ Forall2 (data_message seq portid) ms2 qs2 /\ concat gs = ms2 ++ dn :: more)
     \/ (exists x, g = ms ++ dn :: x)).
  { clear - Ec Hd. revert qs g Ec Hd. induction ms as [|m ms IHm]; intros qs g Ec Hd.
    - cbn [app] in Ec. destruct g as [|x g]; [left; exists [], [], [], qs; cbn in Ec; repeat split; try assumption; constructor|].
      cbn [app] in Ec. injection Ec as -> Ec. right. exists g. reflexivity.
    - destruct g as [|x g].
      + left. exists [], (m :: ms), [], qs. cbn [app] in *. repeat split; try assumption; constructor.
      + cbn [app] in Ec. injection Ec as -> Ec. inversion Hd as [|x q y qs' Hm Hms]; subst.
        destruct (IHm qs' g Ec Hms) as [(a & b & c & e & E1 & E2 & E3 & E4 & E5 & E6)|(x & E1)].
        * left. exists (m :: a), b, (q :: c), e. subst. repeat split; try assumption. constructor; assumption.
        * right. exists x. subst. reflexivity. }
  assert (Hok : Forall okm g).
  { assert (Forall okm (ms ++ dn :: more)).
    { apply Forall_app. split.
      - clear - Hd. induction Hd as [|m q ms qs Hm Hms IHd]; constructor; [|exact IHd]. eapply data_okm, Hm.
      - constructor; assumption. }
    rewrite <- Ec in H. apply Forall_app in H as [H _]. exact H. }
  rewrite recv_step; try assumption; try lia; cycle 1.
  { fold M. rewrite Em. exact Hok. }
  fold M. rewrite Em.
  destruct Hsplit as [(ms1 & ms2 & qs1 & qs2 & -> & -> & -> & D1 & D2 & Ec2)|(x & ->)].
  - destruct (f_run_data seq portid ms1 qs1 [] CB_OK 0 d D1) as (rr & E & Hr). rewrite app_nil_r in E. rewrite E. cbn [f_run].
    assert (rr = CB_OK) by (destruct Hr; assumption). subst rr. unfold CB_OK at 1. cbn [Z.leb Z.compare].
    rewrite add_dumps_app. apply (IH ms2 qs2 dn more D2 Hdm Hdo Hr0 Hdn Hmm Hmo Ec2 Hgs).
    + unfold M, overwrite. apply Forall_app. split; [exact Hgb|apply skipn_bytes, Hb].
    + lia.
    + rewrite LM. exact H4.
    + rewrite LM. exact Hf2.
  - destruct (f_run_data seq portid ms qs (dn :: x) CB_OK 0 d Hd) as (rr & E & Hr). rewrite E. cbn [f_run].
    rewrite Hdn. destruct (Z.leb_spec r 0); [|lia]. eauto.
Qed.

Lemma recv_dump : forall seq portid gs ms qs dn, Forall2 (data_message seq portid) ms qs -> done_message seq portid dn ->
  concat gs = ms ++ [dn] -> Forall (fun g => g <> []) gs ->
  forall buf d, Forall is_byte buf -> len buf < 2 ^ 30 -> (4 | len buf) -> Forall (fun g => len (concat g) <= len buf) gs ->
  exists buf' rs', recv_run seq portid (Some read_device_cb) buf (map (fun g => Dgram (concat g)) gs) (0, d) = Some (CB_STOP, (0, add_dumps qs d), buf', rs').
Proof.
  intros seq portid gs ms qs dn Hd Hdn Ec Hne. apply (recv_stop seq portid CB_STOP 0 gs ms qs dn [] Hd); try assumption; try apply Forall_nil.
  - apply Hdn.
  - eapply done_okm, Hdn.
  - discriminate.
  - intros. apply done_msg. exact Hdn.
Qed.
