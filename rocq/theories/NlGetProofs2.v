(** The parsers on well-formed attributes: what a message of a dump adds to the device (C22). *)
From Coq Require Import ZArith List Bool Lia.
From Verif Require Import Base Types Encoding EncodingSpec HexProofs NlSpec NlGetSpec Nl NlSet NlGet NlProofs NlSetProofs4 NlGetProofs.
Import ListNotations.
Open Scope Z_scope.

Lemma find_attr_in : forall t l p, find_attr t l = Some p -> In (t, p) l.
Proof.
  induction l as [|[t' p'] l IH]; intros p H; [discriminate|]. cbn [find_attr] in H.
  destruct (find_attr t l) as [q|] eqn:E; [right; apply IH; exact H|].
  destruct (Z.eqb_spec t' t) as [->|]; [|discriminate]. injection H as <-. left. reflexivity.
Qed.
Lemma find_attr_notin : forall t l, ~ In t (map fst l) -> find_attr t l = None.
Proof.
  intros t l H. destruct (find_attr t l) as [p|] eqn:E; [|reflexivity]. exfalso. apply H. apply find_attr_in in E.
  apply (in_map fst) in E. exact E.
Qed.
Lemma find_attr_once : forall t p l, once l -> In (t, p) l -> find_attr t l = Some p.
Proof.
  unfold once. induction l as [|[t' p'] l IH]; intros Hn Hin; [contradiction|]. cbn [map fst] in Hn. inversion Hn as [|x y Hx Hy]; subst.
  cbn [find_attr]. destruct Hin as [E|Hin].
  - injection E as -> ->. rewrite find_attr_notin by exact Hx. rewrite Z.eqb_refl. reflexivity.
  - rewrite (IH Hy Hin). reflexivity.
Qed.

(** ** Allowed IPs *)
Definition good_aip_attr (x : Z * list Z) : Prop :=
  let (t, p) := x in (t = 1 -> len p = 2) /\ (t = 2 -> len p = 4 \/ len p = 16) /\ (t = 3 -> len p = 1).

Lemma fold_aip : forall l e r, once l -> Forall good_aip_attr l -> len (ra_ip r) = 16 ->
  fold_attrs f_allowedip l CB_OK (e, r) =
    (CB_OK, (e, mk_raw (match find_attr 1 l with Some p => le_val p | None => ra_family r end)
                       (match find_attr 2 l with Some p => p ++ skipn (length p) (ra_ip r) | None => ra_ip r end)
                       (match find_attr 3 l with Some p => le_val p | None => ra_cidr r end))).
Proof.
  induction l as [|[t p] l IH]; intros e [f i c] Ho Hg Hl; [reflexivity|].
  inversion Ho as [|x y Hx Hy]; subst. inversion Hg as [|x y G Hg']; subst. destruct G as (G1 & G2 & G3). cbn [ra_ip] in Hl.
  cbn [fold_attrs f_allowedip find_attr ra_family ra_ip ra_cidr]. cbv zeta.
  destruct (Z.eqb_spec t 1) as [->|N1].
  { rewrite (find_attr_notin 1 l Hx). rewrite (G1 eq_refl). cbn [Z.eqb Pos.eqb okr]. unfold okr, CB_OK, CB_STOP. cbn [Z.leb Z.compare].
    rewrite (IH e _ Hy Hg') by exact Hl. cbn [ra_family ra_ip ra_cidr]. rewrite (find_attr_notin 1 l Hx).
    destruct (find_attr 2 l), (find_attr 3 l); reflexivity. }
  destruct (Z.eqb_spec t 2) as [->|N2].
  { rewrite (find_attr_notin 2 l Hx). destruct (G2 eq_refl) as [E|E]; rewrite E; cbn [Z.eqb Pos.eqb]; unfold okr, CB_OK, CB_STOP; cbn [Z.leb Z.compare].
    - rewrite (IH e _ Hy Hg') by (cbn [ra_ip]; rewrite len_app; unfold len in *; rewrite skipn_length; lia). cbn [ra_family ra_ip ra_cidr].
      rewrite (find_attr_notin 2 l Hx). replace (length p) with 4%nat by (unfold len in E; lia).
      destruct (find_attr 1 l), (find_attr 3 l); reflexivity.
    - rewrite (IH e _ Hy Hg') by exact E. cbn [ra_family ra_ip ra_cidr].
      rewrite (find_attr_notin 2 l Hx). replace (length p) with 16%nat by (unfold len in E; lia).
      rewrite (skipn_all2 i) by (unfold len in Hl; lia). rewrite app_nil_r.
      destruct (find_attr 1 l), (find_attr 3 l); reflexivity. }
  destruct (Z.eqb_spec t 3) as [->|N3].
  { rewrite (find_attr_notin 3 l Hx). rewrite (G3 eq_refl). cbn [Z.eqb Pos.eqb]. unfold okr, CB_OK, CB_STOP. cbn [Z.leb Z.compare].
    rewrite (IH e _ Hy Hg') by exact Hl. cbn [ra_family ra_ip ra_cidr]. rewrite (find_attr_notin 3 l Hx).
    destruct (find_attr 1 l), (find_attr 2 l); reflexivity. }
  unfold okr, CB_OK, CB_STOP. cbn [Z.leb Z.compare]. rewrite (IH e _ Hy Hg') by exact Hl. cbn [ra_family ra_ip ra_cidr].
  destruct (find_attr 1 l), (find_attr 2 l), (find_attr 3 l); reflexivity.
Qed.

Lemma aip_section : forall b a e t q, read_aip_once b a -> f_allowedips t b (e, q) = okr e (set_aips (p_aips q ++ [a]) q).
Proof.
  intros b a e t q [Ho Hr]. unfold read_aip in Hr. cbv zeta in Hr.
  destruct (find_attr 1 (attrs b)) as [f|] eqn:E1; [|discriminate]. destruct (find_attr 2 (attrs b)) as [ip|] eqn:E2; [|discriminate].
  destruct (find_attr 3 (attrs b)) as [c|] eqn:E3; [|discriminate].
  destruct ((len f =? 2) && (len c =? 1)) eqn:El; [|discriminate]. apply andb_true_iff in El as [L1 L3]. apply Z.eqb_eq in L1, L3.
  destruct (((le_val f =? AF_INET) && (len ip =? 4) && (le_val c <=? 32)) || ((le_val f =? AF_INET6) && (len ip =? 16) && (le_val c <=? 128))) eqn:Ev; [|discriminate].
  injection Hr as <-.
  assert (Hg : Forall good_aip_attr (attrs b)).
  { apply Forall_forall. intros [t' p'] Hin. pose proof (find_attr_once _ _ _ Ho Hin) as F. repeat split; intros ->; rewrite F in *.
    - congruence.
    - assert (p' = ip) by congruence. subst p'. apply orb_true_iff in Ev as [Ev|Ev]; apply andb_true_iff in Ev as [Ev _]; apply andb_true_iff in Ev as [_ Ev]; apply Z.eqb_eq in Ev; auto.
    - congruence. }
  unfold f_allowedips. rewrite fold_aip; [|exact Ho|exact Hg|reflexivity]. rewrite E1, E2, E3. cbn [ra_family ra_ip ra_cidr raw0].
  unfold CB_OK. cbn [Z.eqb]. unfold aip_of. cbn [ra_family ra_ip ra_cidr].
  apply orb_true_iff in Ev as [Ev|Ev]; apply andb_true_iff in Ev as [Ev Ec]; apply andb_true_iff in Ev as [Ef Ei];
    apply Z.eqb_eq in Ef, Ei; rewrite Ef, Ec; cbn [andb orb Z.eqb Pos.eqb AF_INET AF_INET6]; unfold okr; unfold CB_OK.
  - do 4 f_equal. f_equal. replace 4%nat with (length ip) by (unfold len in Ei; lia). rewrite firstn_app_exact. reflexivity.
  - do 4 f_equal. f_equal. replace (length ip) with 16%nat by (unfold len in Ei; lia). cbn [repeat skipn]. rewrite app_nil_r; reflexivity.
Qed.

Lemma fold_aips : forall l aips e q, items (fun a x => read_aip_once (snd a) x) l aips ->
  fold_attrs f_allowedips l CB_OK (e, q) = (CB_OK, (e, set_aips (p_aips q ++ aips) q)).
Proof.
  intros l aips e q H. revert q. induction H as [|[t b] a l aips Ha Hl IH]; intro q.
  - cbn [fold_attrs]. rewrite app_nil_r. destruct q; reflexivity.
  - cbn [fold_attrs]. rewrite (aip_section b a e t q Ha). unfold okr, CB_OK, CB_STOP. cbn [Z.leb Z.compare].
    fold CB_OK. rewrite IH. unfold set_aips. cbn [p_aips p_remove p_replace_aips p_has_pub p_has_psk p_has_ka p_pub p_psk p_endpoint p_hs_sec p_hs_nsec p_rx p_tx p_ka].
    rewrite <- app_assoc. reflexivity.
Qed.

(** ** Peers *)
Definition some_or {A} (o : option A) (x : A) : A := match o with Some y => y | None => x end.

(** What one attribute list of a peer says, as updates of a peer. *)
Definition good_peer_attr (x : Z * list Z) : Prop :=
  let (t, p) := x in
  (t = 1 -> len p = 32) /\ (t = 2 -> len p = 32) /\ (t = 4 -> exists e, read_endpoint p = Some e) /\ (t = 5 -> len p = 2)
  /\ (t = 6 -> len p = 16) /\ (t = 7 -> len p = 8) /\ (t = 8 -> len p = 8)
  /\ (t = 9 -> exists aips, items (fun a x => read_aip_once (snd a) x) (attrs p) aips).

Definition the_aips (o : option (list Z)) (aips : list allowedip) : Prop :=
  items (fun a x => read_aip_once (snd a) x) (match o with None => [] | Some p => attrs p end) aips.

Definition upd_peer (l : list (Z * list Z)) (aips : list allowedip) (q : peer) : peer :=
  mk_peer (p_remove q) (p_replace_aips q)
    (match find_attr 1 l with Some _ => true | None => p_has_pub q end)
    (match find_attr 2 l with Some k => negb (key_is_zero k) || p_has_psk q | None => p_has_psk q end)
    (p_has_ka q)
    (some_or (find_attr 1 l) (p_pub q))
    (some_or (find_attr 2 l) (p_psk q))
    (match find_attr 4 l with Some e => some_or (read_endpoint e) EpNone | None => p_endpoint q end)
    (match find_attr 6 l with Some p => s64 (le_val (firstn 8 p)) | None => p_hs_sec q end)
    (match find_attr 6 l with Some p => s64 (le_val (skipn 8 p)) | None => p_hs_nsec q end)
    (match find_attr 7 l with Some p => le_val p | None => p_rx q end)
    (match find_attr 8 l with Some p => le_val p | None => p_tx q end)
    (match find_attr 5 l with Some p => le_val p | None => p_ka q end)
    (p_aips q ++ aips).

Lemma upd_peer_nil : forall q, upd_peer [] [] q = q.
Proof. intros []. unfold upd_peer. cbn. rewrite app_nil_r. reflexivity. Qed.

Lemma ep_reads : forall p e, read_endpoint p = Some e ->
  (len p <? 16) = false /\
  (if (le_val (firstn 2 p) =? AF_INET) && (len p =? 16) then e = ep4_of p
   else ((le_val (firstn 2 p) =? AF_INET6) && (len p =? 28)) = true /\ e = ep6_of p).
Proof.
  intros p e H. unfold read_endpoint in H. destruct p as [|f0 [|f1 [|p0 [|p1 rest]]]]; try discriminate.
  cbv zeta in H. cbn [firstn le_val]. replace (f0 + 256 * (f1 + 256 * 0)) with (f0 + 256 * f1) by lia.
  set (P := f0 :: f1 :: p0 :: p1 :: rest) in *.
  destruct ((f0 + 256 * f1 =? AF_INET) && (len P =? 16)) eqn:E4.
  - injection H as <-. apply andb_true_iff in E4 as [_ E4]. apply Z.eqb_eq in E4. rewrite E4. split; reflexivity.
  - destruct ((f0 + 256 * f1 =? AF_INET6) && (len P =? 28)) eqn:E6; [|discriminate]. injection H as <-.
    apply andb_true_iff in E6 as [_ E6]. apply Z.eqb_eq in E6. rewrite E6. split; [reflexivity|]. split; [reflexivity|].
    unfold ep6_of, P. cbn [nth].
    change (skipn 24 (f0 :: f1 :: p0 :: p1 :: rest)) with (skipn 20 rest). change (skipn 8 (f0 :: f1 :: p0 :: p1 :: rest)) with (skipn 4 rest).
    change (skipn 4 (f0 :: f1 :: p0 :: p1 :: rest)) with rest.
    rewrite (firstn_all2 (skipn 20 rest)) by (rewrite skipn_length; unfold P, len in E6; cbn [length] in E6; lia). reflexivity.
Qed.

Ltac peer_proj := cbn [p_remove p_replace_aips p_has_pub p_has_psk p_has_ka p_pub p_psk p_endpoint p_hs_sec p_hs_nsec p_rx p_tx p_ka p_aips some_or].

Lemma fold_peer : forall l e q aips, once l -> Forall good_peer_attr l -> the_aips (find_attr 9 l) aips ->
  fold_attrs f_peer l CB_OK (e, q) = (CB_OK, (e, upd_peer l aips q)).
Proof.
  induction l as [|[t p] l IH]; intros e q aips Ho Hg Ha.
  { inversion Ha; subst. cbn [fold_attrs]. rewrite upd_peer_nil. reflexivity. }
  inversion Ho as [|x y Hx Hy]; subst. inversion Hg as [|x y G Hg']; subst. destruct G as (G1 & G2 & G4 & G5 & G6 & G7 & G8 & G9).
  cbn [fold_attrs]. unfold f_peer at 1. cbv zeta.
  assert (K : forall q', fold_attrs f_peer l CB_OK (e, q') = (CB_OK, (e, upd_peer l aips q')) \/ t = 9).
  { intro q'. destruct (Z.eq_dec t 9) as [->|N9]; [right; reflexivity|]. left. apply IH; [exact Hy|exact Hg'|].
    cbn [find_attr] in Ha. destruct (find_attr 9 l) eqn:F; [exact Ha|]. destruct (Z.eqb_spec t 9); [contradiction|exact Ha]. }
  Ltac fin Hx := unfold okr, CB_OK, CB_STOP; cbn [Z.leb Z.compare]; fold CB_OK;
    match goal with K : forall q', _ |- fold_attrs f_peer _ _ (_, ?q') = _ => destruct (K q') as [->|]; [|lia] end;
    do 2 f_equal; unfold upd_peer; peer_proj; cbn [find_attr]; rewrite ?(find_attr_notin _ _ Hx); cbn [Z.eqb Pos.eqb];
    repeat match goal with |- context [match find_attr ?k ?l with _ => _ end] => destruct (find_attr k l) end; reflexivity.
  destruct (Z.eqb_spec t 1) as [->|N1]; [rewrite (G1 eq_refl); cbn [Z.eqb Pos.eqb]; fin Hx|].
  destruct (Z.eqb_spec t 2) as [->|N2]; [rewrite (G2 eq_refl); cbn [Z.eqb Pos.eqb]; fin Hx|].
  destruct (Z.eqb_spec t 4) as [->|N4].
  { destruct (G4 eq_refl) as [ep Ep]. destruct (ep_reads p ep Ep) as [-> Hcase].
    assert (Er : some_or (read_endpoint p) EpNone = ep) by (rewrite Ep; reflexivity).
    destruct ((le_val (firstn 2 p) =? AF_INET) && (len p =? 16)); [|destruct Hcase as [-> Hcase]]; rewrite <- Hcase;
      unfold okr, CB_OK, CB_STOP; cbn [Z.leb Z.compare]; fold CB_OK;
      (match goal with |- fold_attrs f_peer _ _ (_, ?q') = _ => destruct (K q') as [->|]; [|lia] end);
      do 2 f_equal; unfold upd_peer; peer_proj; cbn [find_attr]; rewrite ?(find_attr_notin _ _ Hx); cbn [Z.eqb Pos.eqb]; rewrite ?Ep;
      repeat match goal with |- context [match find_attr ?k ?l with _ => _ end] => destruct (find_attr k l) end; reflexivity. }
  destruct (Z.eqb_spec t 5) as [->|N5]; [rewrite (G5 eq_refl); cbn [Z.eqb Pos.eqb]; fin Hx|].
  destruct (Z.eqb_spec t 6) as [->|N6]; [rewrite (G6 eq_refl); cbn [Z.eqb Pos.eqb]; fin Hx|].
  destruct (Z.eqb_spec t 7) as [->|N7]; [rewrite (G7 eq_refl); cbn [Z.eqb Pos.eqb]; fin Hx|].
  destruct (Z.eqb_spec t 8) as [->|N8]; [rewrite (G8 eq_refl); cbn [Z.eqb Pos.eqb]; fin Hx|].
  destruct (Z.eqb_spec t 9) as [->|N9].
  { assert (F9 : find_attr 9 l = None) by (apply find_attr_notin; exact Hx).
    cbn [find_attr] in Ha. rewrite F9 in Ha. cbn [Z.eqb Pos.eqb] in Ha.
    rewrite (fold_aips (attrs p) aips e q Ha). unfold CB_OK, CB_STOP. cbn [Z.leb Z.compare]. fold CB_OK.
    rewrite (IH e _ [] Hy Hg') by (rewrite F9; constructor). do 2 f_equal.
    unfold upd_peer, set_aips. peer_proj. cbn [find_attr]. cbn [Z.eqb Pos.eqb]. rewrite app_nil_r.
    repeat match goal with |- context [match find_attr ?k ?l with _ => _ end] => destruct (find_attr k l) end; reflexivity. }
  unfold okr, CB_OK, CB_STOP; cbn [Z.leb Z.compare]; fold CB_OK. destruct (K q) as [->|]; [|lia]. do 2 f_equal.
  unfold upd_peer. cbn [find_attr].
  destruct (Z.eqb_spec t 1); [lia|]. destruct (Z.eqb_spec t 2); [lia|]. destruct (Z.eqb_spec t 4); [lia|]. destruct (Z.eqb_spec t 5); [lia|].
  destruct (Z.eqb_spec t 6); [lia|]. destruct (Z.eqb_spec t 7); [lia|]. destruct (Z.eqb_spec t 8); [lia|].
  repeat match goal with |- context [match find_attr ?k ?l with _ => _ end] => destruct (find_attr k l) end; reflexivity.
Qed.

(** The peer made from a section. *)
Definition got (s : section) : peer :=
  mk_peer false false true (match sc_psk s with Some k => negb (key_is_zero k) | None => false end) false
    (sc_pub s) (some_or (sc_psk s) zero_key) (some_or (sc_ep s) EpNone)
    (fst (some_or (sc_hs s) (0, 0))) (snd (some_or (sc_hs s) (0, 0)))
    (some_or (sc_rx s) 0) (some_or (sc_tx s) 0) (some_or (sc_ka s) 0) (sc_aips s).

Lemma sized_some : forall A n (f : list Z -> A) p o, sized n f (Some p) = Some o -> len p = n /\ o = Some (f p).
Proof. intros A n f p o H. cbn in H. destruct (Z.eqb_spec (len p) n); [|discriminate]. injection H as <-. auto. Qed.

Lemma s64_signed : forall p, Forall is_byte p -> len p <= 8 -> s64 (le_val p) = signed64 (le_val p).
Proof.
  intros p Hb Hl. pose proof (le_val_bound p Hb) as B. assert (256 ^ len p <= 2 ^ 64).
  { change (2 ^ 64) with (256 ^ 8). apply Z.pow_le_mono_r; lia. }
  unfold s64, signed64. rewrite Z.mod_small by lia. destruct (Z.leb_spec (2 ^ 63) (le_val p)), (Z.ltb_spec (le_val p) (2 ^ 63)); lia.
Qed.

Lemma stream_bytes : forall f b t p, Forall is_byte b -> In (t, p) (stream f b) -> Forall is_byte p.
Proof.
  induction f as [|f IH]; intros b t p Hb Hin; [contradiction|]. cbn [stream] in Hin.
  destruct b as [|l0 [|l1 [|t0 [|t1 rest]]]]; try contradiction.
  destruct ((4 <=? l0 + 256 * l1) && (l0 + 256 * l1 <=? len (l0 :: l1 :: t0 :: t1 :: rest))); [|contradiction].
  assert (Hr : Forall is_byte rest) by (do 4 (inversion Hb as [|? ? _ Hb']; subst; clear Hb; rename Hb' into Hb); exact Hb).
  destruct Hin as [E|Hin].
  - injection E as _ <-. apply Forall_forall. intros x Hx. apply (proj1 (Forall_forall _ _) Hr), in_firstn with (1 := Hx).
  - apply (IH _ t p) in Hin; [exact Hin|]. apply Forall_forall. intros x Hx. apply (proj1 (Forall_forall _ _) Hb).
    eapply in_skipn, Hx.
Qed.
Lemma attrs_bytes : forall b t p, Forall is_byte b -> In (t, p) (attrs b) -> Forall is_byte p.
Proof. intros. eapply stream_bytes; eassumption. Qed.

Lemma peer_section : forall b s e t d, Forall is_byte b -> is_section b s -> f_peers t b (e, d) = okr e (set_peers (d_peers d ++ [got s]) d).
Proof.
  intros b s e t d Hb (Ho & F1 & L1 & S2 & S4 & S6 & S7 & S8 & S5 & S9).
  assert (Hg : Forall good_peer_attr (attrs b)).
  { apply Forall_forall. intros [t' p'] Hin. pose proof (find_attr_once _ _ _ Ho Hin) as F. unfold good_peer_attr.
    repeat split; intros ->; rewrite F in *.
    - congruence.
    - apply sized_some in S2 as [? _]. assumption.
    - destruct (sc_ep s); [eauto|contradiction].
    - apply sized_some in S5 as [? _]. assumption.
    - apply sized_some in S6 as [? _]. assumption.
    - apply sized_some in S7 as [? _]. assumption.
    - apply sized_some in S8 as [? _]. assumption.
    - exists (sc_aips s). exact S9. }
  unfold f_peers. rewrite (fold_peer (attrs b) e peer0 (sc_aips s) Ho Hg S9).
  assert (Eg : upd_peer (attrs b) (sc_aips s) peer0 = got s).
  { unfold upd_peer, got, peer0. peer_proj. rewrite F1. cbn [some_or app].
    assert (B6 : forall p, find_attr 6 (attrs b) = Some p -> Forall is_byte p) by (intros p Hp; apply (attrs_bytes b 6); [exact Hb|apply find_attr_in, Hp]).
    destruct (find_attr 2 (attrs b)) as [k2|]; [apply sized_some in S2 as [L2 ->]|cbn in S2; injection S2 as <-];
    destruct (find_attr 5 (attrs b)) as [k5|]; [apply sized_some in S5 as [L5 ->]|cbn in S5; injection S5 as <-| |];
    try (apply sized_some in S5 as [L5 ->]); try (cbn in S5; injection S5 as <-);
    (destruct (find_attr 7 (attrs b)) as [k7|]; [apply sized_some in S7 as [L7 ->]|cbn in S7; injection S7 as <-]);
    (destruct (find_attr 8 (attrs b)) as [k8|]; [apply sized_some in S8 as [L8 ->]|cbn in S8; injection S8 as <-]);
    (destruct (find_attr 4 (attrs b)) as [k4|], (sc_ep s) as [ep|]; try contradiction; [rewrite S4|]);
    (destruct (find_attr 6 (attrs b)) as [k6|]; [apply sized_some in S6 as [L6 ->]|cbn in S6; injection S6 as <-]); cbn [some_or fst snd];
    rewrite ?orb_false_r; try reflexivity;
    (rewrite !s64_signed; [reflexivity|..]); try (apply Forall_forall; intros x Hx; apply (proj1 (Forall_forall _ _) (B6 _ eq_refl));
       first [eapply in_firstn, Hx|eapply in_skipn, Hx]); unfold len in *; rewrite ?firstn_length, ?skipn_length; lia. }
  rewrite Eg. unfold CB_OK. cbn [Z.eqb]. cbn [got p_has_pub negb]. reflexivity.
Qed.

Lemma fold_peers : forall l secs e d, Forall (fun x => Forall is_byte (snd x)) l -> items (fun a x => is_section (snd a) x) l secs ->
  fold_attrs f_peers l CB_OK (e, d) = (CB_OK, (e, set_peers (d_peers d ++ map got secs) d)).
Proof.
  intros l secs e d Hb H. revert d. induction H as [|[t b] s l secs Hs Hl IH]; intro d.
  - cbn [fold_attrs map]. rewrite app_nil_r. destruct d; reflexivity.
  - inversion Hb as [|x y Hb1 Hb2]; subst. cbn [fold_attrs]. rewrite (peer_section b s e t d Hb1 Hs). unfold okr, CB_OK, CB_STOP. cbn [Z.leb Z.compare].
    fold CB_OK. rewrite (IH Hb2). unfold set_peers. cbn [d_peers d_name d_ifindex d_replace_peers d_has_priv d_has_pub d_has_port d_has_fwmark d_pub d_priv d_fwmark d_port map].
    rewrite <- app_assoc. reflexivity.
Qed.
