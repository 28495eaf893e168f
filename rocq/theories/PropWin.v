(** C57: the Windows kernel driver. *)
From Coq Require Import String ZArith List Bool Lia.
From Verif Require Import Base Types Config Encoding NlSpec KernelSpec NlProofs NlSet NlSetProofs Fields ObsdSpec Ipc Obsd ObsdProofs ObsdProofs2 WinSpec Win WinProofs WinProofs2 PropNetlink PropObsd.
Import ListNotations.
Open Scope Z_scope.

(** ** A block has one meaning *)
Lemma waip_unique : forall x x' m m' R R', waip_bytes x m -> waip_bytes x' m' -> m ++ R = m' ++ R' -> x = x' /\ R = R'.
Proof.
  intros [a f c] [a' f' c'] m m' R R' ((L & _) & W1 & W2 & pad & (Lp & _) & ->) ((L' & _) & W1' & W2' & pad' & (Lp' & _) & ->) E.
  cbn [wa_af wa_cidr wa_addr] in *. field_of E E1 E2. field_of E2 E3 E4. apply le_inj in E3; [|exact W1|exact W1']. field_of E4 E5 E6. assert (c = c') by congruence.
  field_of E6 E7 E8. cbn [app] in E8. split; [congruence|exact E8].
Qed.
Lemma waips_unique : forall xs ms, Forall2 waip_bytes xs ms -> forall xs' ms' R R', Forall2 waip_bytes xs' ms' -> length ms = length ms' -> concat ms ++ R = concat ms' ++ R' -> xs = xs' /\ R = R'.
Proof.
  induction 1 as [|x m xs ms Hx Hs IH]; intros xs' ms' R R' H' L E.
  - destruct H'; [|discriminate]. split; [reflexivity|exact E].
  - destruct H' as [|x' m' xs' ms' Hx' Hs']; [discriminate|]. cbn [concat] in E. rewrite <- !app_assoc in E. destruct (waip_unique _ _ _ _ _ _ Hx Hx' E) as [<- E'].
    destruct (IH xs' ms' R R' Hs') as [<- <-]; [cbn in L; lia|exact E'|split; reflexivity].
Qed.
Lemma wpeer_unique : forall x x' m m' R R', wpeer_bytes x m -> wpeer_bytes x' m' -> m ++ R = m' ++ R' -> x = x' /\ R = R'.
Proof.
  intros [f v p k ka sa tx rx s ai] [f' v' p' k' ka' sa' tx' rx' s' ai'] m m' R R'
    (W1 & W2 & (L1 & _) & (L2 & _) & W3 & (L3 & _) & W4 & W5 & W6 & pad & pad2 & ams & (L4 & _) & (L5 & _) & Ha & W8 & ->)
    (W1' & W2' & (L1' & _) & (L2' & _) & W3' & (L3' & _) & W4' & W5' & W6' & pad' & pad2' & ams' & (L4' & _) & (L5' & _) & Ha' & W8' & ->) E.
  cbn [wp_flags wp_version wp_pub wp_psk wp_ka wp_sa wp_tx wp_rx wp_time wp_aips] in *.
  field_of E E1 X1. apply le_inj in E1; [|exact W1|exact W1']. field_of X1 E2 X2. apply le_inj in E2; [|exact W2|exact W2'].
  field_of X2 E3 X3. field_of X3 E4 X4. field_of X4 E5 X5. apply le_inj in E5; [|exact W3|exact W3']. field_of X5 E6 X6. field_of X6 E7 X7.
  field_of X7 E8 X8. apply le_inj in E8; [|exact W4|exact W4']. field_of X8 E9 X9. apply le_inj in E9; [|exact W5|exact W5'].
  field_of X9 E10 X10. apply le_inj in E10; [|exact W6|exact W6'].
  field_of X10 E12 X12. apply le_inj in E12; [|exact W8|exact W8']. field_of X12 E13 X13. cbn [app] in X13.
  destruct (waips_unique _ _ Ha _ _ R R' Ha') as [<- <-]; [lia|exact X13|]. split; congruence.
Qed.
Lemma wpeers_unique : forall xs ms, Forall2 wpeer_bytes xs ms -> forall xs' ms' R R', Forall2 wpeer_bytes xs' ms' -> length ms = length ms' -> concat ms ++ R = concat ms' ++ R' -> xs = xs' /\ R = R'.
Proof.
  induction 1 as [|x m xs ms Hx Hs IH]; intros xs' ms' R R' H' L E.
  - destruct H'; [|discriminate]. split; [reflexivity|exact E].
  - destruct H' as [|x' m' xs' ms' Hx' Hs']; [discriminate|]. cbn [concat] in E. rewrite <- !app_assoc in E. destruct (wpeer_unique _ _ _ _ _ _ Hx Hx' E) as [<- E'].
    destruct (IH xs' ms' R R' Hs') as [<- <-]; [cbn in L; lia|exact E'|split; reflexivity].
Qed.
Lemma wiface_unique : forall x x' b, wiface_bytes x b -> wiface_bytes x' b -> x = x'.
Proof.
  intros [f p k s ps] [f' p' k' s' ps'] b (W1 & W2 & (L1 & _) & (L2 & _) & pad & pad2 & ms & (L3 & _) & (L4 & _) & Hm & W4 & ->)
    (W1' & W2' & (L1' & _) & (L2' & _) & pad' & pad2' & ms' & (L3' & _) & (L4' & _) & Hm' & W4' & E).
  cbn [wi_flags wi_port wi_pub wi_priv wi_peers] in *.
  field_of E E1 X1. apply le_inj in E1; [|exact W1|exact W1']. field_of X1 E2 X2. apply le_inj in E2; [|exact W2|exact W2']. field_of X2 E3 X3. field_of X3 E4 X4.
  field_of X4 E5 X5. field_of X5 E6 X6. apply le_inj in E6; [|exact W4|exact W4']. field_of X6 E7 X7. cbn [app] in X7.
  destruct (wpeers_unique _ _ Hm _ _ [] [] Hm') as [<- _]; [lia|rewrite !app_nil_r; exact X7|]. congruence.
Qed.

Theorem C57_one_meaning : forall name b q q', wasks name b q -> wasks name b q' -> q = q'.
Proof.
  intros name b q q' (r & H1 & H) (r' & H2 & H'). rewrite <- (wiface_unique _ _ _ H1 H2) in H'. cbv zeta in *.
  assert (P : forall rs qs, Forall2 wasks_peer rs qs -> forall qs', Forall2 wasks_peer rs qs' -> qs = qs').
  { induction 1 as [|x y rs qs Hx Hs IH]; intros qs' Hq; inversion Hq as [|? y' ? ys' Hx' Hs']; subst; [reflexivity|]. f_equal; [|apply IH, Hs'].
    destruct y as [y1 y2 y3 y4 y5 y6 y7], y' as [z1 z2 z3 z4 z5 z6 z7]. unfold wasks_peer in Hx, Hx'. cbv zeta in *. cbn [rp_pub rp_remove rp_replace rp_psk rp_endpoint rp_ka rp_aips] in Hx, Hx'.
    destruct Hx as (A1 & A2 & A3 & A4 & A5 & A6 & A7 & A8 & A9 & A10). destruct Hx' as (B1 & B2 & B3 & B4 & B5 & B6 & B7 & B8 & B9 & B10).
    assert (y5 = z5). { destruct (Z.testbit (wp_flags x) 3); [destruct A5 as [A5 _], B5 as [B5 _]; congruence|congruence]. }
    assert (y7 = z7). { rewrite A10 in B10. clear - B10. revert z7 B10. induction y7 as [|a l IHl]; intros [|b l'] H; cbn in H; try discriminate; [reflexivity|]. injection H as -> H. f_equal. apply IHl, H. }
    congruence. }
  destruct q as [y1 y2 y3 y4 y5 y6], q' as [z1 z2 z3 z4 z5 z6]. cbn [rq_name rq_priv rq_port rq_fwmark rq_replace rq_peers] in H, H'. destruct H as (A1 & A2 & A3 & A4 & A5 & A6 & A7). destruct H' as (B1 & B2 & B3 & B4 & B5 & B6 & B7).
  rewrite (P _ _ A7 _ B7). congruence.
Qed.

(** ** Changing an interface *)

(** A device without a mark: one ioctl, with a block that asks for exactly the change the device describes; what is returned is the driver's verdict.  No access outside of
    the block, and the handle is closed, however it ends.  Nothing is sent, and an error returned, if the block would take 2^32 bytes or more, or there is no memory or no
    such device.  ([wsize_of d]: bytes of the block.) *)
Theorem C57_set : forall K (ioctl : K -> list Z -> option K) d k, wf_device d ->
  (wsize_of d < 2 ^ 32 -> exists b, len b = wsize_of d /\ (d_has_fwmark d = false -> wasks (d_name d) b (request_of d))
    /\ kernel_set_device (inl tt) true ioctl d k = Some (match ioctl k b with None => (- EACCES, k, [b], 0%nat) | Some k' => (0, k', [b], 0%nat) end)
    /\ kernel_set_device (inl tt) false ioctl d k = Some (- ENOMEM, k, [], 0%nat))
  /\ (2 ^ 32 <= wsize_of d -> forall mem, kernel_set_device (inl tt) mem ioctl d k = Some (- EOVERFLOW, k, [], 0%nat))
  /\ (forall e mem, kernel_set_device (inr e) mem ioctl d k = Some (- e, k, [], 0%nat)).
Proof.
  intros K ioctl d k Hw. assert (Sz : wsize wz_iface (d_peers d) = if wsize_of d <? 2 ^ 32 then Some (wsize_of d) else None).
  { rewrite (wsize_spec (d_peers d) wz_iface) by (unfold wz_iface; lia). reflexivity. }
  split; [|split; [|reflexivity]].
  - intro Hs. destruct (wfill_spec d Hw Hs) as [F L]. exists (wblock_of d). split; [exact L|]. split.
    + intro M. pose proof (wblock_asks d Hw Hs) as A. replace (without_mark (request_of d)) with (request_of d) in A; [exact A|].
      unfold without_mark, request_of. cbn [rq_name rq_priv rq_port rq_replace rq_peers]. rewrite M. reflexivity.
    + unfold kernel_set_device. rewrite Sz. destruct (Z.ltb_spec (wsize_of d) (2 ^ 32)); [|lia]. cbn [negb]. rewrite F. split; [|reflexivity]. destruct (ioctl k (wblock_of d)); reflexivity.
  - intros Hs mem. unfold kernel_set_device. rewrite Sz. destruct (Z.ltb_spec (wsize_of d) (2 ^ 32)); [lia|reflexivity].
Qed.

(** With a driver that does what blocks ask: 0 is returned exactly if the change has been made, all of it; otherwise a negative errno, and nothing has been changed. *)
Theorem C57_set_applies : forall (pubkey : list Z -> list Z) ioctl d k mem, wobeys (d_name d) (apply_request pubkey) ioctl -> wf_device d -> d_has_fwmark d = false ->
  exists r k' sent, kernel_set_device (inl tt) mem ioctl d k = Some (r, k', sent, 0%nat)
    /\ ((r = 0 /\ k' = apply_request pubkey k (request_of d)) \/ (r < 0 /\ k' = k)).
Proof.
  intros pubkey ioctl d k mem Ho Hw M. destruct (C57_set _ ioctl d k Hw) as (H1 & H2 & _). destruct (Z.lt_ge_cases (wsize_of d) (2 ^ 32)) as [Hs|Hs].
  - destruct (H1 Hs) as (b & _ & A & E1 & E2). destruct mem.
    + rewrite E1. destruct (Ho k b _ (A M)) as [-> | ->]; eexists _, _, _; (split; [reflexivity|]); [right|left]; split; reflexivity.
    + rewrite E2. eexists _, _, _. split; [reflexivity|]. right. split; reflexivity.
  - rewrite (H2 Hs mem). eexists _, _, _. split; [reflexivity|]. right. split; reflexivity.
Qed.

(** A mark is dropped without an error: whatever block is sent asks for the change without it. *)
Theorem C57_mark_refuted : forall K (ioctl : K -> list Z -> option K) d k b q, wf_device d -> d_has_fwmark d = true -> (forall k b, ioctl k b <> None) -> wsize_of d < 2 ^ 32 ->
  exists k', kernel_set_device (inl tt) true ioctl d k = Some (0, k', [wblock_of d], 0%nat) /\ (b = wblock_of d -> wasks (d_name d) b q -> q <> request_of d).
Proof.
  intros K ioctl d k b q Hw M Hi Hs. destruct (wfill_spec d Hw Hs) as [F _]. assert (Sz : wsize wz_iface (d_peers d) = Some (wsize_of d)).
  { rewrite (wsize_spec (d_peers d) wz_iface) by (unfold wz_iface; lia). change (wz_iface + Z.of_nat (wzeros_of (d_peers d))) with (wsize_of d). destruct (Z.ltb_spec (wsize_of d) (2 ^ 32)); [reflexivity|lia]. }
  unfold kernel_set_device. rewrite Sz. cbn [negb]. rewrite F. destruct (ioctl k (wblock_of d)) as [k'|] eqn:E; [|exfalso; exact (Hi _ _ E)]. exists k'. split; [reflexivity|].
  intros -> (r & _ & _ & _ & _ & A & _) ->. unfold request_of in A. cbn [rq_fwmark] in A. rewrite M in A. discriminate.
Qed.

(** When SetupDiGetClassDevsExW() fails, kernel_interface_handle() returns NULL and leaves errno as it was -- 0, say: then reading and changing an interface both return 0,
    and have done nothing. *)
Theorem C57_no_device_refuted : forall K (ioctl : K -> list Z -> option K) d k mem iface l grow junk n,
  kernel_set_device (inr 0) mem ioctl d k = Some (0, k, [], 0%nat) /\ kernel_get_device (inr 0) iface l grow junk n = Some (0, None, 0%nat).
Proof. intros. split; reflexivity. Qed.

(** ** Reading an interface *)
Lemma len_junk : forall junk n, 0 <= n -> len (map junk (zrange 0 (Z.to_nat n))) = n.
Proof. intros junk n H. unfold len. unfold zrange. rewrite !map_length, seq_length. lia. Qed.
Lemma wfetch_spec : forall now i room l j, wconversation now i room l j -> forall grow junk blk,
  (room = 0 /\ blk = None \/ exists m, blk = Some m /\ len m = room) -> (forall k b, now k = Some b -> 0 < len b) -> 0 <= room ->
  (exists x, wfetch l grow junk i blk room = Some x
     /\ (x = inl ENOMEM \/ match now j with None => x = inl EACCES | Some b => exists R, x = inr (Some (b ++ R)) end)
     /\ ((forall k, grow k = true) -> match now j with None => x = inl EACCES | Some b => exists R, x = inr (Some (b ++ R)) end)).
Proof.
  induction 1 as [i room E|i room b E Hr|i room b l j E Hr Hc IH]; intros grow junk blk Hb Hpos H0.
  - rewrite E. eexists. split; [reflexivity|]. split; [right; reflexivity|reflexivity].
  - rewrite E. pose proof (Hpos _ _ E) as Hl. destruct Hb as [[-> ->]|(m & -> & Hm)]; [lia|]. cbn [wfetch].
    destruct (Z.ltb_spec room (len b)); [lia|]. eexists. split; [reflexivity|]. split; [right|intros _]; eexists; reflexivity.
  - cbn [wfetch]. destruct (grow i) eqn:Eg; cbn [negb].
    + apply IH; [right|exact Hpos|lia]. eexists. split; [reflexivity|]. apply len_junk. lia.
    + eexists. split; [reflexivity|]. split; [left; reflexivity|]. intro G. rewrite G in Eg. discriminate.
Qed.

(** However often the interface changes while it is asked for: what is returned is exactly the interface that the last answer describes, or, if the driver refuses or memory
    runs out, a negative errno and no device.  No access outside of the block.  With memory for all of it, it is returned. *)
Theorem C57_get : forall iface now l j grow junk mem, wconversation now 0 0 l j -> (forall k b, now k = Some b -> exists d, wtells b d) ->
  match now j with
  | None => exists e h, kernel_get_device (inl tt) iface l grow junk mem = Some (- e, None, h) /\ (e = EACCES \/ e = ENOMEM)
  | Some b => forall d, wtells b d ->
      (kernel_get_device (inl tt) iface l grow junk mem = Some (0, Some (set_name (firstn 63 iface) d), 0%nat)
       \/ exists h, kernel_get_device (inl tt) iface l grow junk mem = Some (- ENOMEM, None, h))
      /\ ((forall k, grow k = true) -> (allocs (d_peers d) < mem)%nat ->
          kernel_get_device (inl tt) iface l grow junk mem = Some (0, Some (set_name (firstn 63 iface) d), 0%nat))
  end.
Proof.
  intros iface now l j grow junk mem Hc Ht.
  destruct (wfetch_spec _ _ _ _ _ Hc grow junk None) as (x & Ex & H1 & H2).
  - left. split; reflexivity.
  - intros k b E. destruct (Ht k b E) as (d & r & (_ & _ & (L1 & _) & (L2 & _) & pad & pad' & ms & (L3 & _) & (L4 & _) & _ & _ & ->) & _).
    rewrite len_app. pose proof (len_nonneg (concat ms)). cbn [concat]. rewrite !len_app, !len_le, L1, L2, L3, L4, len_nil. lia.
  - lia.
  - unfold kernel_get_device. rewrite Ex. destruct (now j) as [b|].
    + intros d Hd. split.
      * destruct H1 as [-> |(R & ->)]; [right; eexists; reflexivity|]. rewrite (wget_block_spec iface b R d mem Hd). destruct (_ <=? _)%nat; [left; reflexivity|right; eexists; reflexivity].
      * intros G M. destruct (H2 G) as (R & ->). rewrite (wget_block_spec iface b R d mem Hd). destruct (Nat.leb_spec (S (allocs (d_peers d))) mem); [reflexivity|lia].
    + destruct H1 as [-> | ->]; eexists _, _; (split; [reflexivity|]); [right|left]; reflexivity.
Qed.
(** A block describes one interface. *)
Theorem C57_get_one_meaning : forall b d d', wtells b d -> wtells b d' -> set_name [] d = set_name [] d'.
Proof.
  intros b d d' (r & H1 & H) (r' & H2 & H'). rewrite <- (wiface_unique _ _ _ H1 H2) in H'. cbv zeta in *.
  assert (P : forall rs qs, Forall2 wtells_peer rs qs -> forall qs', Forall2 wtells_peer rs qs' -> qs = qs').
  { induction 1 as [|x y rs qs Hx Hs IH]; intros qs' Hq; inversion Hq as [|? y' ? ys' Hx' Hs']; subst; [reflexivity|]. f_equal; [|apply IH, Hs'].
    destruct y as [y1 y2 y3 y4 y5 y6 y7 y8 y9 y10 y11 y12 y13 y14], y' as [z1 z2 z3 z4 z5 z6 z7 z8 z9 z10 z11 z12 z13 z14]. unfold wtells_peer in Hx, Hx'. cbv zeta in *.
    cbn [p_remove p_replace_aips p_has_pub p_pub p_psk p_has_psk p_has_ka p_ka p_endpoint p_rx p_tx p_hs_sec p_hs_nsec p_aips] in Hx, Hx'.
    destruct Hx as (A1 & A2 & A3 & A4 & A5 & A6 & A7 & A8 & A9 & A10 & A11 & A12 & A13 & A14). destruct Hx' as (B1 & B2 & B3 & B4 & B5 & B6 & B7 & B8 & B9 & B10 & B11 & B12 & B13 & B14).
    assert (Ea : y14 = z14). { rewrite A14 in B14. clear - B14. revert z14 B14. induction y14 as [|a l IHl]; intros [|b l'] H; cbn in H; try discriminate; [reflexivity|]. injection H as -> H. f_equal. apply IHl, H. }
    assert (Ee : y8 = z8) by (clear - A9 B9; congruence). clear A14 B14 A9 B9. clear - A1 A2 A3 A4 A5 A6 A7 A8 A10 A11 A12 A13 B1 B2 B3 B4 B5 B6 B7 B8 B10 B11 B12 B13 Ea Ee. subst. reflexivity. }
  destruct d as [y1 y2 y3 y4 y5 y6 y7 y8 y9 y10 y11 y12], d' as [z1 z2 z3 z4 z5 z6 z7 z8 z9 z10 z11 z12]. unfold set_name.
  cbn [d_name d_ifindex d_replace_peers d_has_priv d_has_pub d_has_port d_has_fwmark d_pub d_priv d_fwmark d_port d_peers] in *.
  destruct H as (A1 & A2 & A3 & A4 & A5 & A6 & A7 & A8 & A9 & A10 & A11). destruct H' as (B1 & B2 & B3 & B4 & B5 & B6 & B7 & B8 & B9 & B10 & B11).
  pose proof (P _ _ A11 _ B11). congruence.
Qed.
Theorem C57_get_all_or_error : forall handle iface l grow junk mem r o h, kernel_get_device handle iface l grow junk mem = Some (r, o, h) ->
  (forall e, handle = inr e -> 0 < e) -> (r = 0 /\ o <> None /\ h = 0%nat) \/ (r < 0 /\ o = None).
Proof.
  intros handle iface l grow junk mem r o h H Hs. unfold kernel_get_device in H. destruct handle as [s|e]; [|injection H as <- <- <-; specialize (Hs e eq_refl); right; split; [lia|reflexivity]].
  destruct (wfetch l grow junk 0 None 0) as [[e|[b|]]|] eqn:Ef; try discriminate.
  - injection H as <- <- <-. right. split; [|reflexivity]. assert (P : 0 < e); [|lia]. clear - Ef.
    assert (G : forall i blk last, wfetch l grow junk i blk last = Some (inl e) -> 0 < e); [|exact (G _ _ _ Ef)]. clear Ef.
    induction l as [|a l IH]; intros i blk last E; [discriminate|]. cbn [wfetch] in E. destruct a as [|size|data].
    + injection E as <-. reflexivity.
    + destruct (grow i); cbn [negb] in E; [exact (IH _ _ _ E)|]. injection E as <-. reflexivity.
    + destruct (last <? len data); discriminate.
  - destruct (wget_block iface b mem) as [[d m|]|]; try discriminate; injection H as <- <- <-; [left|right]; [split; [reflexivity|]; split; [discriminate|reflexivity]|split; reflexivity].
Qed.

(** When the driver refuses, or there is no memory for its answer, the handle stays open. *)
Theorem C57_handle_closed_refuted : forall iface now l j grow junk mem, wconversation now 0 0 l j -> now j = None ->
  exists e, kernel_get_device (inl tt) iface l grow junk mem = Some (- e, None, 1%nat).
Proof.
  intros iface now l j grow junk mem Hc Ej. unfold kernel_get_device.

  assert (G : exists e, wfetch l grow junk 0 None 0 = Some (inl e)); [|destruct G as (e & ->); exists e; reflexivity].
  revert Ej. generalize (@None (list Z)) at 2. induction Hc as [i room E|i room b E Hr|i room b l j E Hr H IH]; intros blk Ej.
  - eexists. reflexivity.
  - rewrite E in Ej. discriminate.
  - cbn [wfetch]. destruct (grow i); cbn [negb]; [|eexists; reflexivity]. apply IH. exact Ej.
Qed.
(** A driver that answers at once, without having been given room: a null pointer is read. *)
Theorem C57_empty_answer_refuted : forall iface grow junk mem l, kernel_get_device (inl tt) iface (DioOk [] :: l) grow junk mem = None.
Proof. intros. reflexivity. Qed.

(** * Concrete cases: the device of PropNetlink.v without its mark, and with it; a driver that carries out its update; an interface with two peers, one of them reached over
    IPv6, which gains the second peer between the first and the second call. *)
Definition wex (mark : bool) : device := mk_device (d_name ex_dev) (d_ifindex ex_dev) (d_replace_peers ex_dev) (d_has_priv ex_dev) (d_has_pub ex_dev) (d_has_port ex_dev) mark
  (d_pub ex_dev) (d_priv ex_dev) 51820 (d_port ex_dev) (d_peers ex_dev).
Definition wex_dev : device := wex false.
Lemma wex_wf : forall mark, wf_device (wex mark).
Proof. intro mark. pose proof (proj1 ex_dev_ok) as H. unfold wf_device in *. cbn [wex d_name d_priv d_pub d_port d_fwmark d_peers] in *. tauto || (repeat match goal with H : _ /\ _ |- _ => destruct H end; repeat split; try assumption; try lia). Qed.
Example C57_ex_set : wf_device wex_dev /\ d_has_fwmark wex_dev = false /\ wsize_of wex_dev = 80 + 136 + 10 * 24 + 136 
  /\ wf_device (wex true) /\ d_has_fwmark (wex true) = true /\ wsize_of (wex true) < 2 ^ 32.
Proof. split; [exact (wex_wf false)|]. split; [reflexivity|]. split; [reflexivity|]. split; [exact (wex_wf true)|]. repeat split; reflexivity. Qed.
Definition wex_ioctl (pubkey : list Z -> list Z) (k : KernelSpec.iface) (b : list Z) : option KernelSpec.iface :=
  if beq b (wblock_of wex_dev) then Some (apply_request pubkey k (without_mark (request_of wex_dev))) else None.
Example C57_ex_obeys : forall pubkey, wobeys (d_name wex_dev) (apply_request pubkey) (wex_ioctl pubkey).
Proof.
  intros pubkey k b q H. unfold wex_ioctl. destruct (beq b (wblock_of wex_dev)) eqn:E2; [|left; reflexivity]. right. apply beq_eq in E2. subst.
  rewrite (C57_one_meaning _ _ _ _ H (wblock_asks wex_dev (wex_wf false) eq_refl)). reflexivity.
Qed.

Definition yr1 : w_peer := mk_w_peer 13 1 (repeat 7 32) (repeat 0 32) 25 ([2; 0; 202; 108; 192; 0; 2; 1] ++ repeat 0 20) 100 200 133444736000000050 [mk_w_aip ([10; 0; 1; 0] ++ repeat 0 12) 2 24].
Definition yr2 : w_peer := mk_w_peer 11 1 (repeat 8 32) (repeat 9 32) 0 ([23; 0; 202; 108; 0; 0; 0; 0] ++ repeat 32 16 ++ [0; 0; 0; 0]) 0 0 0 [mk_w_aip (repeat 253 16) 23 64; mk_w_aip (repeat 0 16) 2 0].
Definition yr (ps : list w_peer) : w_iface := mk_w_iface 7 51820 (repeat 5 32) (repeat 4 32) ps.
Definition waip_b (x : w_aip) : list Z := concat [wa_addr x; le 2 (wa_af x); [wa_cidr x]; [0; 0; 0; 0; 0]].
Definition wpeer_b (r : w_peer) : list Z :=
  concat [le 4 (wp_flags r); le 4 (wp_version r); wp_pub r; wp_psk r; le 2 (wp_ka r); [0; 0]; wp_sa r; le 8 (wp_tx r); le 8 (wp_rx r);
          le 8 (wp_time r); le 4 (Z.of_nat (length (map waip_b (wp_aips r)))); [0; 0; 0; 0]] ++ concat (map waip_b (wp_aips r)).
Definition wiface_b (r : w_iface) : list Z :=
  concat [le 4 (wi_flags r); le 2 (wi_port r); wi_priv r; wi_pub r; [0; 0]; le 4 (Z.of_nat (length (map wpeer_b (wi_peers r)))); [0; 0; 0; 0]] ++ concat (map wpeer_b (wi_peers r)).
Lemma waip_b_ok : forall x, bytesb 16 (wa_addr x) && wordb 16 (wa_af x) && wordb 8 (wa_cidr x) = true -> waip_bytes x (waip_b x).
Proof.
  intros x H. apply andb_prop in H. destruct H as [H H3]. apply andb_prop in H. destruct H as [H1 H2].
  split; [apply bytesb_ok, H1|]. split; [apply wordb_ok, H2|]. split; [apply wordb_ok, H3|]. exists [0; 0; 0; 0; 0]. split; [apply bytesb_ok; reflexivity|reflexivity].
Qed.
Example yr1_ok : wpeer_bytes yr1 (wpeer_b yr1).
Proof.
  repeat (split; [first [apply wordb_ok; vm_compute; reflexivity | apply bytesb_ok; vm_compute; reflexivity]|]).
  exists [0; 0], [0; 0; 0; 0], (map waip_b (wp_aips yr1)). split; [apply bytesb_ok; reflexivity|]. split; [apply bytesb_ok; reflexivity|]. split; [|split; [apply wordb_ok; vm_compute; reflexivity|reflexivity]].
  apply Forall2_cons; [apply waip_b_ok; vm_compute; reflexivity|apply Forall2_nil].
Qed.
Example yr2_ok : wpeer_bytes yr2 (wpeer_b yr2).
Proof.
  repeat (split; [first [apply wordb_ok; vm_compute; reflexivity | apply bytesb_ok; vm_compute; reflexivity]|]).
  exists [0; 0], [0; 0; 0; 0], (map waip_b (wp_aips yr2)). split; [apply bytesb_ok; reflexivity|]. split; [apply bytesb_ok; reflexivity|]. split; [|split; [apply wordb_ok; vm_compute; reflexivity|reflexivity]].
  apply Forall2_cons; [apply waip_b_ok; vm_compute; reflexivity|]. apply Forall2_cons; [apply waip_b_ok; vm_compute; reflexivity|apply Forall2_nil].
Qed.
Definition yp1 : peer := mk_peer false false true false true (repeat 7 32) (repeat 0 32) (Ep4 [192; 0; 2; 1] 51820) 1700000000 5000 200 100 25 [mk_aip AF_INET [10; 0; 1; 0] 24].
Definition yp2 : peer := mk_peer false false true true false (repeat 8 32) (repeat 9 32) (Ep6 (repeat 32 16) 51820 0 0) 0 0 0 0 0 [mk_aip AF_INET6 (repeat 253 16) 64; mk_aip AF_INET [0; 0; 0; 0] 0].
Example yd_ok : forall n, (n <= 2)%nat -> wtells (wiface_b (yr (firstn n [yr1; yr2]))) (xd (firstn n [yp1; yp2])).
Proof.
  intros n Hn. exists (yr (firstn n [yr1; yr2])). split.
  - destruct n as [|[|[|n]]]; try lia; cbn [firstn];
    repeat (split; [first [apply wordb_ok; vm_compute; reflexivity | apply bytesb_ok; vm_compute; reflexivity]|]);
    exists [0; 0], [0; 0; 0; 0]; eexists; (split; [apply bytesb_ok; reflexivity|]); (split; [apply bytesb_ok; reflexivity|]);
    (split; [|split; [|reflexivity]]; [|apply wordb_ok; vm_compute; reflexivity]); cbn [yr wi_peers map]; repeat (apply Forall2_cons; [first [exact yr1_ok | exact yr2_ok]|]); apply Forall2_nil.
  - destruct n as [|[|[|n]]]; try lia; cbn [firstn]; cbv zeta; repeat (split; [reflexivity|]); cbn [yr wi_peers xd d_peers]; repeat (apply Forall2_cons; [unfold wtells_peer; cbv zeta; repeat (split; [reflexivity|]); reflexivity|]); apply Forall2_nil.
Qed.
Definition ynow (i : nat) : option (list Z) := Some (match i with O => wiface_b (yr [yr1]) | _ => wiface_b (yr [yr1; yr2]) end).
Example C57_ex_conversation : exists l, wconversation ynow 0 0 l 2 /\ (forall k b, ynow k = Some b -> exists d, wtells b d)
  /\ kernel_get_device (inl tt) [119; 103; 48] l (fun _ => true) (fun _ => 99) 7 = Some (0, Some (set_name [119; 103; 48] (xd [yp1; yp2])), 0%nat).
Proof.
  assert (C : wconversation ynow 0 0 [DioMore (len (wiface_b (yr [yr1]))); DioMore (len (wiface_b (yr [yr1; yr2]))); DioOk (wiface_b (yr [yr1; yr2]))] 2).
  { apply wconv_more; [reflexivity|vm_compute; reflexivity|]. apply wconv_more; [reflexivity|vm_compute; reflexivity|]. apply wconv_done; [reflexivity|apply Z.le_refl]. }
  assert (T : forall k b, ynow k = Some b -> exists d, wtells b d).
  { intros [|k] b E; injection E as <-; eexists; [exact (yd_ok 1 ltac:(lia))|exact (yd_ok 2 ltac:(lia))]. }
  eexists. split; [exact C|]. split; [exact T|].
  pose proof (C57_get [119; 103; 48] ynow _ 2 (fun _ => true) (fun _ => 99) 7 C T) as H. cbn [ynow] in H. destruct (H _ (yd_ok 2 ltac:(lia))) as [_ H']. rewrite H'; [reflexivity|reflexivity|cbn; lia].
Qed.

Print Assumptions C57_one_meaning.
Print Assumptions C57_set.
Print Assumptions C57_set_applies.
Print Assumptions C57_mark_refuted.
Print Assumptions C57_no_device_refuted.
Print Assumptions C57_get.
Print Assumptions C57_get_one_meaning.
Print Assumptions C57_get_all_or_error.
Print Assumptions C57_handle_closed_refuted.
Print Assumptions C57_empty_answer_refuted.
