(** C56: the OpenBSD kernel. *)
From Coq Require Import String ZArith List Bool Lia.
From Verif Require Import Base Types Config Encoding NlSpec KernelSpec NlProofs NlSet NlSetProofs IpcProofs IpcProofs2 Fields ObsdSpec Ipc Show Obsd ObsdProofs ObsdProofs2 BsdGroup BsdGroupSpec PropNetlink PropIpc.
Import ListNotations.
Open Scope Z_scope.

(** ** A block has one meaning *)
Lemma app_eq_len : forall (a a' b b' : list Z), len a = len a' -> a ++ b = a' ++ b' -> a = a' /\ b = b'.
Proof.
  induction a as [|x a IH]; intros [|x' a'] b b' L E; unfold len in *; cbn in L; try lia; [split; [reflexivity|exact E]|].
  cbn in E. injection E as -> E. destruct (IH a' b b') as [-> ->]; [unfold len; lia|exact E|split; reflexivity].
Qed.
Lemma le_inj : forall n v w, 0 <= v < 256 ^ Z.of_nat n -> 0 <= w < 256 ^ Z.of_nat n -> le n v = le n w -> v = w.
Proof. intros n v w Hv Hw E. rewrite <- (le_val_le_id n v Hv), <- (le_val_le_id n w Hw), E. reflexivity. Qed.

Ltac field_of E H1 H2 := cbn [concat] in E; rewrite <- ?app_assoc in E; apply app_eq_len in E; [destruct E as [H1 H2]|rewrite ?len_le; first [reflexivity | congruence]].

Lemma aip_unique : forall x x' m m' R R', aip_bytes x m -> aip_bytes x' m' -> m ++ R = m' ++ R' -> x = x' /\ R = R'.
Proof.
  intros [f c a] [f' c' a'] m m' R R' (W1 & W2 & (L & B) & pad & (Lp & Bp) & ->) (W1' & W2' & (L' & B') & pad' & (Lp' & Bp') & ->) E.
  cbn [ra_af ra_cidr ra_addr] in *. field_of E E1 E2. assert (f = f') by congruence. field_of E2 E3 E4. field_of E4 E5 E6. apply le_inj in E5; [|exact W2|exact W2'].
  field_of E6 E7 E8. cbn [app] in E8. split; [congruence|exact E8].
Qed.
Lemma aips_unique : forall xs ms, Forall2 aip_bytes xs ms -> forall xs' ms' R R', Forall2 aip_bytes xs' ms' -> length ms = length ms' -> concat ms ++ R = concat ms' ++ R' -> xs = xs' /\ R = R'.
Proof.
  induction 1 as [|x m xs ms Hx Hs IH]; intros xs' ms' R R' H' L E.
  - destruct H'; [|discriminate]. split; [reflexivity|exact E].
  - destruct H' as [|x' m' xs' ms' Hx' Hs']; [discriminate|]. cbn [concat] in E. rewrite <- !app_assoc in E. destruct (aip_unique _ _ _ _ _ _ Hx Hx' E) as [<- E'].
    destruct (IH xs' ms' R R' Hs') as [<- <-]; [cbn in L; lia|exact E'|split; reflexivity].
Qed.
Lemma peer_unique : forall x x' m m' R R', peer_bytes x m -> peer_bytes x' m' -> m ++ R = m' ++ R' -> x = x' /\ R = R'.
Proof.
  intros [f v p k ka sa tx rx s n ai] [f' v' p' k' ka' sa' tx' rx' s' n' ai'] m m' R R'
    (W1 & W2 & (L1 & _) & (L2 & _) & W3 & (L3 & _) & W4 & W5 & W6 & W7 & pad & ams & (L4 & _) & Ha & W8 & ->)
    (W1' & W2' & (L1' & _) & (L2' & _) & W3' & (L3' & _) & W4' & W5' & W6' & W7' & pad' & ams' & (L4' & _) & Ha' & W8' & ->) E.
  cbn [rw_flags rw_version rw_pub rw_psk rw_pka rw_sa rw_tx rw_rx rw_sec rw_nsec rw_aips] in *.
  field_of E E1 X1. apply le_inj in E1; [|exact W1|exact W1']. field_of X1 E2 X2. apply le_inj in E2; [|exact W2|exact W2'].
  field_of X2 E3 X3. field_of X3 E4 X4. field_of X4 E5 X5. apply le_inj in E5; [|exact W3|exact W3']. field_of X5 E6 X6. field_of X6 E7 X7.
  field_of X7 E8 X8. apply le_inj in E8; [|exact W4|exact W4']. field_of X8 E9 X9. apply le_inj in E9; [|exact W5|exact W5'].
  field_of X9 E10 X10. apply le_inj in E10; [|exact W6|exact W6']. field_of X10 E11 X11. apply le_inj in E11; [|exact W7|exact W7'].
  field_of X11 E12 X12. apply le_inj in E12; [|exact W8|exact W8']. cbn [app] in X12.
  destruct (aips_unique _ _ Ha _ _ R R' Ha') as [<- <-]; [lia|exact X12|]. split; congruence.
Qed.
Lemma peers_unique : forall xs ms, Forall2 peer_bytes xs ms -> forall xs' ms' R R', Forall2 peer_bytes xs' ms' -> length ms = length ms' -> concat ms ++ R = concat ms' ++ R' -> xs = xs' /\ R = R'.
Proof.
  induction 1 as [|x m xs ms Hx Hs IH]; intros xs' ms' R R' H' L E.
  - destruct H'; [|discriminate]. split; [reflexivity|exact E].
  - destruct H' as [|x' m' xs' ms' Hx' Hs']; [discriminate|]. cbn [concat] in E. rewrite <- !app_assoc in E. destruct (peer_unique _ _ _ _ _ _ Hx Hx' E) as [<- E'].
    destruct (IH xs' ms' R R' Hs') as [<- <-]; [cbn in L; lia|exact E'|split; reflexivity].
Qed.
Lemma iface_unique : forall x x' b, iface_bytes x b -> iface_bytes x' b -> x = x'.
Proof.
  intros [f p t k s ps] [f' p' t' k' s' ps'] b (W1 & W2 & W3 & (L1 & _) & (L2 & _) & pad & ms & (L3 & _) & Hm & W4 & ->)
    (W1' & W2' & W3' & (L1' & _) & (L2' & _) & pad' & ms' & (L3' & _) & Hm' & W4' & E).
  cbn [ri_flags ri_port ri_rtable ri_pub ri_priv ri_peers] in *.
  field_of E E1 X1. assert (f = f') by congruence. field_of X1 E2 X2. field_of X2 E3 X3. apply le_inj in E3; [|exact W2|exact W2']. field_of X3 E4 X4. apply le_inj in E4; [|exact W3|exact W3'].
  field_of X4 E5 X5. field_of X5 E6 X6. field_of X6 E7 X7. apply le_inj in E7; [|exact W4|exact W4']. cbn [app] in X7.
  destruct (peers_unique _ _ Hm _ _ [] [] Hm') as [<- _]; [lia|rewrite !app_nil_r; exact X7|]. congruence.
Qed.

Theorem C56_one_meaning : forall name b q q', asks name b q -> asks name b q' -> q = q'.
Proof.
  intros name b q q' (r & H1 & H) (r' & H2 & H'). rewrite <- (iface_unique _ _ _ H1 H2) in H'. cbv zeta in *.
  assert (P : forall rs qs, Forall2 asks_peer rs qs -> forall qs', Forall2 asks_peer rs qs' -> qs = qs').
  { induction 1 as [|x y rs qs Hx Hs IH]; intros qs' Hq; inversion Hq as [|? y' ? ys' Hx' Hs']; subst; [reflexivity|]. f_equal; [|apply IH, Hs'].
    destruct y as [y1 y2 y3 y4 y5 y6 y7], y' as [z1 z2 z3 z4 z5 z6 z7]. unfold asks_peer in Hx, Hx'. cbv zeta in *. cbn [rp_pub rp_remove rp_replace rp_psk rp_endpoint rp_ka rp_aips] in Hx, Hx'.
    destruct Hx as (A1 & A2 & A3 & A4 & A5 & A6 & A7 & A8 & A9). destruct Hx' as (B1 & B2 & B3 & B4 & B5 & B6 & B7 & B8 & B9).
    assert (y5 = z5). { destruct (Z.testbit (rw_flags x) 3); [destruct A5 as [A5 _], B5 as [B5 _]; congruence|congruence]. }
    assert (y7 = z7). { rewrite A9 in B9. clear - B9. revert z7 B9. induction y7 as [|a l IHl]; intros [|b l'] H; cbn in H; try discriminate; [reflexivity|]. injection H as -> H. f_equal. apply IHl, H. }
    congruence. }
  destruct q as [y1 y2 y3 y4 y5 y6], q' as [z1 z2 z3 z4 z5 z6]. cbn [rq_name rq_priv rq_port rq_fwmark rq_replace rq_peers] in H, H'. destruct H as (A1 & A2 & A3 & A4 & A5 & A6 & A7). destruct H' as (B1 & B2 & B3 & B4 & B5 & B6 & B7).
  rewrite (P _ _ A7 _ B7). congruence.
Qed.

(** ** Changing an interface *)

(** One ioctl, with a block that asks for exactly the change described by the device; what it returns is the kernel's verdict.  No access outside the block.
    Nothing is sent if there is no socket or no memory.  ([size_of d]: bytes of the block.) *)
Theorem C56_set : forall K (ioctl : K -> list Z -> list Z -> Z + K) d k, wf_device d -> len (d_name d) <= 15 -> size_of d < 2 ^ 64 ->
  exists b, len b = size_of d /\ asks (d_name d) b (request_of d)
    /\ (forall s, kernel_set_device (inl s) true ioctl d k
        = Some (match ioctl k (d_name d) b with inl e => (- e, k) | inr k' => (0, k') end, [(d_name d, b)]))
    /\ (forall s, kernel_set_device (inl s) false ioctl d k = Some (- ENOMEM, k, []))
    /\ (forall e mem, kernel_set_device (inr e) mem ioctl d k = Some (- e, k, [])).
Proof.
  intros K ioctl d k Hw Hn Hs. destruct (fill_spec d Hw Hs) as [F L]. exists (block_of d).
  assert (N : firstn 15 (d_name d) = d_name d) by (apply firstn_all2; unfold len in Hn; lia).
  split; [exact L|]. split; [apply block_asks; assumption|]. split; [|split; reflexivity].
  intro s. unfold kernel_set_device. cbn [negb]. rewrite N, F. destruct (ioctl k (d_name d) (block_of d)); reflexivity.
Qed.

(** So with a kernel that does what blocks ask: 0 is returned exactly if the change has been made, all of it; otherwise a negative errno, and nothing has been changed. *)
Theorem C56_set_applies : forall (pubkey : list Z -> list Z) ioctl d k s, obeys (apply_request pubkey) ioctl -> wf_device d -> len (d_name d) <= 15 -> size_of d < 2 ^ 64 ->
  exists r k' sent, kernel_set_device (inl s) true ioctl d k = Some (r, k', sent)
    /\ ((r = 0 /\ k' = apply_request pubkey k (request_of d)) \/ (r < 0 /\ k' = k)).
Proof.
  intros pubkey ioctl d k s Ho Hw Hn Hs. destruct (C56_set _ ioctl d k Hw Hn Hs) as (b & _ & Hb & H & _). rewrite H.
  destruct (Ho k _ _ _ Hb) as [(e & He & ->)| ->]; eexists _, _, _; (split; [reflexivity|]); [right|left]; split; try reflexivity. lia.
Qed.

(** ** Reading an interface *)

(** However often the interface changes while it is asked for: what is returned is the interface that the last answer describes -- but without the endpoints that are
    IPv6 -- or, if memory runs out, an error and no device. *)
Lemma fetch_spec : forall now i room l j, conversation now i room l j -> forall grow junk blk,
  (room = 0 /\ blk = None \/ exists m, blk = Some m /\ len m = room) -> (forall k b, now k = inr b -> 0 < len b) -> 0 <= room ->
  (exists x, fetch l grow junk i blk room = Some x
     /\ (x = inl ENOMEM \/ match now j with inl e => x = inl e | inr b => exists R, x = inr (Some (b ++ R)) end)
     /\ ((forall k, grow k = true) -> match now j with inl e => x = inl e | inr b => exists R, x = inr (Some (b ++ R)) end)).
Proof.
  induction 1 as [i room e E|i room b E Hr|i room b l j E Hr Hc IH]; intros grow junk blk Hb Hpos H0.
  - rewrite E. eexists. split; [reflexivity|]. split; [right; reflexivity|reflexivity].
  - rewrite E. pose proof (Hpos _ _ E) as Hl. destruct Hb as [[-> ->]|(m & -> & Hm)]; [lia|]. cbn [fetch].
    destruct (Z.ltb_spec room (len b)); [lia|]. destruct (Z.leb_spec (len b) room); [|lia]. eexists. split; [reflexivity|].
    split; [right|intros _]; eexists; reflexivity.
  - cbn [fetch]. destruct (Z.ltb_spec room (len [])); [rewrite len_nil in *; lia|]. destruct (Z.leb_spec (len b) room); [lia|].
    destruct (grow i) eqn:Eg; cbn [negb].
    + apply IH; [right|exact Hpos|lia]. eexists. split; [reflexivity|].
      match goal with |- len (resize ?o _ _) = _ => destruct (resize_grow o (len b) junk) as (x & _ & Ex); [|exact Ex] end.
      destruct Hb as [[-> ->]|(m & -> & Hm)]; [rewrite len_nil; lia|]. cbn [length app skipn]. lia.
    + eexists. split; [reflexivity|]. split; [left; reflexivity|]. intro G. rewrite G in Eg. discriminate.
Qed.

Theorem C56_get : forall s iface now l j grow junk mem, conversation now 0 0 l j -> (forall k b, now k = inr b -> exists d, tells b d) ->
  match now j with
  | inl e => kernel_get_device (inl s) iface l grow junk mem = Some (- e, None) \/ kernel_get_device (inl s) iface l grow junk mem = Some (- ENOMEM, None)
  | inr b => forall d, tells b d ->
      (kernel_get_device (inl s) iface l grow junk mem = Some (0, Some (seen iface d)) \/ kernel_get_device (inl s) iface l grow junk mem = Some (- ENOMEM, None))
      /\ ((forall k, grow k = true) -> (allocs (d_peers d) < mem)%nat -> kernel_get_device (inl s) iface l grow junk mem = Some (0, Some (seen iface d)))
  end.
Proof.
  intros s iface now l j grow junk mem Hc Ht.
  destruct (fetch_spec _ _ _ _ _ Hc grow junk None) as (x & Ex & H1 & H2).
  - left. split; reflexivity.
  - intros k b E. destruct (Ht k b E) as (d & r & (_ & _ & _ & (L1 & _) & (L2 & _) & pad & ms & (L3 & _) & _ & _ & ->) & _).
    rewrite len_app. pose proof (len_nonneg (concat ms)). cbn [concat]. rewrite !len_app, !len_le, L1, L2, L3, len_nil. change (len [ri_flags r]) with 1. lia.
  - lia.
  - unfold kernel_get_device. rewrite Ex. destruct (now j) as [e|b].
    + destruct H1 as [-> | ->]; [right|left]; reflexivity.
    + intros d Hd. split.
      * destruct H1 as [-> |(R & ->)]; [right; reflexivity|]. rewrite (get_block_spec iface b R d mem Hd). destruct (_ <=? _)%nat; [left|right]; reflexivity.
      * intros G M. destruct (H2 G) as (R & ->). rewrite (get_block_spec iface b R d mem Hd). destruct (Nat.leb_spec (S (allocs (d_peers d))) mem); [reflexivity|lia].
Qed.

(** A device comes with success only; and with no IPv6 endpoint it is the interface, exactly. *)
Definition no_ipv6 (p : peer) : Prop := match p_endpoint p with Ep6 _ _ _ _ => False | _ => True end.
Theorem C56_get_exact : forall s iface now l j b d grow junk mem, conversation now 0 0 l j -> (forall k b, now k = inr b -> exists d, tells b d) ->
  now j = inr b -> tells b d -> len iface <= 15 -> Forall no_ipv6 (d_peers d) -> (forall k, grow k = true) -> (allocs (d_peers d) < mem)%nat ->
  kernel_get_device (inl s) iface l grow junk mem = Some (0, Some (set_name iface d)).
Proof.
  intros s iface now l j b d grow junk mem Hc Ht Ej Hd Hn Hp G M. pose proof (C56_get s iface now l j grow junk mem Hc Ht) as H. rewrite Ej in H.
  destruct (H d Hd) as [_ H']. rewrite H' by assumption. unfold seen. rewrite firstn_all2 by (unfold len in Hn; lia).
  replace (map seen_peer (d_peers d)) with (d_peers d); [destruct d; reflexivity|].
  clear - Hp. induction Hp as [|p ps H Hp IH]; [reflexivity|]. cbn [map]. rewrite <- IH. f_equal. unfold seen_peer. unfold no_ipv6 in H. destruct (p_endpoint p); [reflexivity|reflexivity|contradiction].
Qed.
Theorem C56_get_all_or_error : forall sock iface l grow junk mem r o, kernel_get_device sock iface l grow junk mem = Some (r, o) ->
  (forall e, sock = inr e -> 0 < e) -> Forall (fun a => match a with IoErr e => 0 < e | Io _ _ => True end) l -> (r = 0 /\ o <> None) \/ (r < 0 /\ o = None).
Proof.
  intros sock iface l grow junk mem r o H Hs Hl. unfold kernel_get_device in H. destruct sock as [s|e]; [|injection H as <- <-; specialize (Hs e eq_refl); right; split; [lia|reflexivity]].
  destruct (fetch l grow junk 0 None 0) as [[e|[b|]]|] eqn:Ef; try discriminate.
  - injection H as <- <-. right. split; [|reflexivity]. assert (P : 0 < e); [|lia]. clear - Ef Hl.
    assert (G : forall i blk last, fetch l grow junk i blk last = Some (inl e) -> 0 < e); [|exact (G _ _ _ Ef)]. clear Ef.
    induction Hl as [|a l Ha Hl IH]; intros i blk last E; [discriminate|]. cbn [fetch] in E. destruct a as [e'|size data]; [assert (e = e') by congruence; subst; exact Ha|].
    destruct (last <? len data); [discriminate|]. destruct (size <=? last); [discriminate|]. destruct (grow i); cbn [negb] in E; [exact (IH _ _ _ E)|]. injection E as <-. reflexivity.
  - destruct (get_block iface b mem) as [[d m|]|]; try discriminate; injection H as <- <-; [left|right]; split; try reflexivity; discriminate.
Qed.

(** The endpoint of a peer that is reached over IPv6 is never seen: "sa_len <= sizeof(peer->endpoint.addr)" compares the length of the address (28) with the size of a struct
    sockaddr (16). *)
Theorem C56_ipv6_endpoints_are_read_refuted : forall s iface now l j b d grow junk mem p, conversation now 0 0 l j -> (forall k b, now k = inr b -> exists d, tells b d) ->
  now j = inr b -> tells b d -> In p (d_peers d) -> ~ no_ipv6 p ->
  kernel_get_device (inl s) iface l grow junk mem <> Some (0, Some (set_name (firstn 15 iface) d)).
Proof.
  intros s iface now l j b d grow junk mem p Hc Ht Ej Hd Hp Hn H. pose proof (C56_get s iface now l j grow junk mem Hc Ht) as G. rewrite Ej in G.
  destruct (G d Hd) as [[E|E] _]; rewrite E in H; [|discriminate]. assert (E' : map seen_peer (d_peers d) = d_peers d).
  { assert (X : seen iface d = set_name (firstn 15 iface) d) by congruence. apply (f_equal d_peers) in X. destruct d. exact X. }
  clear - E' Hp Hn. revert E' Hp. generalize (d_peers d). induction l as [|q l IH]; intros E Hp; [contradiction|]. cbn [map] in E.
  assert (Eq : seen_peer q = q) by congruence. assert (El : map seen_peer l = l) by congruence. destruct Hp as [-> |Hp]; [|apply IH; assumption].
  apply Hn. unfold seen_peer in Eq. unfold no_ipv6. destruct (p_endpoint p) eqn:X; try exact I. rewrite <- Eq in X. destruct p; discriminate X.
Qed.
(** A kernel that states the size 0: a null pointer is read. *)
Theorem C56_empty_answer_refuted : forall s iface grow junk mem data l, kernel_get_device (inl s) iface (Io 0 data :: l) grow junk mem = None.
Proof. intros. unfold kernel_get_device. cbn [fetch]. destruct (0 <? len data); reflexivity. Qed.

(** ** Listing the interfaces of the group "wg" (OpenBSD and FreeBSD) *)
Lemma member_str : forall n R, ifname n -> cstr_at (member n ++ R) 0 = Some n.
Proof.
  intros n R (Hn & H0 & L). unfold cstr_at, member. change (Z.to_nat 0) with 0%nat. cbn [skipn]. change (0 <=? 0) with true.
  assert (R1 : exists x, repeat 0 (16 - length n) = 0 :: x) by (exists (repeat 0 (15 - length n)); replace (16 - length n)%nat with (S (15 - length n)) by (unfold len in L; lia); reflexivity).
  destruct R1 as (x & ->). replace (existsb (Z.eqb 0) ((n ++ 0 :: x) ++ R)) with true.
  2: { symmetry. apply existsb_exists. exists 0. split; [|reflexivity]. apply in_or_app. left. apply in_or_app. right. left. reflexivity. }
  cbn [andb]. f_equal. rewrite <- app_assoc. clear - H0. induction n as [|c n IH]; [reflexivity|]. cbn [app until_nul]. destruct (Z.eqb_spec c 0) as [->|]; [exfalso; apply H0; left; reflexivity|].
  f_equal. apply IH. intro H. apply H0. right. exact H.
Qed.
Lemma zeros_str : forall n R, cstr_at (repeat 0 (S n) ++ R) 0 = Some [].
Proof. intros. reflexivity. Qed.
Lemma cstr_skip : forall P m, cstr_at (P ++ m) (len P) = cstr_at m 0.
Proof. intros P m. unfold cstr_at. pose proof (len_nonneg P). destruct (Z.leb_spec 0 (len P)); [|lia]. unfold len. rewrite Nat2Z.id, skipn_app_exact. reflexivity. Qed.
Lemma len_member : forall n, ifname n -> len (member n) = 16.
Proof. intros n (_ & _ & L). unfold member, len in *. rewrite app_length, repeat_length. lia. Qed.

Lemma loop_zeros : forall hp k n R P l off ret, off = len P -> (n * 16 <= k)%nat -> 0 <= ret -> exists ret', group_loop hp (P ++ repeat 0 k ++ R) off n l ret = Some (ret', l) /\ (n = 0%nat /\ ret' = ret \/ ret' = 0).
Proof.
  intros hp k n. revert k. induction n as [|n IH]; intros k R P l off ret -> Hk Hr; cbn [group_loop]; [exists ret; split; [reflexivity|left; split; reflexivity]|].
  rewrite cstr_skip. destruct k as [|k]; [lia|]. rewrite zeros_str. unfold string_list_add at 1. rewrite len_nil. change (u64 (0 + 1) =? 1) with true. cbv iota. change (0 <? 0) with false. cbv iota.
  change (repeat 0 (S k)) with (repeat 0 (S k)). replace (S k) with (16 + (S k - 16))%nat by lia. rewrite repeat_app, <- app_assoc, app_assoc.
  destruct (IH (S k - 16)%nat R (P ++ repeat 0 16) l (len P + sz_ifg) 0) as (r & -> & Hr'); [rewrite len_app; reflexivity|lia|lia|]. exists r. split; [reflexivity|]. right. destruct Hr' as [[_ ->]|]; [reflexivity|assumption].
Qed.
Lemma loop_names : forall hp names, heap_ok hp -> Forall ifname names -> forall k n P l off before, off = len P -> (n * 16 <= k)%nat -> holds l before ->
  exists ret l', group_loop hp (P ++ concat (map member names) ++ repeat 0 k) off (length names + n) l 0 = Some (ret, l') /\ ((ret = 0 /\ holds l' (before ++ names)) \/ ret = - ENOMEM).
Proof.
  intros hp names Hh. induction 1 as [|x names Hx Hs IH]; intros k n P l off before -> Hk Hl.
  - cbn [map concat app length Nat.add]. rewrite <- (app_nil_r (repeat 0 k)). destruct (loop_zeros hp k n [] P l (len P) 0 eq_refl Hk ltac:(lia)) as (r & -> & Hr). exists r, l. split; [reflexivity|].
    left. rewrite app_nil_r. split; [destruct Hr as [[_ ->]|]; [reflexivity|assumption]|exact Hl].
  - cbn [map concat length Nat.add group_loop]. rewrite <- app_assoc. rewrite cstr_skip, (member_str x _ Hx). pose proof (len_member x Hx) as L16. destruct Hx as (Hne & H0 & L).
    destruct (add_holds hp l before x Hh Hl H0) as (r & l' & -> & [[-> H']|[-> ->]]); [change (2 ^ 62) with 4611686018427387904; lia| |].
    + change (0 <? 0) with false. cbv iota. rewrite app_assoc. destruct (IH k n (P ++ member x) l' (len P + sz_ifg) (before ++ [x])) as (r & l2 & E & Hr).
      * rewrite len_app, L16. reflexivity.
      * exact Hk.
      * destruct x; [congruence|exact H'].
      * exists r, l2. split; [exact E|]. rewrite <- app_assoc in Hr. exact Hr.
    + change (- ENOMEM <? 0) with true. cbv iota. exists (- ENOMEM), l. split; [reflexivity|right; reflexivity].
Qed.

(** If the group has members when it is first asked for (or none both times), the list holds exactly those of the second time, in order; if there are more of them by then,
    EINVAL; a group that does not exist is empty; any other error is returned. *)
Theorem C56_group_listing : forall s now hp room, heap_ok hp ->
  (forall ns ns', now 0%nat = inr ns -> now 1%nat = inr ns' -> room = None -> Forall ifname ns' -> (ns = [] -> ns' = []) ->
     exists r l, group_interfaces (inl s) (SIOCGIFGMEMB now) room hp slist0 = Some (r, l)
       /\ (if (length ns' <=? length ns)%nat then (r = 0 /\ names_of (match sl_block l with [] => [0] | b => b end) = ns') \/ r = - ENOMEM else r = - 22))
  /\ (now 0%nat = inl ENOENT -> group_interfaces (inl s) (SIOCGIFGMEMB now) room hp slist0 = Some (0, slist0))
  /\ (forall e, now 0%nat = inl e -> e <> ENOENT -> group_interfaces (inl s) (SIOCGIFGMEMB now) room hp slist0 = Some (- e, slist0))
  /\ (forall ns e, now 0%nat = inr ns -> (room = Some e \/ room = None /\ now 1%nat = inl e) -> group_interfaces (inl s) (SIOCGIFGMEMB now) room hp slist0 = Some (- e, slist0))
  /\ (forall e, group_interfaces (inr e) (SIOCGIFGMEMB now) room hp slist0 = Some (- e, slist0)).
Proof.
  intros s now hp room Hh. unfold group_interfaces, SIOCGIFGMEMB. repeat split.
  - intros ns ns' -> -> -> Hn Hz. change (0 =? 0) with true. cbv iota.
    destruct (Z.eqb_spec (16 * Z.of_nat (length ns)) 0) as [E|E].
    + assert (ns = []) by (destruct ns; [reflexivity|cbn in E; lia]). subst. rewrite (Hz eq_refl). cbn [length Nat.leb]. exists 0, slist0. split; [reflexivity|]. left. split; reflexivity.
    + destruct (Z.ltb_spec (16 * Z.of_nat (length ns)) (16 * Z.of_nat (length ns'))) as [Hl|Hl].
      * eexists _, _. split; [reflexivity|]. destruct (Nat.leb_spec (length ns') (length ns)); [lia|reflexivity].
      * destruct (Nat.leb_spec (length ns') (length ns)) as [Hle|]; [|lia].
        replace (Z.to_nat (16 * Z.of_nat (length ns))) with (16 * length ns' + 16 * (length ns - length ns'))%nat by lia. rewrite repeat_app.
        set (n16 := (16 * length ns')%nat).
        assert (Sk : forall X : list Z, skipn n16 (repeat 0 n16 ++ X) = X) by (intro X; pose proof (skipn_app_exact Z (repeat 0 n16) X) as Y; rewrite repeat_length in Y; exact Y). rewrite Sk. clear Sk n16.
        replace (Z.to_nat (16 * Z.of_nat (length ns) / sz_ifg)) with (length ns' + (length ns - length ns'))%nat.
        2: { unfold sz_ifg. rewrite Z.mul_comm, Z.div_mul by lia. lia. }
        destruct (loop_names hp ns' Hh Hn (16 * (length ns - length ns')) (length ns - length ns') [] slist0 0 [] eq_refl ltac:(lia) holds0) as (r & l & E' & Hr). cbn [app] in E'.
        exists r, l. split; [exact E'|]. destruct Hr as [[-> H]| ->]; [left|right; reflexivity]. split; [reflexivity|]. apply holds_names, H.
  - intros ->. reflexivity.
  - intros e -> He. destruct (Z.eqb_spec e ENOENT); [contradiction|reflexivity].
  - intros ns e -> [->|[-> ->]]; reflexivity.
Qed.
(** A group that is empty at first: the second call states the new length, of a block without room. *)
Theorem C56_group_listing_refuted : forall s now hp n, now 0%nat = inr [] -> now 1%nat = inr [n] -> group_interfaces (inl s) (SIOCGIFGMEMB now) None hp slist0 = None.
Proof. intros s now hp n E0 E1. unfold group_interfaces, SIOCGIFGMEMB. rewrite E0, E1. reflexivity. Qed.

(** * Concrete cases: the device of PropNetlink.v; a kernel that carries out its update; an interface with two peers, one of them reached over IPv6, which gains the second
    peer between the first and the second call. *)
Example C56_ex_set : wf_device ex_dev /\ len (d_name ex_dev) <= 15 /\ size_of ex_dev = 80 + 144 + 10 * 24 + 144.
Proof. split; [exact (proj1 ex_dev_ok)|]. split; [cbn; lia|reflexivity]. Qed.
Definition ex_ioctl (pubkey : list Z -> list Z) (k : KernelSpec.iface) (n b : list Z) : Z + KernelSpec.iface :=
  if beq n (d_name ex_dev) && beq b (block_of ex_dev) then inr (apply_request pubkey k (request_of ex_dev)) else inl 22.
Example C56_ex_obeys : forall pubkey, obeys (apply_request pubkey) (ex_ioctl pubkey).
Proof.
  intros pubkey k name b q H. unfold ex_ioctl. destruct (beq name (d_name ex_dev)) eqn:E1; [|left; exists 22; split; [lia|reflexivity]].
  destruct (beq b (block_of ex_dev)) eqn:E2; [|left; exists 22; split; [lia|reflexivity]]. right. cbn [andb]. apply beq_eq in E1, E2. subst.
  rewrite (C56_one_meaning _ _ _ _ H (block_asks ex_dev (proj1 ex_dev_ok) eq_refl)). reflexivity.
Qed.

Definition xr1 : raw_peer := mk_raw_peer 13 1 (repeat 7 32) (repeat 0 32) 25 ([16; 2; 202; 108; 192; 0; 2; 1] ++ repeat 0 20) 100 200 1700000000 5 [mk_raw_aip 2 24 ([10; 0; 1; 0] ++ repeat 0 12)].
Definition xr2 : raw_peer := mk_raw_peer 11 1 (repeat 8 32) (repeat 9 32) 0 ([28; 24; 202; 108; 0; 0; 0; 0] ++ repeat 32 16 ++ [0; 0; 0; 0]) 0 0 0 0 [mk_raw_aip 24 64 (repeat 253 16); mk_raw_aip 2 0 (repeat 0 16)].
Definition xr (ps : list raw_peer) : raw_iface := mk_raw_iface 7 51820 0 (repeat 4 32) (repeat 5 32) ps.
Definition aip_b (x : raw_aip) : list Z := concat [[ra_af x]; [0; 0; 0]; le 4 (ra_cidr x); ra_addr x].
Definition peer_b (r : raw_peer) : list Z :=
  concat [le 4 (rw_flags r); le 4 (rw_version r); rw_pub r; rw_psk r; le 2 (rw_pka r); [0; 0]; rw_sa r; le 8 (rw_tx r); le 8 (rw_rx r);
          le 8 (rw_sec r); le 8 (rw_nsec r); le 8 (Z.of_nat (length (map aip_b (rw_aips r))))] ++ concat (map aip_b (rw_aips r)).
Definition iface_b (r : raw_iface) : list Z :=
  concat [[ri_flags r]; [0]; le 2 (ri_port r); le 4 (ri_rtable r); ri_pub r; ri_priv r; le 8 (Z.of_nat (length (map peer_b (ri_peers r))))] ++ concat (map peer_b (ri_peers r)).
Definition bytesb (n : Z) (b : list Z) : bool := (len b =? n) && forallb (fun x => (0 <=? x) && (x <? 256)) b.
Definition wordb (n v : Z) : bool := (0 <=? v) && (v <? 2 ^ n).
Lemma bytesb_ok : forall n b, bytesb n b = true -> bytes n b.
Proof.
  intros n b H. apply andb_prop in H. destruct H as [H1 H2]. split; [apply Z.eqb_eq, H1|]. apply Forall_forall. intros x Hx. rewrite forallb_forall in H2. specialize (H2 x Hx).
  apply andb_prop in H2. destruct H2 as [A B]. apply Z.leb_le in A. apply Z.ltb_lt in B. unfold is_byte. lia.
Qed.
Lemma wordb_ok : forall n v, wordb n v = true -> word n v.
Proof. intros n v H. apply andb_prop in H. destruct H as [A B]. apply Z.leb_le in A. apply Z.ltb_lt in B. split; assumption. Qed.
Lemma aip_b_ok : forall x, wordb 8 (ra_af x) && wordb 32 (ra_cidr x) && bytesb 16 (ra_addr x) = true -> aip_bytes x (aip_b x).
Proof.
  intros x H. apply andb_prop in H. destruct H as [H H3]. apply andb_prop in H. destruct H as [H1 H2].
  split; [apply wordb_ok, H1|]. split; [apply wordb_ok, H2|]. split; [apply bytesb_ok, H3|]. exists [0; 0; 0]. split; [apply bytesb_ok; reflexivity|reflexivity].
Qed.
Example xr1_ok : peer_bytes xr1 (peer_b xr1).
Proof.
  repeat (split; [first [apply wordb_ok; vm_compute; reflexivity | apply bytesb_ok; vm_compute; reflexivity]|]).
  exists [0; 0], (map aip_b (rw_aips xr1)). split; [apply bytesb_ok; reflexivity|]. split; [|split; [apply wordb_ok; vm_compute; reflexivity|reflexivity]].
  apply Forall2_cons; [apply aip_b_ok; vm_compute; reflexivity|apply Forall2_nil].
Qed.
Example xr2_ok : peer_bytes xr2 (peer_b xr2).
Proof.
  repeat (split; [first [apply wordb_ok; vm_compute; reflexivity | apply bytesb_ok; vm_compute; reflexivity]|]).
  exists [0; 0], (map aip_b (rw_aips xr2)). split; [apply bytesb_ok; reflexivity|]. split; [|split; [apply wordb_ok; vm_compute; reflexivity|reflexivity]].
  apply Forall2_cons; [apply aip_b_ok; vm_compute; reflexivity|]. apply Forall2_cons; [apply aip_b_ok; vm_compute; reflexivity|apply Forall2_nil].
Qed.
Definition xp1 : peer := mk_peer false false true false true (repeat 7 32) (repeat 0 32) (Ep4 [192; 0; 2; 1] 51820) 1700000000 5 200 100 25 [mk_aip AF_INET [10; 0; 1; 0] 24].
Definition xp2 : peer := mk_peer false false true true false (repeat 8 32) (repeat 9 32) (Ep6 (repeat 32 16) 51820 0 0) 0 0 0 0 0 [mk_aip AF_INET6 (repeat 253 16) 64; mk_aip AF_INET [0; 0; 0; 0] 0].
Definition xd (ps : list peer) : device := mk_device [] 0 false true true true false (repeat 4 32) (repeat 5 32) 0 51820 ps.
Example xd1_ok : tells (iface_b (xr [xr1])) (xd [xp1]).
Proof.
  exists (xr [xr1]). split.
  - repeat (split; [first [apply wordb_ok; vm_compute; reflexivity | apply bytesb_ok; vm_compute; reflexivity]|]).
    exists [0], (map peer_b [xr1]). split; [apply bytesb_ok; reflexivity|]. split; [apply Forall2_cons; [exact xr1_ok|apply Forall2_nil]|]. split; [apply wordb_ok; vm_compute; reflexivity|reflexivity].
  - cbv zeta. repeat (split; [reflexivity|]). apply Forall2_cons; [|apply Forall2_nil]. unfold tells_peer. cbv zeta. repeat (split; [reflexivity|]). apply Forall_cons; [cbn; lia|apply Forall_nil].
Qed.
Example xd2_ok : tells (iface_b (xr [xr1; xr2])) (xd [xp1; xp2]).
Proof.
  exists (xr [xr1; xr2]). split.
  - repeat (split; [first [apply wordb_ok; vm_compute; reflexivity | apply bytesb_ok; vm_compute; reflexivity]|]).
    exists [0], (map peer_b [xr1; xr2]). split; [apply bytesb_ok; reflexivity|]. split; [apply Forall2_cons; [exact xr1_ok|apply Forall2_cons; [exact xr2_ok|apply Forall2_nil]]|].
    split; [apply wordb_ok; vm_compute; reflexivity|reflexivity].
  - cbv zeta. repeat (split; [reflexivity|]). apply Forall2_cons; [|apply Forall2_cons; [|apply Forall2_nil]]; unfold tells_peer; cbv zeta; repeat (split; [reflexivity|]).
    + apply Forall_cons; [cbn; lia|apply Forall_nil].
    + apply Forall_cons; [cbn; lia|]. apply Forall_cons; [cbn; lia|apply Forall_nil].
Qed.
Definition xnow (i : nat) : Z + list Z := inr (match i with O => iface_b (xr [xr1]) | _ => iface_b (xr [xr1; xr2]) end).
Example C56_ex_conversation : exists l, conversation xnow 0 0 l 2 /\ (forall k b, xnow k = inr b -> exists d, tells b d)
  /\ kernel_get_device (inl 3) [119; 103; 48] l (fun _ => true) (fun _ => 99) 7 = Some (0, Some (set_name [119; 103; 48] (xd [xp1; set_endpoint EpNone xp2]))).
Proof.
  assert (C : conversation xnow 0 0 [Io (len (iface_b (xr [xr1]))) []; Io (len (iface_b (xr [xr1; xr2]))) []; Io (len (iface_b (xr [xr1; xr2]))) (iface_b (xr [xr1; xr2]))] 2).
  { apply conv_more; [reflexivity|vm_compute; reflexivity|]. apply conv_more; [reflexivity|vm_compute; reflexivity|]. apply conv_done; [reflexivity|apply Z.le_refl]. }
  assert (T : forall k b, xnow k = inr b -> exists d, tells b d).
  { intros [|k] b E; injection E as <-; eexists; [exact xd1_ok|exact xd2_ok]. }
  eexists. split; [exact C|]. split; [exact T|].
  pose proof (C56_get 3 [119; 103; 48] xnow _ 2 (fun _ => true) (fun _ => 99) 7 C T) as H. cbn [xnow] in H. destruct (H _ xd2_ok) as [_ H']. rewrite H'; [reflexivity|reflexivity|cbn; lia].
Qed.
Example C56_ex_group : ifname [119; 103; 48] /\ ifname [119; 103; 49].
Proof. split; (split; [discriminate|]); (split; [cbn; lia|cbn; lia]). Qed.

Print Assumptions C56_one_meaning.
Print Assumptions C56_set.
Print Assumptions C56_set_applies.
Print Assumptions C56_get.
Print Assumptions C56_get_exact.
Print Assumptions C56_get_all_or_error.
Print Assumptions C56_ipv6_endpoints_are_read_refuted.
Print Assumptions C56_empty_answer_refuted.
Print Assumptions C56_group_listing.
Print Assumptions C56_group_listing_refuted.
