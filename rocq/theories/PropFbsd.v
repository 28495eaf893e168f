(** C60: the FreeBSD kernel. *)
From Coq Require Import String ZArith List Bool Lia.
From Verif Require Import Base Types Encoding EncodingSpec EncodingProofs TextProofs NlSpec KernelSpec NlProofs NlSet Fields Ipc ObsdSpec Obsd CurveField2 ObsdProofs2 UapiProofs3 PropNetlink PropObsd FbsdSpec Fbsd FbsdProofs.
Import ListNotations.
Open Scope Z_scope.

(** ** A list has one meaning *)
Lemma option_map_bin : forall a b, option_map NBin a = option_map NBin b -> a = b.
Proof. intros [a|] [b|] H; cbn in H; congruence. Qed.
Lemma option_map_num : forall a b, option_map NNum a = option_map NNum b -> a = b.
Proof. intros [a|] [b|] H; cbn in H; congruence. Qed.
Lemma opt_inj : forall A (x : A) a b, opt a x = opt b x -> a = b.
Proof. intros A x [|] [|] H; cbn in H; congruence. Qed.
Lemma F2_fun : forall A (rel : nvl -> A -> Prop) ls xs, (forall l x y, rel l x -> rel l y -> x = y) -> Forall2 rel ls xs -> forall ys, Forall2 rel ls ys -> xs = ys.
Proof. intros A rel ls xs F H. induction H as [|l x ls xs Hx Hs IH]; intros ys Hy; inversion Hy as [|? y ? ys' Hy1 Hy2]; subst; [reflexivity|]. f_equal; [exact (F _ _ _ Hx Hy1)|exact (IH _ Hy2)]. Qed.
Lemma array_fun : forall A (rel : nvl -> A -> Prop) l n xs ys, well_named l -> (forall l x y, rel l x -> rel l y -> x = y) -> array l n rel xs -> array l n rel ys -> xs = ys.
Proof.
  intros A rel l n [|x xs] [|y ys] Hw F H H'; [reflexivity| | |].
  - destruct H' as (ls & U & _). discriminate (under_fun _ _ _ _ Hw H U).
  - destruct H as (ls & U & _). discriminate (under_fun _ _ _ _ Hw H' U).
  - destruct H as (ls & U & H). destruct H' as (ls' & U' & H'). assert (ls = ls') by (pose proof (under_fun _ _ _ _ Hw U U'); congruence). subst. exact (F2_fun _ _ _ _ F H _ H').
Qed.
Lemma nv_aip_fun : forall l a a', nv_aip l a -> nv_aip l a' -> a = a'.
Proof.
  intros l [f ip c] [f' ip' c'] (W & U1 & U2 & U3 & Ha) (_ & U1' & U2' & U3' & Ha'). cbn [a_family a_ip a_cidr] in *.
  pose proof (under_fun _ _ _ _ W U1 U1') as E1. pose proof (under_fun _ _ _ _ W U2 U2') as E2. pose proof (under_fun _ _ _ _ W U3 U3') as E3.
  destruct Ha as [(-> & _)|(-> & _)], Ha' as [(-> & _)|(-> & _)]; cbn in E2, E3; congruence.
Qed.
Lemma asks_peer_fun : forall l q q', asks_peer l q -> asks_peer l q' -> q = q'.
Proof.
  intros l [y1 y2 y3 y4 y5 y6 y7] [z1 z2 z3 z4 z5 z6 z7] (W & _ & A1 & A2 & A3 & A4 & A5 & A6 & A7) (_ & _ & B1 & B2 & B3 & B4 & B5 & B6 & B7).
  cbn [rp_pub rp_remove rp_replace rp_psk rp_endpoint rp_ka rp_aips] in *.
  pose proof (under_fun _ _ _ _ W A1 B1) as E1. pose proof (option_map_bin _ _ (under_fun _ _ _ _ W A2 B2)) as E2. pose proof (option_map_num _ _ (under_fun _ _ _ _ W A3 B3)) as E3.
  pose proof (opt_inj _ _ _ _ (under_fun _ _ _ _ W A5 B5)) as E5. pose proof (opt_inj _ _ _ _ (under_fun _ _ _ _ W A6 B6)) as E6. pose proof (array_fun _ _ _ _ _ _ W nv_aip_fun A7 B7) as E7.
  assert (E4 : y5 = z5).
  { destruct y5 as [e|], z5 as [e'|]; [| | |reflexivity].
    - destruct A4 as (sa & U & S). destruct B4 as (sa' & U' & S'). pose proof (under_fun _ _ _ _ W U U'). congruence.
    - destruct A4 as (sa & U & S). discriminate (under_fun _ _ _ _ W U B4).
    - destruct B4 as (sa & U & S). discriminate (under_fun _ _ _ _ W U A4). }
  congruence.
Qed.
Theorem C60_one_meaning : forall name l q q', asks name l q -> asks name l q' -> q = q'.
Proof.
  intros name l [y1 y2 y3 y4 y5 y6] [z1 z2 z3 z4 z5 z6] (N & W & _ & A1 & A2 & A3 & A4 & A5) (N' & _ & _ & B1 & B2 & B3 & B4 & B5).
  cbn [rq_name rq_priv rq_port rq_fwmark rq_replace rq_peers] in *.
  pose proof (option_map_bin _ _ (under_fun _ _ _ _ W A1 B1)) as E1. pose proof (option_map_num _ _ (under_fun _ _ _ _ W A2 B2)) as E2. pose proof (option_map_num _ _ (under_fun _ _ _ _ W A3 B3)) as E3.
  pose proof (opt_inj _ _ _ _ (under_fun _ _ _ _ W A4 B4)) as E4. pose proof (array_fun _ _ _ _ _ _ W asks_peer_fun A5 B5) as E5. congruence.
Qed.

(** ** Changing an interface *)

(** Whichever allocations fail: either one ioctl, with a list that asks for exactly the change described by the device, or ENOMEM and no ioctl; the latter only if some
    allocation has failed.  Without a socket, nothing is sent.  If the kernel refuses, -1 is returned. *)
Theorem C60_set : forall K (ioctl : K -> list Z -> nvl -> Z + K) ok d k, wf_device d -> len (d_name d) <= 15 ->
  exists l, asks (d_name d) l (request_of d)
    /\ ((forall s, kernel_set_device (inl s) ok ioctl d k = (match ioctl k (d_name d) l with inl _ => (-1, k) | inr k' => (0, k') end, [(d_name d, l)]))
        /\ (forall e, kernel_set_device (inr e) ok ioctl d k = (- e, k, []))
        \/ (exists i, ok i = false) /\ forall sock, kernel_set_device sock ok ioctl d k = (- ENOMEM, k, [])).
Proof.
  intros K ioctl ok d k Hw Hn. exists (device_items d). split; [apply device_asks, Hw|].
  assert (N : firstn 15 (d_name d) = d_name d) by (apply firstn_all2; unfold len in Hn; lia).
  unfold kernel_set_device. destruct (put_device_spec ok d Hw) as [-> |[-> B]]; [left|right].
  - split; [|reflexivity]. intros s. rewrite N. destruct (ioctl k (d_name d) (device_items d)); reflexivity.
  - split; [exact B|reflexivity].
Qed.

(** So with a kernel that does what lists ask: 0 is returned exactly if the change has been made, all of it; otherwise a negative number, and nothing has been changed. *)
Theorem C60_set_applies : forall (pubkey : list Z -> list Z) ioctl ok sock d k, obeys (apply_request pubkey) ioctl -> wf_device d -> len (d_name d) <= 15 ->
  (forall e, sock = inr e -> 0 < e) ->
  exists r k' sent, kernel_set_device sock ok ioctl d k = (r, k', sent)
    /\ ((r = 0 /\ k' = apply_request pubkey k (request_of d)) \/ (r < 0 /\ k' = k)).
Proof.
  intros pubkey ioctl ok sock d k Ho Hw Hn Hs. destruct (C60_set _ ioctl ok d k Hw Hn) as (l & Hl & [[H1 H2]|[_ H]]).
  - destruct sock as [s|e].
    + rewrite H1. destruct (Ho k _ _ _ Hl) as [(e & He & ->)| ->]; eexists _, _, _; (split; [reflexivity|]); [right|left]; split; try reflexivity; lia.
    + rewrite H2. eexists _, _, _. split; [reflexivity|]. right. split; [specialize (Hs e eq_refl); lia|reflexivity].
  - rewrite H. eexists _, _, _. split; [reflexivity|]. right. split; [reflexivity|reflexivity].
Qed.
(** The number is not the error: whatever the kernel objects to, -1 (which would be EPERM) comes back. *)
Theorem C60_set_errno_refuted : forall d, wf_device d -> len (d_name d) <= 15 ->
  forall e, 1 < e -> exists r, kernel_set_device (K := unit) (inl 3) (fun _ => true) (fun _ _ _ => inl e) d tt = r /\ fst (fst r) = -1 /\ fst (fst r) <> - e.
Proof.
  intros d Hw Hn e He. eexists. split; [reflexivity|]. destruct (C60_set _ (fun _ _ _ => inl e) (fun _ => true) d tt Hw Hn) as (l & _ & [[H _]|[(i & Hi) _]]); [|discriminate].
  rewrite H. cbn [fst]. split; [reflexivity|lia].
Qed.

(** ** Reading an interface *)
Lemma peek_all : forall b n, len b = n -> peek b 0 n = Some b.
Proof. intros b n L. pose proof (peek_at [] b [] 0 n eq_refl (eq_sym L)) as H. cbn [app] in H. rewrite app_nil_r in H. exact H. Qed.
Lemma get_aips_spec : forall ls aips, Forall2 nv_aip ls aips -> forall mem,
  get_aips ls mem = Some (if (length aips <=? mem)%nat then FGot aips (mem - length aips) else FErr (- ENOMEM)).
Proof.
  induction 1 as [|l a ls aips Ha Hs IH]; intro mem; cbn [get_aips length]; [rewrite Nat.sub_0_r; reflexivity|].
  destruct a as [f ip c]. destruct Ha as (W & U1 & U2 & U3 & Ha). cbn [a_family a_ip a_cidr] in *.
  unfold get_number, get_binary. rewrite (pick_under _ _ _ _ _ W U1), (pick_under _ _ _ _ _ W U2), (pick_under _ _ _ _ _ W U3). cbn [view].
  destruct Ha as [(-> & (L & _) & Hc)|(-> & (L & _) & Hc)].
  - change (AF_INET =? AF_INET) with true. change (AF_INET =? AF_INET6) with false. cbn [opt view some negb andb].
    destruct mem as [|mem]; [reflexivity|]. destruct (Z.ltb_spec 32 c); [lia|].
    rewrite (peek_all ip 4 L). rewrite IH. cbn [Nat.leb Nat.sub]. destruct (length aips <=? mem)%nat; reflexivity.
  - change (AF_INET6 =? AF_INET) with false. change (AF_INET6 =? AF_INET6) with true. cbn [opt view some negb andb].
    destruct mem as [|mem]; [reflexivity|]. destruct (Z.ltb_spec 128 c); [lia|].
    rewrite (peek_all ip 16 L). rewrite IH. cbn [Nat.leb Nat.sub]. destruct (length aips <=? mem)%nat; reflexivity.
Qed.
Lemma array_get : forall A (rel : nvl -> A -> Prop) l n xs, well_named l -> array l n rel xs -> Forall2 rel (or (get_array n l) []) xs.
Proof.
  intros A rel l n [|x xs] W H; unfold get_array.
  - rewrite (pick_under _ _ _ _ _ W H). apply Forall2_nil.
  - destruct H as (ls & U & H). rewrite (pick_under _ _ _ _ _ W U). exact H.
Qed.
Lemma sa_reads : forall sa e, sa_says sa = Some e -> get_endpoint (Some sa) = e /\ e <> EpNone.
Proof.
  intros sa e H. unfold sa_says in H. destruct sa as [|l [|f [|p0 [|p1 rest]]]]; try discriminate.
  destruct ((l =? 16) && (f =? 2) && (len (l :: f :: p0 :: p1 :: rest) =? 16)) eqn:E.
  - apply andb_prop in E. destruct E as [E E3]. apply andb_prop in E. destruct E as [E1 E2]. apply Z.eqb_eq in E1, E2, E3. subst l f. injection H as <-. split; [|discriminate].
    unfold get_endpoint. rewrite E3. change (16 <=? 28) with true. change (16 <=? 16) with true. cbn [andb nth]. change (2 =? AF_INET) with true. cbn [orb]. cbv iota.
    unfold sa_copy. replace (28 - length (16%Z :: 2%Z :: p0 :: p1 :: rest))%nat with 12%nat by (unfold len in E3; lia). cbn [app]. unfold fbsd_endpoint. change (2 =? AF_INET) with true. cbv iota.
    assert (length rest = 12%nat) by (unfold len in E3; cbn [length] in E3; lia). rewrite firstn_app. replace (4 - length rest)%nat with 0%nat by lia. rewrite firstn_O, app_nil_r. reflexivity.
  - destruct ((l =? 28) && (f =? 28) && (len (l :: f :: p0 :: p1 :: rest) =? 28)) eqn:E'; [|discriminate].
    apply andb_prop in E'. destruct E' as [E' E3]. apply andb_prop in E'. destruct E' as [E1 E2]. apply Z.eqb_eq in E1, E2, E3. subst l f. injection H as <-. split; [|discriminate].
    unfold get_endpoint. rewrite E3. change (28 <=? 28) with true. change (16 <=? 28) with true. cbn [andb nth]. change (28 =? AF_INET) with false. change (28 =? FBSD_INET6) with true. cbn [orb]. cbv iota.
    unfold sa_copy. replace (28 - length (28%Z :: 28%Z :: p0 :: p1 :: rest))%nat with 0%nat by (unfold len in E3; lia). change (repeat 0 0) with (@nil Z). rewrite app_nil_r. unfold fbsd_endpoint.
    change (28 =? AF_INET) with false. change (28 =? FBSD_INET6) with true. cbv iota. reflexivity.
Qed.
Lemma get_peer_spec : forall l p, tells_peer l p -> get_peer l (p_aips p) = p.
Proof.
  intros l [y1 y2 y3 y4 y5 y6 y7 y8 y9 y10 y11 y12 y13 y14] H. unfold tells_peer in H. cbn [p_remove p_replace_aips p_has_pub p_has_psk p_has_ka p_pub p_psk p_endpoint p_hs_sec p_hs_nsec p_rx p_tx p_ka p_aips] in *.
  destruct H as (W & -> & -> & (U1 & K1) & (b & U2 & K2) & Hk & (U3 & K3) & W3 & He & (b4 & U4 & K4) & (b5 & U5 & K5) & Hh & _).
  unfold get_peer, get_binary, get_number. rewrite (pick_under _ _ _ _ _ W U1), (pick_under _ _ _ _ _ W U2), (pick_under _ _ _ _ _ W U3), (pick_under _ _ _ _ _ W U4), (pick_under _ _ _ _ _ W U5).
  assert (P1 : key (view (fun v => match v with NBin b => Some b | _ => None end) (opt y3 (NBin y6))) = opt y3 y6).
  { destruct y3; [|reflexivity]. cbn [opt view key]. destruct K1 as [L _]. rewrite L. reflexivity. }
  assert (P2 : key (view (fun v => match v with NBin b => Some b | _ => None end) (opt b (NBin y7))) = opt b y7).
  { destruct b; [|reflexivity]. cbn [opt view key]. destruct K2 as [L _]. rewrite L. reflexivity. }
  assert (P3 : small 65535 (view (fun v => match v with NNum b => Some b | _ => None end) (opt y5 (NNum y13))) = opt y5 y13).
  { destruct y5; [|reflexivity]. cbn [opt view small]. destruct (Z.leb_spec y13 65535); [reflexivity|]. unfold word in W3. change (2 ^ 16) with 65536 in W3. lia. }
  assert (P4 : or (view (fun v => match v with NNum b => Some b | _ => None end) (opt b4 (NNum y11))) 0 = y11) by (destruct b4; [reflexivity|rewrite (K4 eq_refl); reflexivity]).
  assert (P5 : or (view (fun v => match v with NNum b => Some b | _ => None end) (opt b5 (NNum y12))) 0 = y12) by (destruct b5; [reflexivity|rewrite (K5 eq_refl); reflexivity]).
  rewrite P1, P2, P3, P4, P5.
  assert (Q1 : or (opt y3 y6) zero_key = y6) by (destruct y3; [reflexivity|rewrite K1; reflexivity]).
  assert (Q2 : or (opt b y7) zero_key = y7) by (destruct b; [reflexivity|rewrite K2; reflexivity]).
  assert (Q3 : or (opt y5 y13) 0 = y13) by (destruct y5; [reflexivity|rewrite (K3 eq_refl); reflexivity]).
  assert (Q4 : forall A c (x : A), some (opt c x) = c) by (intros A [|] x; reflexivity).
  rewrite Q1, Q2, Q3, !Q4.
  assert (Q5 : b && negb (key_is_zero y7) = y4).
  { rewrite Hk. unfold nonzero_key. destruct b.
    - destruct K2 as [L B]. cbn [andb]. f_equal. apply zero_key_iff. split; [unfold len in L; lia|exact B].
    - rewrite K2. vm_compute. reflexivity. }
  rewrite Q5.
  assert (Q6 : get_endpoint (pick (fun v => match v with NBin b => Some b | _ => None end) "endpoint" l) = y8).
  { destruct y8 as [|a q|a q fl sc]; [rewrite (pick_under _ _ _ _ _ W He); reflexivity| |]; destruct He as (sa & U & S); rewrite (pick_under _ _ _ _ _ W U); exact (proj1 (sa_reads _ _ S)). }
  rewrite Q6.
  assert (Q7 : handshake (pick (fun v => match v with NBin b => Some b | _ => None end) "last-handshake-time" l) = (y9, y10)).
  { destruct Hh as [(U & -> & ->)|(s & n & Ws & Wn & U & -> & ->)]; rewrite (pick_under _ _ _ _ _ W U); [reflexivity|]. cbn [view]. unfold handshake. rewrite len_app, !len_le. change (Z.of_nat 8 + Z.of_nat 8 =? 16) with true. cbv iota.
    replace (firstn 8 (le 8 s ++ le 8 n)) with (le 8 s) by (symmetry; exact (firstn_app_exact _ (le 8 s) (le 8 n))).
    replace (skipn 8 (le 8 s ++ le 8 n)) with (le 8 n) by (symmetry; exact (skipn_app_exact _ (le 8 s) (le 8 n))).
    rewrite !le_val_le_id by assumption. reflexivity. }
  rewrite Q7. cbn [fst snd]. reflexivity.
Qed.

Lemma get_peers_spec : forall ls ps, Forall2 tells_peer ls ps -> forall mem,
  get_peers ls mem = Some (if (allocs ps <=? mem)%nat then FGot ps (mem - allocs ps) else FErr (- ENOMEM)).
Proof.
  induction 1 as [|l p ls ps Hp Hs IH]; intro mem; cbn [get_peers]; [cbn; rewrite Nat.sub_0_r; reflexivity|].
  change (allocs (p :: ps)) with (S (length (p_aips p) + allocs ps)). destruct mem as [|mem]; [reflexivity|]. cbn [Nat.leb Nat.sub].
  assert (A : Forall2 nv_aip (or (get_array "allowed-ips" l) []) (p_aips p)) by (apply array_get; [exact (proj1 Hp)|apply Hp]).
  rewrite (get_aips_spec _ _ A). destruct (Nat.leb_spec (length (p_aips p)) mem) as [H|H].
  - rewrite IH, (get_peer_spec l p Hp). destruct (Nat.leb_spec (allocs ps) (mem - length (p_aips p))), (Nat.leb_spec (length (p_aips p) + allocs ps) mem); try lia; [|reflexivity].
    do 2 f_equal. lia.
  - destruct (Nat.leb_spec (length (p_aips p) + allocs ps) mem); [lia|reflexivity].
Qed.
Lemma get_list_spec : forall name l d mem, tells l d -> get_list name l mem = Some (if (allocs (d_peers d) <=? mem)%nat then (0, Some (set_name name d)) else (- ENOMEM, None)).
Proof.
  intros name l [y1 y2 y3 y4 y5 y6 y7 y8 y9 y10 y11 y12] mem H. unfold tells in H.
  cbn [d_name d_ifindex d_replace_peers d_has_priv d_has_pub d_has_port d_has_fwmark d_pub d_priv d_fwmark d_port d_peers] in *.
  destruct H as (W & -> & -> & (U1 & K1) & (U2 & K2) & (U3 & K3) & W3 & (U4 & K4) & W4 & A).
  unfold get_list, get_number, get_binary. rewrite (pick_under _ _ _ _ _ W U1), (pick_under _ _ _ _ _ W U2), (pick_under _ _ _ _ _ W U3), (pick_under _ _ _ _ _ W U4).
  assert (P1 : key (view (fun v => match v with NBin b => Some b | _ => None end) (opt y5 (NBin y8))) = opt y5 y8).
  { destruct y5; [|reflexivity]. cbn [opt view key]. destruct K1 as [L _]. rewrite L. reflexivity. }
  assert (P2 : key (view (fun v => match v with NBin b => Some b | _ => None end) (opt y4 (NBin y9))) = opt y4 y9).
  { destruct y4; [|reflexivity]. cbn [opt view key]. destruct K2 as [L _]. rewrite L. reflexivity. }
  assert (P3 : small 65535 (view (fun v => match v with NNum b => Some b | _ => None end) (opt y6 (NNum y11))) = opt y6 y11).
  { destruct y6; [|reflexivity]. cbn [opt view small]. destruct (Z.leb_spec y11 65535); [reflexivity|]. unfold word in W3. change (2 ^ 16) with 65536 in W3. lia. }
  assert (P4 : small (2 ^ 32 - 1) (view (fun v => match v with NNum b => Some b | _ => None end) (opt y7 (NNum y10))) = opt y7 y10).
  { destruct y7; [|reflexivity]. cbn [opt view small]. destruct (Z.leb_spec y10 (2 ^ 32 - 1)); [reflexivity|]. unfold word in W4. lia. }
  rewrite P1, P2, P3, P4.
  assert (Q1 : or (opt y5 y8) zero_key = y8) by (destruct y5; [reflexivity|rewrite K1; reflexivity]).
  assert (Q2 : or (opt y4 y9) zero_key = y9) by (destruct y4; [reflexivity|rewrite K2; reflexivity]).
  assert (Q3 : or (opt y6 y11) 0 = y11) by (destruct y6; [reflexivity|rewrite (K3 eq_refl); reflexivity]).
  assert (Q3' : or (opt y7 y10) 0 = y10) by (destruct y7; [reflexivity|rewrite (K4 eq_refl); reflexivity]).
  assert (Q4 : forall A c (x : A), some (opt c x) = c) by (intros B [|] x; reflexivity).
  rewrite Q1, Q2, Q3, Q3', !Q4, (get_peers_spec _ _ (array_get _ _ _ _ _ W A)). destruct (allocs y12 <=? mem)%nat; reflexivity.
Qed.

(** If the interface can be read both times and has not outgrown the first answer, what is returned is exactly the interface described by the second; an error and no device
    if memory runs out (three blocks, one for each peer and one for each allowed IP), if the list has grown meanwhile (ENOSPC), or if the kernel or the socket fails. *)
Theorem C60_get : forall s iface pack unpack now junk mem, packs pack unpack now ->
  let r := kernel_get_device (inl s) iface (fun _ => SIOCGWG pack now) junk unpack mem in
  (forall l0 l d, now 0%nat = inr l0 -> now 1%nat = inr l -> tells l d -> len (pack l) <= len (pack l0) ->
     r = Some (if (3 + allocs (d_peers d) <=? mem)%nat then (0, Some (set_name (firstn 15 iface) d)) else (- ENOMEM, None)))
  /\ (forall l0 l, now 0%nat = inr l0 -> now 1%nat = inr l -> len (pack l0) < len (pack l) -> r = Some (if (mem =? 0)%nat then - ENOMEM else - 28, None))
  /\ (forall e, now 0%nat = inl e -> r = Some (- e, None))
  /\ (forall l0 e, now 0%nat = inr l0 -> now 1%nat = inl e -> r = Some (if (mem =? 0)%nat then - ENOMEM else - e, None))
  /\ (forall e, kernel_get_device (inr e) iface (fun _ => SIOCGWG pack now) junk unpack mem = Some (- e, None)).
Proof.
  intros s iface pack unpack now junk mem Hp r. unfold r, kernel_get_device, SIOCGWG. clear r.
  split; [|split; [|split; [|split]]]; [| | | |reflexivity].
  - intros l0 l d N0 N1 Hd Hl. destruct (Hp _ _ N0) as [P0 _]. destruct (Hp _ _ N1) as [_ PU]. rewrite N0, N1. change (0 =? 0) with true. cbv iota. change (0 <? len []) with false. cbv iota. destruct mem as [|mem]; [reflexivity|].
    destruct (Z.eqb_spec (len (pack l0)) 0); [lia|]. assert (X : (len (pack l0) <? len (pack l)) = false) by (apply Z.ltb_ge; lia). rewrite !X.
    destruct mem as [|mem]; [reflexivity|]. destruct mem as [|mem]; [reflexivity|].
    pose proof (peek_at [] (pack l) (firstn (Z.to_nat (len (pack l0) - len (pack l))) junk) 0 (len (pack l)) eq_refl eq_refl) as PK. cbn [app] in PK. rewrite PK, PU. rewrite (get_list_spec _ _ _ _ Hd). reflexivity.
  - intros l0 l N0 N1 Hl. destruct (Hp _ _ N0) as [P0 _]. rewrite N0, N1. change (0 =? 0) with true. cbv iota. change (0 <? len []) with false. cbv iota. destruct mem as [|mem]; [reflexivity|].
    destruct (Z.eqb_spec (len (pack l0)) 0); [lia|]. destruct (Z.ltb_spec (len (pack l0)) (len (pack l))); [reflexivity|lia].
  - intros e ->. reflexivity.
  - intros l0 e -> ->. change (0 =? 0) with true. cbv iota. change (0 <? len []) with false. cbv iota. destruct mem as [|mem]; reflexivity.
Qed.

(** ** Whatever list the kernel gives *)
Lemma pick_in : forall A (f : nval -> option A) n l x, pick f n l = Some x -> exists v, In (n, v) l /\ f v = Some x.
Proof.
  intros A f n l x. induction l as [|[m v] l IH]; intro H; [discriminate|]. cbn [pick] in H. destruct (String.eqb_spec m n) as [->|].
  - destruct (f v) as [y|] eqn:E; [exists v; split; [left; reflexivity|congruence]|]. destruct (IH H) as (w & Hw & Ew). exists w. split; [right; exact Hw|exact Ew].
  - destruct (IH H) as (w & Hw & Ew). exists w. split; [right; exact Hw|exact Ew].
Qed.
Lemma number_plain : forall l n x, throughout plain l -> get_number n l = Some x -> word 64 x.
Proof. intros l n x H E. inversion H as [? H1 H2]; subst. destruct (pick_in _ _ _ _ _ E) as (v & Hv & Ev). destruct v; try discriminate. specialize (H1 _ _ Hv). cbn in H1, Ev. congruence. Qed.
Lemma binary_plain : forall l n b, throughout plain l -> get_binary n l = Some b -> Forall is_byte b /\ (n = "ipv4"%string -> 4 <= len b) /\ (n = "ipv6"%string -> 16 <= len b).
Proof. intros l n x H E. inversion H as [? H1 H2]; subst. destruct (pick_in _ _ _ _ _ E) as (v & Hv & Ev). destruct v; try discriminate. specialize (H1 _ _ Hv). cbn in H1, Ev. congruence. Qed.
Lemma array_plain : forall l n, throughout plain l -> Forall (throughout plain) (or (get_array n l) []).
Proof.
  intros l n H. destruct (get_array n l) as [ls|] eqn:E; [|apply Forall_nil]. inversion H as [? H1 H2]; subst. destruct (pick_in _ _ _ _ _ E) as (v & Hv & Ev). destruct v as [| | |ls']; try discriminate.
  injection Ev as ->. apply Forall_forall. intros x Hx. exact (H2 _ _ _ Hv Hx).
Qed.
Lemma peek_firstn : forall b n, Forall is_byte b -> 0 <= n <= len b -> exists x, peek b 0 n = Some x /\ len x = n /\ Forall is_byte x.
Proof.
  intros b n B H. exists (firstn (Z.to_nat n) b). unfold peek. destruct (Z.leb_spec 0 n); [|lia]. destruct (Z.leb_spec (0 + n) (len b)); [|lia]. split; [reflexivity|].
  split; [unfold len in *; rewrite firstn_length; lia|]. apply Forall_firstn', B.
Qed.

Lemma get_aips_any : forall ls, Forall (throughout plain) ls -> forall mem,
  exists r, get_aips ls mem = Some r /\ match r with FGot aips _ => Forall wf_aip aips | FErr e => e = - ENOMEM \/ e = 22 end.
Proof.
  induction 1 as [|l ls Hl Hs IH]; intro mem; cbn [get_aips]; [eexists; split; [reflexivity|apply Forall_nil]|].
  destruct (get_number "cidr" l) as [c|] eqn:Ec; [|apply IH]. pose proof (number_plain _ _ _ Hl Ec) as Wc. unfold word in Wc.
  destruct (get_binary "ipv4" l) as [b|] eqn:E4; cbn [some negb andb].
  - destruct mem as [|mem]; [eexists; split; [reflexivity|left; reflexivity]|]. destruct (Z.ltb_spec 32 c); [eexists; split; [reflexivity|right; reflexivity]|].
    destruct (binary_plain _ _ _ Hl E4) as (B & L & _). specialize (L eq_refl). destruct (peek_firstn b 4 B) as (ip & -> & Li & Bi); [lia|].
    destruct (IH mem) as ([aips m|e] & -> & Hr); eexists; (split; [reflexivity|]); [|exact Hr]. apply Forall_cons; [|exact Hr]. left. unfold len in Li. cbn [a_family a_ip a_cidr]. repeat split; try assumption; lia.
  - destruct (get_binary "ipv6" l) as [b|] eqn:E6; cbn [some negb]; [|apply IH].
    destruct mem as [|mem]; [eexists; split; [reflexivity|left; reflexivity]|]. destruct (Z.ltb_spec 128 c); [eexists; split; [reflexivity|right; reflexivity]|].
    destruct (binary_plain _ _ _ Hl E6) as (B & _ & L). specialize (L eq_refl). destruct (peek_firstn b 16 B) as (ip & -> & Li & Bi); [lia|].
    destruct (IH mem) as ([aips m|e] & -> & Hr); eexists; (split; [reflexivity|]); [|exact Hr]. apply Forall_cons; [|exact Hr]. right. unfold len in Li. cbn [a_family a_ip a_cidr]. repeat split; try assumption; lia.
Qed.
Lemma key_wf : forall o, (forall b, o = Some b -> Forall is_byte b) -> wf_key (or (key o) zero_key).
Proof.
  intros [b|] H; [|split; [reflexivity|apply Forall_forall; intros x Hx; apply repeat_spec in Hx; subst; unfold is_byte; lia]]. cbn [key]. destruct (Z.eqb_spec (len b) 32) as [E|E]; cbn [or].
  - split; [unfold len in E; lia|exact (H b eq_refl)].
  - split; [reflexivity|apply Forall_forall; intros x Hx; apply repeat_spec in Hx; subst; unfold is_byte; lia].
Qed.
Lemma small_wf : forall max o, 0 <= max -> (forall x, o = Some x -> word 64 x) -> 0 <= or (small max o) 0 < max + 1.
Proof. intros max [x|] Hm H; cbn [small or]; [|lia]. specialize (H x eq_refl). unfold word in H. destruct (Z.leb_spec x max); cbn [or]; lia. Qed.
Lemma byte_list4 : forall b, Forall is_byte b -> length b = 4%nat -> 0 <= le_val b < 2 ^ 32.
Proof. intros b B L. pose proof (le_val_range b B) as R. rewrite L in R. exact R. Qed.
Lemma endpoint_wf : forall o, (forall b, o = Some b -> Forall is_byte b) -> wf_endpoint (get_endpoint o).
Proof.
  intros [b|] H; [|exact I]. specialize (H b eq_refl). unfold get_endpoint. destruct ((len b <=? 28) && (16 <=? len b) && _) eqn:E; [|exact I].
  apply andb_prop in E. destruct E as [E _]. apply andb_prop in E. destruct E as [E1 E2]. apply Z.leb_le in E1, E2.
  assert (L : length (sa_copy b) = 28%nat) by (unfold sa_copy; rewrite app_length, repeat_length; unfold len in *; lia).
  assert (B : Forall is_byte (sa_copy b)) by (unfold sa_copy; apply Forall_app; split; [exact H|apply Forall_forall; intros x Hx; apply repeat_spec in Hx; subst; unfold is_byte; lia]).
  revert L B. generalize (sa_copy b). intros sa L B. unfold fbsd_endpoint. destruct sa as [|s0 [|f [|p0 [|p1 rest]]]]; try exact I.
  cbn [length] in L. inversion B as [|? ? B0 B']; subst. inversion B' as [|? ? B1 B'']; subst. inversion B'' as [|? ? B2 B3]; subst. inversion B3 as [|? ? B4 B5]; subst. unfold is_byte in B2, B4.
  destruct (f =? AF_INET); [|destruct (f =? FBSD_INET6); [|exact I]]; cbn [wf_endpoint].
  - split; [rewrite firstn_length; lia|]. split; [apply Forall_firstn', B5|lia].
  - split; [rewrite firstn_length, skipn_length; lia|]. split; [apply Forall_firstn', Forall_skipn', B5|]. split; [lia|]. split; apply byte_list4.
    + apply Forall_firstn', B5.
    + rewrite firstn_length; lia.
    + apply Forall_firstn', Forall_skipn', B5.
    + rewrite firstn_length, skipn_length; lia.
Qed.
Lemma s64_range : forall b, Forall is_byte b -> length b = 8%nat -> - 2 ^ 63 <= s64 (le_val b) < 2 ^ 63.
Proof. intros b B L. pose proof (le_val_range b B) as R. rewrite L in R. change (256 ^ Z.of_nat 8) with (2 ^ 64) in R. change (2 ^ 64) with 18446744073709551616 in *. unfold s64. change (2 ^ 64) with 18446744073709551616. change (2 ^ 63) with 9223372036854775808. destruct (Z.ltb_spec (le_val b) 9223372036854775808); lia. Qed.
Lemma handshake_wf : forall o, (forall b, o = Some b -> Forall is_byte b) -> - 2 ^ 63 <= fst (handshake o) < 2 ^ 63 /\ - 2 ^ 63 <= snd (handshake o) < 2 ^ 63.
Proof.
  intros [b|] H; [|cbn; lia]. specialize (H b eq_refl). unfold handshake. destruct (Z.eqb_spec (len b) 16) as [E|]; [|cbn; lia]. unfold len in E. cbn [fst snd]. split; apply s64_range.
  - apply Forall_firstn', H.
  - rewrite firstn_length; lia.
  - apply Forall_skipn', H.
  - rewrite skipn_length; lia.
Qed.
Lemma get_peer_wf : forall l aips, throughout plain l -> Forall wf_aip aips -> wf_peer (get_peer l aips).
Proof.
  intros l aips H Ha. unfold get_peer, wf_peer. cbn [p_pub p_psk p_endpoint p_ka p_aips p_rx p_tx p_hs_sec p_hs_nsec].
  assert (B : forall n b, get_binary n l = Some b -> Forall is_byte b) by (intros n b E; exact (proj1 (binary_plain _ _ _ H E))).
  assert (N : forall n b, get_number n l = Some b -> word 64 b) by (intros n b E; exact (number_plain _ _ _ H E)).
  assert (C : forall n, 0 <= or (get_number n l) 0 < 2 ^ 64) by (intro n; destruct (get_number n l) eqn:E; cbn [or]; [exact (N _ _ E)|lia]).
  split; [apply key_wf, B|]. split; [apply key_wf, B|]. split; [apply endpoint_wf, B|]. split; [apply (small_wf 65535); [lia|apply N]|]. split; [exact Ha|]. split; [apply C|]. split; [apply C|].
  apply handshake_wf, B.
Qed.
Lemma get_peers_any : forall ls, Forall (throughout plain) ls -> forall mem,
  exists r, get_peers ls mem = Some r /\ match r with FGot ps _ => Forall wf_peer ps /\ length ps = length ls | FErr e => e = - ENOMEM \/ e = 22 end.
Proof.
  induction 1 as [|l ls Hl Hs IH]; intro mem; cbn [get_peers]; [eexists; split; [reflexivity|split; [apply Forall_nil|reflexivity]]|].
  destruct mem as [|mem]; [eexists; split; [reflexivity|left; reflexivity]|].
  destruct (get_aips_any _ (array_plain l "allowed-ips" Hl) mem) as ([aips m|e] & -> & Hr); [|eexists; split; [reflexivity|exact Hr]].
  destruct (IH m) as ([ps m'|e] & -> & Hq); eexists; (split; [reflexivity|]); [|exact Hq]. split; [apply Forall_cons; [apply get_peer_wf; assumption|apply Hq]|cbn [length]; f_equal; apply Hq].
Qed.

(** However strange the list the kernel gives (with whole addresses): no read outside of it; either a device all of whose fields are within the bounds of their types -- keys of 32
    bytes, prefix lengths up to 32 or 128 --, with as many peers as are in the list, or a number other than 0 and no device. *)
Theorem C60_get_any : forall s iface pack unpack now junk mem l0 l, packs pack unpack now -> now 0%nat = inr l0 -> now 1%nat = inr l -> throughout plain l ->
  exists r o, kernel_get_device (inl s) iface (fun _ => SIOCGWG pack now) junk unpack mem = Some (r, o)
    /\ match o with
       | Some d => r = 0 /\ wf_device d /\ d_name d = firstn 15 iface /\ (forall ls, well_named l -> under l "peers" (Some (NArr ls)) -> length (d_peers d) = length ls)
       | None => r = - ENOMEM \/ r = - 28 \/ r = 22
       end.
Proof.
  intros s iface pack unpack now junk mem l0 l Hp E0 E1 H. unfold kernel_get_device, SIOCGWG. rewrite E0, E1. change (0 =? 0) with true. cbv iota. change (0 <? len []) with false. cbv iota.
  destruct (Hp _ _ E0) as [P0 _]. destruct (Hp _ _ E1) as [_ PU].
  destruct mem as [|mem]; [eexists _, _; split; [reflexivity|left; reflexivity]|]. destruct (Z.eqb_spec (len (pack l0)) 0); [lia|].
  destruct (len (pack l0) <? len (pack l)) eqn:X; [eexists _, _; split; [reflexivity|right; left; reflexivity]|]. rewrite X.
  destruct mem as [|mem]; [eexists _, _; split; [reflexivity|left; reflexivity]|]. destruct mem as [|mem]; [eexists _, _; split; [reflexivity|left; reflexivity]|].
  pose proof (peek_at [] (pack l) (firstn (Z.to_nat (len (pack l0) - len (pack l))) junk) 0 (len (pack l)) eq_refl eq_refl) as PK. cbn [app] in PK. rewrite PK, PU. clear PK PU.
  unfold get_list. destruct (get_peers_any _ (array_plain l "peers" H) mem) as ([ps m|e] & -> & Hr); eexists _, _; (split; [reflexivity|]).
  2: { destruct Hr as [-> | ->]; tauto. }
  destruct Hr as [Hw Hl]. split; [reflexivity|]. cbn [d_name d_peers]. split; [|split; [reflexivity|]].
  - unfold wf_device. cbn [d_pub d_priv d_fwmark d_port d_peers].
    split; [apply key_wf; intros b E; exact (proj1 (binary_plain _ _ _ H E))|]. split; [apply key_wf; intros b E; exact (proj1 (binary_plain _ _ _ H E))|].
    split; [pose proof (small_wf (2 ^ 32 - 1) (get_number "user-cookie" l) ltac:(lia) (fun x E => number_plain _ _ _ H E)); lia|].
    split; [pose proof (small_wf 65535 (get_number "listen-port" l) ltac:(lia) (fun x E => number_plain _ _ _ H E)); lia|exact Hw].
  - intros ls Wn U. rewrite Hl. unfold get_array. rewrite (pick_under _ _ _ _ _ Wn U). reflexivity.
Qed.

(** A positive number is returned for a prefix length that is too large; show then goes on without a device (C32_positive_result_refuted). *)
Definition odd_list (c : Z) (ip : list Z) : nvl :=
  [("peers"%string, NArr [[("public-key"%string, NBin (repeat 7 32)); ("allowed-ips"%string, NArr [[("cidr"%string, NNum c); ("ipv4"%string, NBin ip)]])]])].
Theorem C60_errors_are_negative_refuted : forall s iface pack unpack junk c, packs pack unpack (fun _ => inr (odd_list c [10; 0; 0; 0])) -> 32 < c ->
  kernel_get_device (inl s) iface (fun _ => SIOCGWG pack (fun _ => inr (odd_list c [10; 0; 0; 0]))) junk unpack 6 = Some (22, None).
Proof.
  intros s iface pack unpack junk c Hp Hc. unfold kernel_get_device, SIOCGWG. change (0 =? 0) with true. cbv iota. change (0 <? len []) with false. cbv iota. destruct (Hp 0%nat _ eq_refl) as [P0 PU].
  destruct (Z.eqb_spec (len (pack (odd_list c [10; 0; 0; 0]))) 0); [lia|]. rewrite Z.ltb_irrefl. rewrite Z.ltb_irrefl, Z.sub_diag. change (firstn (Z.to_nat 0) junk) with (@nil Z). rewrite app_nil_r, (peek_all _ _ eq_refl), PU.
  unfold get_list, odd_list. cbn [get_array pick String.eqb Ascii.eqb Bool.eqb or get_peers get_aips get_number get_binary some negb andb]. destruct (Z.ltb_spec 32 c); [reflexivity|lia].
Qed.
(** An address shorter than an address is read past its end. *)
Theorem C60_short_address_refuted : forall s iface pack unpack junk, packs pack unpack (fun _ => inr (odd_list 24 [10])) ->
  kernel_get_device (inl s) iface (fun _ => SIOCGWG pack (fun _ => inr (odd_list 24 [10]))) junk unpack 6 = None.
Proof.
  intros s iface pack unpack junk Hp. unfold kernel_get_device, SIOCGWG. change (0 =? 0) with true. cbv iota. change (0 <? len []) with false. cbv iota. destruct (Hp 0%nat _ eq_refl) as [P0 PU].
  destruct (Z.eqb_spec (len (pack (odd_list 24 [10]))) 0); [lia|]. rewrite Z.ltb_irrefl. rewrite Z.ltb_irrefl, Z.sub_diag. change (firstn (Z.to_nat 0) junk) with (@nil Z). rewrite app_nil_r, (peek_all _ _ eq_refl), PU. reflexivity.
Qed.

(** * Concrete cases: the device of PropNetlink.v, with a kernel that carries out its update; the interface of PropObsd.v with two peers, read while it loses the second. *)
Example C60_ex_set : wf_device ex_dev /\ len (d_name ex_dev) <= 15.
Proof. split; [exact (proj1 ex_dev_ok)|cbn; lia]. Qed.
Definition peer_nv (p : peer) (sa : list Z) : nvl :=
  [("public-key"%string, NBin (p_pub p)); ("preshared-key"%string, NBin (p_psk p)); ("persistent-keepalive-interval"%string, NNum (p_ka p)); ("endpoint"%string, NBin sa);
   ("rx-bytes"%string, NNum (p_rx p)); ("tx-bytes"%string, NNum (p_tx p)); ("last-handshake-time"%string, NBin (le 8 (p_hs_sec p) ++ le 8 (p_hs_nsec p))); ("flags"%string, NNum 3);
   ("allowed-ips"%string, NArr (map aip_items (p_aips p)))].
Definition xl (ls : list nvl) : nvl := [("listen-port"%string, NNum 51820); ("public-key"%string, NBin (repeat 4 32)); ("private-key"%string, NBin (repeat 5 32)); ("peers"%string, NArr ls)].
Definition sa1 : list Z := [16; 2; 202; 108; 192; 0; 2; 1] ++ repeat 0 8.
Definition sa2 : list Z := [28; 28; 202; 108; 0; 0; 0; 0] ++ repeat 32 16 ++ [0; 0; 0; 0].
Definition set_has_ka (p : peer) : peer := set_ka (p_ka p) p.
Lemma wf_aip_bytes : forall f ip c, (f = AF_INET /\ bytesb 4 ip = true /\ 0 <= c <= 32) \/ (f = AF_INET6 /\ bytesb 16 ip = true /\ 0 <= c <= 128) -> wf_aip (mk_aip f ip c).
Proof. intros f ip c [(-> & B & H)|(-> & B & H)]; apply bytesb_ok in B; destruct B as [L B]; unfold len in L; [left|right]; cbn [a_family a_ip a_cidr]; repeat split; try assumption; lia. Qed.
Ltac in_list := cbn [In peer_nv xl]; first [left; reflexivity | right; in_list].
Example xp1_tells : tells_peer (peer_nv xp1 sa1) xp1.
Proof.
  split; [repeat (apply NoDup_cons; [cbn; intuition discriminate|]); apply NoDup_nil|]. split; [reflexivity|]. split; [reflexivity|].
  split; [split; [in_list|apply bytesb_ok; vm_compute; reflexivity]|]. split; [exists true; split; [in_list|apply bytesb_ok; vm_compute; reflexivity]|]. split; [vm_compute; reflexivity|].
  split; [split; [in_list|intro X; discriminate X]|]. split; [apply wordb_ok; vm_compute; reflexivity|]. split; [exists sa1; split; [in_list|vm_compute; reflexivity]|].
  split; [exists true; split; [in_list|intro X; discriminate X]|]. split; [exists true; split; [in_list|intro X; discriminate X]|].
  split; [right; exists 1700000000, 5; split; [apply wordb_ok; vm_compute; reflexivity|]; split; [apply wordb_ok; vm_compute; reflexivity|]; split; [in_list|split; vm_compute; reflexivity]|].
  exists (map aip_items (p_aips xp1)). split; [in_list|]. cbn [map p_aips xp1]. apply Forall2_cons; [|apply Forall2_nil]. apply aip_asks, wf_aip_bytes. left. repeat split; try lia; reflexivity.
Qed.
Example xp2_tells : tells_peer (peer_nv (set_has_ka xp2) sa2) (set_has_ka xp2).
Proof.
  split; [repeat (apply NoDup_cons; [cbn; intuition discriminate|]); apply NoDup_nil|]. split; [reflexivity|]. split; [reflexivity|].
  split; [split; [in_list|apply bytesb_ok; vm_compute; reflexivity]|]. split; [exists true; split; [in_list|apply bytesb_ok; vm_compute; reflexivity]|]. split; [vm_compute; reflexivity|].
  split; [split; [in_list|intro X; discriminate X]|]. split; [apply wordb_ok; vm_compute; reflexivity|]. split; [exists sa2; split; [in_list|vm_compute; reflexivity]|].
  split; [exists true; split; [in_list|intro X; discriminate X]|]. split; [exists true; split; [in_list|intro X; discriminate X]|].
  split; [right; exists 0, 0; split; [apply wordb_ok; vm_compute; reflexivity|]; split; [apply wordb_ok; vm_compute; reflexivity|]; split; [in_list|split; vm_compute; reflexivity]|].
  exists (map aip_items (p_aips xp2)). split; [in_list|]. cbn [map p_aips xp2 set_has_ka set_ka]. apply Forall2_cons; [|apply Forall2_cons; [|apply Forall2_nil]]; apply aip_asks, wf_aip_bytes; [right|left]; repeat split; try lia; reflexivity.
Qed.
Example xd_tells : tells (xl [peer_nv xp1 sa1]) (xd [xp1]) /\ tells (xl [peer_nv xp1 sa1; peer_nv (set_has_ka xp2) sa2]) (xd [xp1; set_has_ka xp2]).
Proof.
  split; (split; [repeat (apply NoDup_cons; [cbn; intuition discriminate|]); apply NoDup_nil|]); (split; [reflexivity|]); (split; [reflexivity|]);
  (split; [split; [in_list|apply bytesb_ok; vm_compute; reflexivity]|]); (split; [split; [in_list|apply bytesb_ok; vm_compute; reflexivity]|]);
  (split; [split; [in_list|intro X; discriminate X]|]); (split; [apply wordb_ok; vm_compute; reflexivity|]);
  (split; [split; [cbn; intuition discriminate|reflexivity]|]); (split; [apply wordb_ok; vm_compute; reflexivity|]); eexists; (split; [in_list|]).
  - apply Forall2_cons; [exact xp1_tells|apply Forall2_nil].
  - apply Forall2_cons; [exact xp1_tells|]. apply Forall2_cons; [exact xp2_tells|apply Forall2_nil].
Qed.
(** A packing with room for these two lists only. *)
Definition xpack (l : nvl) : list Z := match l with [_; _; _; (_, NArr [_])] => [1; 2; 3] | _ => [1; 2; 3; 4; 5] end.
Definition xunpack (b : list Z) : Z + nvl := inr (match b with [_; _; _] => xl [peer_nv xp1 sa1] | _ => xl [peer_nv xp1 sa1; peer_nv (set_has_ka xp2) sa2] end).
Definition shrinks (i : nat) : Z + nvl := inr (match i with O => xl [peer_nv xp1 sa1; peer_nv (set_has_ka xp2) sa2] | _ => xl [peer_nv xp1 sa1] end).
Example C60_ex_packs : packs xpack xunpack shrinks.
Proof. intros [|i] l E; injection E as <-; (split; [cbn; lia|reflexivity]). Qed.
Example C60_ex_get : kernel_get_device (inl 3) [119; 103; 48] (fun _ => SIOCGWG xpack shrinks) [9; 9; 9; 9] xunpack 5 = Some (0, Some (set_name [119; 103; 48] (xd [xp1]))).
Proof. destruct (C60_get 3 [119; 103; 48] xpack xunpack shrinks [9; 9; 9; 9] 5 C60_ex_packs) as [H _]. rewrite (H _ _ _ eq_refl eq_refl (proj1 xd_tells)) by (cbn; lia). reflexivity. Qed.
Example C60_ex_kernel : forall pubkey, exists ioctl, obeys (apply_request pubkey) ioctl /\ forall k, ioctl k (d_name ex_dev) (device_items ex_dev) = inr (apply_request pubkey k (request_of ex_dev)).
Proof.
  intro pubkey. 
  assert (D : forall a b : nvl, {a = b} + {a <> b}).
  { assert (V : forall a b : nval, {a = b} + {a <> b}).
    { fix V 1. intros a b. decide equality; [apply Z.eq_dec|apply Bool.bool_dec|apply list_eq_dec, Z.eq_dec|apply list_eq_dec; intros x y; apply list_eq_dec; intros [n v] [n' v']; destruct (string_dec n n'); [|right; congruence]; destruct (V v v'); [left|right]; congruence]. }
    intros a b. apply list_eq_dec. intros [n v] [n' v']. destruct (string_dec n n'); [|right; congruence]. destruct (V v v'); [left|right]; congruence. }
  exists (fun k n l => if list_eq_dec Z.eq_dec n (d_name ex_dev) then if D l (device_items ex_dev) then inr (apply_request pubkey k (request_of ex_dev)) else inl 22 else inl 22). split.
  - intros k name l q H. destruct (list_eq_dec Z.eq_dec name (d_name ex_dev)) as [->|]; [|left; exists 22; split; [lia|reflexivity]]. destruct (D l (device_items ex_dev)) as [->|]; [|left; exists 22; split; [lia|reflexivity]].
    right. rewrite (C60_one_meaning _ _ _ _ H (device_asks ex_dev (proj1 ex_dev_ok))). reflexivity.
  - intro k. destruct (list_eq_dec Z.eq_dec (d_name ex_dev) (d_name ex_dev)) as [_|C]; [|congruence]. destruct (D (device_items ex_dev) (device_items ex_dev)) as [_|C]; [reflexivity|congruence].
Qed.

Print Assumptions C60_one_meaning.
Print Assumptions C60_set.
Print Assumptions C60_set_applies.
Print Assumptions C60_set_errno_refuted.
Print Assumptions C60_get.
Print Assumptions C60_get_any.
Print Assumptions C60_errors_are_negative_refuted.
Print Assumptions C60_short_address_refuted.
