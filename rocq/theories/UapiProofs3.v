(** Proofs about src/ipc-uapi.h: reading a device. *)
From Coq Require Import String ZArith List Bool Lia.
From Verif Require Import Base Ctype Encoding EncodingSpec EncodingProofs HexProofs Cstr CstrProofs Inet InetProofs TextProofs Types
  NumSpec ConfigSpec Config ConfigProofs ConfigProofs2 ConfigProofs4 NlSpec UapiSpec Uapi UapiProofs UapiProofs2.
Import ListNotations.
Open Scope Z_scope.

Lemma unhex_bytes : forall n s k, (length s <= n)%nat -> unhex s = Some k -> Forall is_byte k /\ length s = (2 * length k)%nat.
Proof.
  assert (V : forall c d, hexval c = Some d -> 0 <= d < 16).
  { intros c d H. unfold hexval in H.
    repeat match type of H with (if ?b then _ else _) = _ => destruct b eqn:? end; try discriminate; injection H as <-;
    repeat match goal with X : _ && _ = true |- _ => apply andb_true_iff in X as [? ?] end; rewrite ?Z.leb_le in *; lia. }
  induction n as [|n IH]; intros s k L H; destruct s as [|a [|b s]]; try discriminate; try (cbn in L; lia).
  - injection H as <-. split; [constructor|reflexivity].
  - injection H as <-. split; [constructor|reflexivity].
  - cbn [unhex] in H. destruct (hexval a) eqn:Ea; [|discriminate]. destruct (hexval b) eqn:Eb; [|discriminate].
    destruct (unhex s) as [k'|] eqn:E; [|discriminate]. injection H as <-. cbn [length] in L. apply IH in E as [E1 E2]; [|lia].
    apply V in Ea. apply V in Eb. split; [constructor; [unfold is_byte; lia|exact E1]|cbn [length]; lia].
Qed.
Lemma key_from_hex_iff : forall v k, Forall is_byte v -> key_from_hex v = Some k <-> hex_key v k.
Proof.
  intros v k B. rewrite key_from_hex_spec by exact B. unfold hex_key, is_key. split.
  - destruct (Nat.eqb_spec (length v) 64) as [L|]; [|discriminate]. intro H. split; [|exact H].
    destruct (unhex_bytes (length v) v k (le_n _) H) as [H1 H2]. split; [lia|exact H1].
  - intros [[L Bk] H]. destruct (unhex_bytes (length v) v k (le_n _) H) as [_ H2].
    replace (length v) with 64%nat by lia. exact H.
Qed.

Section Get.
Variable sg : bool.
Variable ulmax : Z.
Variable pubkey : list Z -> list Z.
Variable resolve : list Z -> list Z -> resolved.
Hypothesis UL : 255 <= ulmax.

(** The numbers as this code sees them. *)
Definition narrow8 (n : Z) : Z := Z.min n ulmax mod 256.
Definition clip64 (n : Z) : Z := Z.min n (2 ^ 64 - 1).
Definition ep_of (h p : list Z) (e : endpoint) : Prop := resolve h p = RAddr e.
Notation pair := (get_pair ep_of narrow8 clip64).
Notation glines := (get_lines ep_of narrow8 clip64).

Lemma get_aip_iff : forall v a, Forall is_byte v -> get_aip sg ulmax v = Some a <->
  exists h m fam ip full n, v = h ++ 47 :: m /\ ~ In 47 h /\ ip_value h fam ip full /\ decimal m n /\ narrow8 n <= full /\ a = mk_aip fam ip (narrow8 n).
Proof.
  intros v a B. unfold get_aip. destruct (split_first 47 v) as [[h m]|] eqn:S.
  2:{ split; [discriminate|]. intros (h & m & fam & ip & full & n & -> & _). apply split_first_none in S. exfalso. apply S, in_elt. }
  apply split_first_some in S as [-> N]. assert (Bm : Forall is_byte m) by (apply Forall_app in B as [_ B]; inversion B; assumption).
  pose proof (num_decimal sg ulmax m Bm) as D.
  assert (U : forall h' m' , h ++ 47 :: m = h' ++ 47 :: m' -> ~ In 47 h' -> h' = h /\ m' = m).
  { intros h' m' E N'. assert (E1 := split_first_app 47 h m N). assert (E2 := split_first_app 47 h' m' N'). rewrite E, E2 in E1. injection E1 as -> ->. auto. }
  assert (G : (forall n, ~ decimal m n) -> None = Some a <-> exists h0 m0 fam ip full n, h ++ 47 :: m = h0 ++ 47 :: m0 /\ ~ In 47 h0 /\ ip_value h0 fam ip full /\ decimal m0 n /\ narrow8 n <= full /\ a = mk_aip fam ip (narrow8 n)).
  { intro ND. split; [discriminate|]. intros (h' & m' & fam & ip & full & n & E & N' & _ & Dn & _). destruct (U _ _ E N') as [-> ->]. exfalso. apply (ND n Dn). }
  destruct (char_is_digit (first_of sg m)) eqn:CD; cbn [negb] in *.
  2:{ apply G. intros n Dn. apply decimal_iff in Dn as [Nm Vn]. destruct m; [congruence|]. rewrite Vn in D. discriminate. }
  destruct (strtoul ulmax 10 m) as [x rest]. destruct rest as [|r rest].
  2:{ destruct (has_char 58 h); [destruct (inet_pton6 h)|destruct (inet_pton4 h)]; apply G; intros n Dn; apply decimal_iff in Dn as [Nm Vn]; (destruct m; [congruence|]); rewrite Vn in D; discriminate. }
  destruct m as [|c m]; [discriminate|]. destruct (num_value 10 0 (c :: m)) as [n|] eqn:V; [|discriminate].
  assert (Dn : decimal (c :: m) n) by (apply decimal_iff; split; [discriminate|exact V]).
  assert (Ex : u8 x = narrow8 n).
  { apply (f_equal (fun o => match o with Some y => y | None => 0 end)) in D. rewrite D. unfold u8, narrow8. change (2 ^ 8) with 256. f_equal. destruct (Z.ltb_spec ulmax n); lia. }
  rewrite Ex. split.
  - destruct (has_char 58 h) eqn:C.
    + destruct (inet_pton6 h) as [ip|] eqn:P; [|discriminate]. destruct (Z.ltb_spec 128 (narrow8 n)); [discriminate|]. intro E. injection E as <-.
      exists h, (c :: m), AF_INET6, ip, 128, n. repeat split; try assumption. apply ip_6; [apply has_char_In, C|exact P].
    + destruct (inet_pton4 h) as [ip|] eqn:P; [|discriminate]. destruct (Z.ltb_spec 32 (narrow8 n)); [discriminate|]. intro E. injection E as <-.
      exists h, (c :: m), AF_INET, ip, 32, n. repeat split; try assumption. apply ip_4; [|exact P]. intro I. apply has_char_In in I. congruence.
  - intros (h' & m' & fam & ip & full & n' & E & N' & I & D' & Le & ->). destruct (U _ _ E N') as [-> ->].
    assert (n' = n). { apply decimal_iff in D' as [_ D']. congruence. } subst n'.
    inversion I as [? ? NI P|? ? NI P]; subst.
    + replace (has_char 58 h) with false by (symmetry; apply not_true_is_false; rewrite has_char_In; exact NI). rewrite P.
      destruct (Z.ltb_spec 32 (narrow8 n)); [lia|reflexivity].
    + replace (has_char 58 h) with true by (symmetry; apply has_char_In; exact NI). rewrite P.
      destruct (Z.ltb_spec 128 (narrow8 n)); [lia|reflexivity].
Qed.

(** The effect of an item. *)
Definition put_peer (i : get_item) (p : peer) : peer :=
  match i with
  | GPsk x => if beq x zero_key then set_psk_only x p else set_psk x p
  | GEp e => set_endpoint e p
  | GKa n => set_ka n p
  | GAip a => set_aips (p_aips p ++ [a]) p
  | GSec n => set_stats n (p_hs_nsec p) (p_rx p) (p_tx p) p
  | GNsec n => set_stats (p_hs_sec p) n (p_rx p) (p_tx p) p
  | GRx n => set_stats (p_hs_sec p) (p_hs_nsec p) n (p_tx p) p
  | GTx n => set_stats (p_hs_sec p) (p_hs_nsec p) (p_rx p) n p
  | _ => p
  end.
Definition put_dev (i : get_item) (d : device) : device :=
  match i with
  | GPriv k => set_keys pubkey k d
  | GPort n => set_port n d
  | GMark n => set_fwmark n d
  | _ => d
  end.
Definition put (i : get_item) (s : gstate) : gstate :=
  match i with
  | GPeer k => mk_g (close s) (Some (set_pub k peer0)) (g_ret s)
  | GErrno n => mk_g (g_dev s) (g_peer s) (- n)
  | _ => match g_peer s with
         | None => mk_g (put_dev i (g_dev s)) None (g_ret s)
         | Some p => mk_g (g_dev s) (Some (put_peer i p)) (g_ret s)
         end
  end.
Definition inp (s : gstate) : bool := match g_peer s with Some _ => true | None => false end.
Lemma inp_put : forall i s, inp (put i s) = inp s || is_peer i.
Proof. intros i [d [p|] r]; destruct i; reflexivity. Qed.

Lemma zero_key_iff : forall k, is_key k -> key_is_zero k = beq k zero_key.
Proof.
  intros k H. destruct (beq k zero_key) eqn:E.
  - apply beq_eq in E. apply key_is_zero_correct; assumption.
  - apply beq_neq in E. apply not_true_is_false. rewrite key_is_zero_correct by exact H. exact E.
Qed.

Ltac keys := repeat match goal with |- context [beq (str ?a) (str ?b)] => let x := eval vm_compute in (beq (str a) (str b)) in change (beq (str a) (str b)) with x end; cbv iota.

(** A pair means an item iff the code goes on, with the effect of the item. *)
Lemma get_line_sound : forall s k v i, Forall is_byte v -> pair (inp s) k v i -> get_line sg ulmax pubkey resolve s k v = GNext (put i s).
Proof.
  intros s k v i B H. destruct s as [d [p|] r]; unfold inp in H; cbn [g_peer] in H; inversion H; subst; unfold get_line, get_dev_line, get_peer_line, put, with_peer, with_dev; cbn [g_peer g_dev g_ret].
  - (* public_key in peer *) keys. match goal with X : hex_key _ _ |- _ => apply (key_from_hex_iff _ _ B) in X; rewrite X end. reflexivity.
  - keys. match goal with X : hex_key _ _ |- _ => pose proof (proj1 X) as IK; apply (key_from_hex_iff _ _ B) in X; rewrite X end. cbn [option_map].
    rewrite zero_key_iff by exact IK. reflexivity.
  - keys. match goal with X : endpoint_split _ _ _ |- _ => apply split_endpoint_iff in X; rewrite X end.
    match goal with X : ep_of _ _ _ |- _ => unfold ep_of in X; rewrite X end. reflexivity.
  - keys. match goal with X : decimal v ?n |- _ => replace (NUM sg 65535 v) with (Some n) end; [reflexivity|]. symmetry. apply NUM_small; [exact B|lia|]. split; [assumption|lia].
  - keys. match goal with |- context [get_aip _ _ ?v] => replace (get_aip sg ulmax v) with (Some (mk_aip fam a (narrow8 n))) end; [reflexivity|].
    symmetry. apply get_aip_iff; [exact B|]. exists h, m, fam, a, full, n. repeat split; assumption.
  - keys. match goal with X : decimal v ?n |- _ => replace (NUM sg 0x7fffffffffffffff v) with (Some n) end; [reflexivity|]. symmetry. apply NUM_small; [exact B|lia|]. split; [assumption|lia].
  - keys. match goal with X : decimal v ?n |- _ => replace (NUM sg 0x7fffffffffffffff v) with (Some n) end; [reflexivity|]. symmetry. apply NUM_small; [exact B|lia|]. split; [assumption|lia].
  - keys. match goal with X : decimal v ?n |- _ => replace (NUM sg 0xffffffffffffffff v) with (Some (clip64 n)) end; [reflexivity|]. symmetry. apply NUM_iff; [exact B|]. eexists. split; [eassumption|]. split; [reflexivity|]. unfold clip64 in *. lia.
  - keys. match goal with X : decimal v ?n |- _ => replace (NUM sg 0xffffffffffffffff v) with (Some (clip64 n)) end; [reflexivity|]. symmetry. apply NUM_iff; [exact B|]. eexists. split; [eassumption|]. split; [reflexivity|]. unfold clip64 in *. lia.
  - keys. match goal with X : decimal v ?n |- _ => replace (NUM sg 0x7fffffff v) with (Some n) end; [reflexivity|]. symmetry. apply NUM_small; [exact B|lia|]. split; [assumption|lia].
  - (* other *)
    match goal with X : ~ In k _ |- _ => cbn [known map app In] in X; rename X into NI end.
    repeat match goal with |- context [beq k (str ?x)] => replace (beq k (str x)) with false by (symmetry; apply beq_neq; intro; apply NI; subst; tauto) end. reflexivity.
  - keys. match goal with X : hex_key _ _ |- _ => apply (key_from_hex_iff _ _ B) in X; rewrite X end. reflexivity.
  - keys. match goal with X : decimal v ?n |- _ => replace (NUM sg 65535 v) with (Some n) end; [reflexivity|]. symmetry. apply NUM_small; [exact B|lia|]. split; [assumption|lia].
  - keys. match goal with X : decimal v ?n |- _ => replace (NUM sg 0xffffffff v) with (Some n) end; [reflexivity|]. symmetry. apply NUM_small; [exact B|lia|]. split; [assumption|lia].
  - keys. match goal with X : hex_key _ _ |- _ => apply (key_from_hex_iff _ _ B) in X; rewrite X end. reflexivity.
  - keys. match goal with X : decimal v ?n |- _ => replace (NUM sg 0x7fffffff v) with (Some n) end; [reflexivity|]. symmetry. apply NUM_small; [exact B|lia|]. split; [assumption|lia].
  - match goal with X : ~ In k _ |- _ => cbn [known map app In] in X; rename X into NI end.
    repeat match goal with |- context [beq k (str ?x)] => replace (beq k (str x)) with false by (symmetry; apply beq_neq; intro; apply NI; subst; tauto) end. reflexivity.
Qed.

Lemma get_line_complete : forall s k v s', Forall is_byte v -> get_line sg ulmax pubkey resolve s k v = GNext s' -> exists i, pair (inp s) k v i /\ s' = put i s.
Proof.
  intros s k v s' B H.
  assert (K : forall i, pair (inp s) k v i -> exists i, pair (inp s) k v i /\ s' = put i s).
  { intros i P. exists i. split; [exact P|]. rewrite (get_line_sound s k v i B P) in H. injection H as <-. reflexivity. }
  destruct s as [d [p|] r]; unfold inp in *; cbn [g_peer] in *; unfold get_line, get_dev_line, get_peer_line, with_peer, with_dev in H; cbn [g_peer g_dev g_ret] in H.
  - destruct (beq k (str "public_key")) eqn:E1.
    { apply beq_eq in E1. subst k. destruct (key_from_hex v) as [x|] eqn:F; [|discriminate]. apply (K (GPeer x)). apply gp_peer, key_from_hex_iff; assumption. }
    destruct (beq k (str "preshared_key")) eqn:E2.
    { apply beq_eq in E2. subst k. destruct (key_from_hex v) as [x|] eqn:F; [|discriminate]. apply (K (GPsk x)). apply gp_psk, key_from_hex_iff; assumption. }
    destruct (beq k (str "endpoint")) eqn:E3.
    { apply beq_eq in E3. subst k. destruct (split_endpoint v) as [[h q]|] eqn:F; [|discriminate]. destruct (resolve h q) as [e| |] eqn:R; [|discriminate|discriminate].
      apply (K (GEp e)). apply (gp_ep _ _ _ v h q e); [apply split_endpoint_iff, F|exact R]. }
    destruct (beq k (str "persistent_keepalive_interval")) eqn:E4.
    { apply beq_eq in E4. subst k. destruct (NUM sg 65535 v) as [n|] eqn:F; [|discriminate]. apply NUM_small in F as [F1 F2]; [|exact B|lia]. apply (K (GKa n)). apply gp_ka; [exact F1|lia]. }
    destruct (beq k (str "allowed_ip")) eqn:E5.
    { apply beq_eq in E5. subst k. destruct (get_aip sg ulmax v) as [a|] eqn:F; [|discriminate].
      apply get_aip_iff in F as (h & m & fam & ip & full & n & -> & F1 & F2 & F3 & F4 & ->); [|exact B]. apply (K (GAip (mk_aip fam ip (narrow8 n)))). apply (gp_aip _ _ _ h m fam ip full n); assumption. }
    destruct (beq k (str "last_handshake_time_sec")) eqn:E6.
    { apply beq_eq in E6. subst k. destruct (NUM sg 9223372036854775807 v) as [n|] eqn:F; [|discriminate]. apply NUM_small in F as [F1 F2]; [|exact B|lia]. apply (K (GSec n)). apply gp_sec; [exact F1|lia]. }
    destruct (beq k (str "last_handshake_time_nsec")) eqn:E7.
    { apply beq_eq in E7. subst k. destruct (NUM sg 9223372036854775807 v) as [n|] eqn:F; [|discriminate]. apply NUM_small in F as [F1 F2]; [|exact B|lia]. apply (K (GNsec n)). apply gp_nsec; [exact F1|lia]. }
    destruct (beq k (str "rx_bytes")) eqn:E8.
    { apply beq_eq in E8. subst k. destruct (NUM sg 18446744073709551615 v) as [n|] eqn:F; [|discriminate]. apply NUM_iff in F as (m & F1 & -> & F2); [|exact B]. apply (K (GRx (clip64 m))). apply gp_rx; [exact F1|unfold clip64; lia]. }
    destruct (beq k (str "tx_bytes")) eqn:E9.
    { apply beq_eq in E9. subst k. destruct (NUM sg 18446744073709551615 v) as [n|] eqn:F; [|discriminate]. apply NUM_iff in F as (m & F1 & -> & F2); [|exact B]. apply (K (GTx (clip64 m))). apply gp_tx; [exact F1|unfold clip64; lia]. }
    destruct (beq k (str "errno")) eqn:E10.
    { apply beq_eq in E10. subst k. destruct (NUM sg 2147483647 v) as [n|] eqn:F; [|discriminate]. apply NUM_small in F as [F1 F2]; [|exact B|lia]. apply (K (GErrno n)). apply gp_errno; [exact F1|lia]. }
    apply (K GOther). apply gp_other. cbn [known map app In]. apply beq_neq in E1, E2, E3, E4, E5, E6, E7, E8, E9, E10. intuition congruence.
  - destruct (beq k (str "private_key")) eqn:E1.
    { apply beq_eq in E1. subst k. destruct (key_from_hex v) as [x|] eqn:F; [|discriminate]. apply (K (GPriv x)). apply gp_priv, key_from_hex_iff; assumption. }
    destruct (beq k (str "listen_port")) eqn:E2.
    { apply beq_eq in E2. subst k. destruct (NUM sg 65535 v) as [n|] eqn:F; [|discriminate]. apply NUM_small in F as [F1 F2]; [|exact B|lia]. apply (K (GPort n)). apply gp_port; [exact F1|lia]. }
    destruct (beq k (str "fwmark")) eqn:E3.
    { apply beq_eq in E3. subst k. destruct (NUM sg 4294967295 v) as [n|] eqn:F; [|discriminate]. apply NUM_small in F as [F1 F2]; [|exact B|lia]. apply (K (GMark n)). apply gp_mark; [exact F1|lia]. }
    destruct (beq k (str "public_key")) eqn:E4.
    { apply beq_eq in E4. subst k. destruct (key_from_hex v) as [x|] eqn:F; [|discriminate]. apply (K (GPeer x)). apply gp_peer, key_from_hex_iff; assumption. }
    destruct (beq k (str "errno")) eqn:E10.
    { apply beq_eq in E10. subst k. destruct (NUM sg 2147483647 v) as [n|] eqn:F; [|discriminate]. apply NUM_small in F as [F1 F2]; [|exact B|lia]. apply (K (GErrno n)). apply gp_errno; [exact F1|lia]. }
    apply (K GOther). apply gp_other. cbn [known map app In]. apply beq_neq in E1, E2, E3, E4, E10. intuition congruence.
Qed.

Lemma get_line_err : forall s k v r, get_line sg ulmax pubkey resolve s k v = GErr r -> r = ENETUNREACH /\ k = str "endpoint" /\ exists h p, endpoint_split v h p /\ resolve h p = RFail.
Proof.
  assert (W : forall (o : option peer) s r, with_peer s o <> GErr r) by (intros [p|] s r; discriminate).
  assert (W2 : forall (o : option device) s r, with_dev s o <> GErr r) by (intros [p|] s r; discriminate).
  intros s k v r H. destruct s as [d [p|] r0]; unfold get_line, get_dev_line, get_peer_line in H; cbn [g_peer g_dev g_ret] in H.
  - destruct (beq k (str "public_key")); [destruct (key_from_hex v); discriminate|].
    destruct (beq k (str "preshared_key")); [exfalso; exact (W _ _ _ H)|].
    destruct (beq k (str "endpoint")) eqn:E.
    + destruct (split_endpoint v) as [[h q]|] eqn:F; [|discriminate].
      destruct (resolve h q) eqn:R; try discriminate. injection H as <-. split; [reflexivity|]. split; [apply beq_eq; assumption|].
      exists h, q. split; [apply split_endpoint_iff, F|exact R].
    + repeat match type of H with context [if ?b then _ else _] => destruct b end; try (exfalso; exact (W _ _ _ H)); try discriminate.
      destruct (NUM sg 2147483647 v); discriminate.
  - repeat match type of H with context [if ?b then _ else _] => destruct b end; try (exfalso; exact (W2 _ _ _ H)); try discriminate.
    + destruct (key_from_hex v); discriminate.
    + destruct (NUM sg 2147483647 v); discriminate.
Qed.

(** * The whole reply *)

Lemma get_loop_sound : forall b ls its, glines b ls its -> forall s rest, inp s = b -> Forall is_byte (unlines ls) ->
  get_loop sg ulmax pubkey resolve (getlines (unlines ls ++ 10 :: rest)) s =
  finish (g_ret (fold_left (fun s i => put i s) its s)) (close (fold_left (fun s i => put i s) its s)).
Proof.
  induction 1 as [b|b l k v i ls its P G H IH]; intros s rest Hb B; [reflexivity|].
  assert (Pl := P). destruct P as (E & _ & _ & N10). unfold unlines in *. cbn [flat_map fold_left] in *. fold (unlines ls) in *. rewrite <- !app_assoc in *. cbn [app] in *.
  rewrite getlines_line by exact N10. cbn [get_loop]. rewrite (classify_pair _ _ _ Pl).
  apply Forall_app in B as [B1 B2]. inversion_clear B2 as [|? ? _ B3].
  assert (Bv : Forall is_byte v). { rewrite E in B1. apply Forall_app in B1 as [_ B1]. inversion B1; assumption. }
  subst b. rewrite (get_line_sound s k v i Bv G). apply IH; [apply inp_put|exact B3].
Qed.

Lemma get_loop_complete : forall len t s, (length t <= len)%nat -> Forall is_byte t ->
  (exists r, r <> 0 /\ get_loop sg ulmax pubkey resolve (getlines t) s = (r, None)) \/
  (exists ls its rest, t = unlines ls ++ 10 :: rest /\ glines (inp s) ls its).
Proof.
  induction len as [|len IH]; intros t s L B.
  { destruct t; [|cbn in L; lia]. left. exists (- EPROTO). split; [discriminate|reflexivity]. }
  destruct (cut_line t) as [N|(l & t' & -> & N)].
  - left. exists (- EPROTO). split; [discriminate|]. destruct t as [|c t]; [reflexivity|]. rewrite getlines_last by (discriminate || exact N). cbn [get_loop].
    rewrite classify_no_newline by exact N. reflexivity.
  - rewrite getlines_line by exact N. cbn [get_loop]. pose proof (classify_inv l N) as C.
    rewrite app_length in L. cbn [length] in L.
    apply Forall_app in B as [Bl Bt]. inversion_clear Bt as [|? ? _ Bt'].
    destruct (classify (l ++ [10])) as [| |k v].
    + subst l. right. exists [], [], t'. split; [reflexivity|constructor].
    + left. exists (- EPROTO). split; [discriminate|reflexivity].
    + assert (P := C). destruct C as (E & Nk & N0 & _).
      assert (Bv : Forall is_byte v). { rewrite E in Bl. apply Forall_app in Bl as [_ Bl]. inversion Bl; assumption. }
      destruct (get_line sg ulmax pubkey resolve s k v) as [s'| |r] eqn:GL.
      * apply get_line_complete in GL as (i & Pi & ->); [|exact Bv].
        destruct (IH t' (put i s) ltac:(lia) Bt') as [F|(ls & its & rest & -> & S)]; [left; exact F|].
        right. exists (l :: ls), (i :: its), rest. split; [unfold unlines; cbn [flat_map]; rewrite <- !app_assoc; reflexivity|].
        rewrite inp_put in S. apply (gl_cons _ _ _ _ l k v i ls its); assumption.
      * left. exists (- EPROTO). split; [discriminate|reflexivity].
      * apply get_line_err in GL as (-> & _). left. exists ENETUNREACH. split; [discriminate|reflexivity].
Qed.

(** * The device the items describe *)

Lemma last_cons : forall A (x : A) l d, last (x :: l) d = last l x.
Proof.
  intros A x l. revert x. induction l as [|y l IH]; intros x d; [reflexivity|].
  change (last (x :: y :: l) d) with (last (y :: l) d). rewrite (IH y d). rewrite (IH y x). reflexivity.
Qed.

Lemma puts_peer : forall its p,
  fold_left (fun p i => put_peer i p) its p =
  mk_peer (p_remove p) (p_replace_aips p) (p_has_pub p) (p_has_psk p || existsb (fun k => negb (beq k zero_key)) (gpsks its)) (p_has_ka p || some (gkas its))
    (p_pub p) (last (gpsks its) (p_psk p)) (last (geps its) (p_endpoint p)) (last (gsecs its) (p_hs_sec p)) (last (gnsecs its) (p_hs_nsec p))
    (last (grxs its) (p_rx p)) (last (gtxs its) (p_tx p)) (last (gkas its) (p_ka p)) (p_aips p ++ gaips its).
Proof.
  induction its as [|i its IH]; intro p; cbn [fold_left].
  - cbn. rewrite !orb_false_r, app_nil_r. destruct p; reflexivity.
  - rewrite IH. destruct i; cbn [put_peer]; unfold gpsks, geps, gkas, gaips, gsecs, gnsecs, grxs, gtxs; cbn [flat_map app];
      rewrite ?last_cons; try reflexivity.
    + cbn [existsb]. destruct (beq k zero_key) eqn:E; cbn [negb orb]; unfold set_psk_only, set_psk; cbn; [reflexivity|]. rewrite orb_true_r. reflexivity.
    + unfold set_ka. cbn. rewrite orb_true_r. reflexivity.
    + unfold set_aips. cbn. rewrite <- app_assoc. reflexivity.
Qed.
Lemma puts_new_peer : forall k its, fold_left (fun p i => put_peer i p) its (set_pub k peer0) = gpeer (k, its).
Proof. intros. rewrite puts_peer. reflexivity. Qed.

(** In a peer. *)
Lemma puts_in_peer : forall ls its, glines true ls its -> forall d p r,
  close (fold_left (fun s i => put i s) its (mk_g d (Some p) r)) =
  set_peers (d_peers d ++ fold_left (fun p i => put_peer i p) (fst (gpeers its)) p :: map gpeer (snd (gpeers its))) d.
Proof.
  intros ls its H. remember true as b eqn:Eb. induction H as [b|b l k v i ls its P G H IH]; intros d p r; subst b.
  - reflexivity.
  - specialize (IH eq_refl). cbn [fold_left gpeers].
    destruct i as [k'| | |k'| | | | | | | | | |]; try (inversion G; fail); unfold put at 2; cbn [g_peer g_dev g_ret];
      try (rewrite IH; destruct (gpeers its) as [h g]; reflexivity).
    rewrite IH. destruct (gpeers its) as [h g]. cbn [fst snd map fold_left]. rewrite puts_new_peer. unfold close. cbn [g_peer g_dev].
    unfold set_peers. cbn. rewrite <- app_assoc. reflexivity.
Qed.
Lemma in_peer_no_dev : forall b ls its, glines b ls its -> b = true -> gprivs its = [] /\ gports its = [] /\ gmarks its = [].
Proof.
  induction 1 as [b|b l k v i ls its P G H IH]; intro E; [auto|]. subst b. destruct (IH eq_refl) as (I1 & I2 & I3).
  inversion G; subst; cbn; auto.
Qed.

Definition errno_of (its : list get_item) (r : Z) : Z := last (map Z.opp (gerrnos its)) r.
Lemma puts_ret : forall its s, g_ret (fold_left (fun s i => put i s) its s) = errno_of its (g_ret s).
Proof.
  induction its as [|i its IH]; intro s; cbn [fold_left]; [reflexivity|]. rewrite IH.
  destruct s as [d [p|] r]; destruct i; cbn [put g_peer g_ret g_dev]; unfold errno_of, gerrnos; cbn [flat_map app map]; rewrite ?last_cons; reflexivity.
Qed.

Lemma puts_before : forall ls its, glines false ls its -> forall d r, d_peers d = [] ->
  close (fold_left (fun s i => put i s) its (mk_g d None r)) =
  mk_device (d_name d) (d_ifindex d) (d_replace_peers d) (d_has_priv d || some (gprivs its)) (d_has_pub d || some (gprivs its))
    (d_has_port d || some (gports its)) (d_has_fwmark d || some (gmarks its))
    (last (map pubkey (gprivs its)) (d_pub d)) (last (gprivs its) (d_priv d)) (last (gmarks its) (d_fwmark d)) (last (gports its) (d_port d))
    (map gpeer (snd (gpeers its))).
Proof.
  intros ls its H. remember false as b eqn:Eb. induction H as [b|b l k v i ls its P G H IH]; intros d r Hd; subst b.
  - cbn. rewrite !orb_false_r. destruct d; cbn in *; subst; reflexivity.
  - cbn [fold_left gpeers]. destruct i as [k'|k'|k'|k'| | | | | | | | | |]; try (inversion G; fail);
      cbn [orb is_peer] in *.
    1-3: unfold put at 2; cbn [g_peer g_dev g_ret]; rewrite (IH eq_refl) by exact Hd;
         unfold gprivs, gports, gmarks; cbn [flat_map app map put_dev set_keys set_port set_fwmark d_name d_ifindex d_replace_peers d_has_priv d_has_pub d_has_port d_has_fwmark d_pub d_priv d_fwmark d_port];
         rewrite ?last_cons; cbn [some orb]; rewrite ?orb_true_r; destruct (gpeers its) as [h g]; reflexivity.
    + unfold put at 2. unfold close at 2. cbn [g_peer g_dev g_ret]. rewrite (puts_in_peer ls its H). rewrite Hd, puts_new_peer.
      destruct (in_peer_no_dev _ _ _ H eq_refl) as (I1 & I2 & I3). unfold gprivs, gports, gmarks in *. cbn [flat_map app]. rewrite I1, I2, I3. cbn. rewrite !orb_false_r.
      destruct (gpeers its) as [h g]. unfold set_peers. reflexivity.
    + unfold put at 2. cbn [g_peer g_dev g_ret]. rewrite (IH eq_refl) by exact Hd. destruct (gpeers its) as [h g]. reflexivity.
    + unfold put at 2. cbn [g_peer g_dev g_ret put_dev]. rewrite (IH eq_refl) by exact Hd. destruct (gpeers its) as [h g]. reflexivity.
Qed.

Notation get := (userspace_get_device sg ulmax pubkey resolve).
Notation said_by := (reply ep_of narrow8 clip64 pubkey).

Lemma get_reply : forall name ls its rest, glines false ls its -> Forall is_byte (unlines ls) ->
  get name (unlines ls ++ 10 :: rest) = finish (errno_of its (- EPROTO)) (gdevice pubkey name its).
Proof.
  intros name ls its rest H B. unfold userspace_get_device. rewrite (get_loop_sound false ls its H) by (reflexivity || exact B).
  rewrite puts_ret, (puts_before ls its H) by reflexivity. reflexivity.
Qed.

Lemma last_map_opp : forall l d, l <> [] -> last (map Z.opp l) d = - last l 0.
Proof.
  induction l as [|x l IH]; intros d N; [congruence|]. destruct l as [|y l]; [reflexivity|].
  change (last (map Z.opp (x :: y :: l)) d) with (last (map Z.opp (y :: l)) d). rewrite (IH d) by discriminate. reflexivity.
Qed.

Lemma get_sound : forall name t n d, Forall is_byte t -> said_by name t n d -> get name t = finish (- n) d.
Proof.
  intros name t n d B (ls & its & rest & -> & H & N & -> & ->). apply Forall_app in B as [B _].
  rewrite (get_reply name ls its rest H B). unfold errno_of. rewrite last_map_opp by exact N. reflexivity.
Qed.
Lemma get_complete : forall name t, Forall is_byte t ->
  (exists r, r <> 0 /\ get name t = (r, None)) \/ exists d, said_by name t 0 d /\ get name t = (0, Some d).
Proof.
  intros name t B. destruct (get_loop_complete (length t) t (mk_g (set_name (firstn 15 name) device0) None (- EPROTO)) (le_n _) B) as [F|(ls & its & rest & -> & H)].
  - left. exact F.
  - assert (B' := B). apply Forall_app in B' as [B' _]. change (inp _) with false in H. rewrite (get_reply name ls its rest H B').
    unfold errno_of. destruct (gerrnos its) as [|n0 l] eqn:E.
    + left. exists (- EPROTO). split; [discriminate|reflexivity].
    + rewrite last_map_opp by discriminate. unfold finish. destruct (Z.eqb_spec (- last (n0 :: l) 0) 0) as [Z0|Z0].
      * right. exists (gdevice pubkey name its). split.
        -- exists ls, its, rest. rewrite E. repeat split; [exact H|discriminate|lia].
        -- rewrite Z0. reflexivity.
      * left. exists (- last (n0 :: l) 0). split; [exact Z0|reflexivity].
Qed.
End Get.
