(** Proofs about the OpenBSD backend: reading. *)
From Coq Require Import ZArith List Bool Lia.
From Verif Require Import Base Types Encoding EncodingSpec HexProofs NlSpec NlProofs NlSetProofs NlSet Fields ObsdSpec Ipc Obsd ObsdProofs.
Import ListNotations.
Open Scope Z_scope.

Definition allocs (ps : list peer) : nat := fold_right (fun p n => S (length (p_aips p) + n))%nat 0%nat ps.

Lemma F2_length : forall A B (R : A -> B -> Prop) l l', Forall2 R l l' -> length l = length l'.
Proof. induction 1; cbn; congruence. Qed.
Lemma le_val1 : forall v, le_val [v] = v.
Proof. intro v. cbn [le_val]. lia. Qed.

Lemma aip_len : forall x m, aip_bytes x m -> len m = 24.
Proof. intros x m (_ & _ & (L & _) & pad & (Lp & _) & ->). cbn [concat]. rewrite !len_app, !len_le, Lp, L, len_nil. reflexivity. Qed.
Lemma aips_len : forall rs ms, Forall2 aip_bytes rs ms -> len (concat ms) = 24 * Z.of_nat (length ms).
Proof. induction 1 as [|x m rs ms Hx Hs IH]; [reflexivity|]. cbn [concat length]. rewrite len_app, IH, (aip_len _ _ Hx). lia. Qed.

Lemma get_aips_spec : forall rs ms, Forall2 aip_bytes rs ms -> forall l P R a mem, map says_aip rs = map Some l -> Forall (fun x => a_cidr x < 256) l -> a = len P ->
  get_aips (P ++ concat ms ++ R) (length ms) a mem = Some (if (length ms <=? mem)%nat then Got (l, a + 24 * Z.of_nat (length ms)) (mem - length ms)%nat else NoMem).
Proof.
  induction 1 as [|x m rs ms Hx Hs IH]; intros l P R a mem Hl Hc Ha.
  { destruct l; [|discriminate]. cbn. rewrite Z.add_0_r, Nat.sub_0_r. reflexivity. }
  destruct l as [|y l]; [discriminate|]. cbn [map] in Hl. assert (Hy : says_aip x = Some y) by congruence. assert (Hl' : map says_aip rs = map Some l) by congruence. clear Hl.
  inversion Hc as [|? ? Hcy Hcl]; subst. cbn [length get_aips]. destruct mem as [|mem]; [reflexivity|]. cbn [Nat.leb Nat.sub].
  pose proof (aip_len _ _ Hx) as L24. destruct Hx as (Wa & Wc & (La & Ba) & pad & (Lp & Bp) & Em).
  cbn [concat]. rewrite <- app_assoc. set (R' := concat ms ++ R).
  assert (P1 : peek (P ++ m ++ R') (len P) 1 = Some [ra_af x]).
  { rewrite Em. apply (peek_field P [[ra_af x]; pad; le 4 (ra_cidr x); ra_addr x] R' 0); [cbn; lia|cbn [firstn concat]; rewrite len_nil; lia|reflexivity]. }
  assert (P2 : peek (P ++ m ++ R') (len P + 4) 4 = Some (le 4 (ra_cidr x))).
  { rewrite Em. apply (peek_field P [[ra_af x]; pad; le 4 (ra_cidr x); ra_addr x] R' 2); [cbn; lia|cbn [firstn concat]; rewrite !len_app, Lp, len_nil; reflexivity|cbn [nth]; rewrite len_le; reflexivity]. }
  assert (P3 : peek (P ++ m ++ R') (len P + 8) 16 = Some (ra_addr x)).
  { rewrite Em. apply (peek_field P [[ra_af x]; pad; le 4 (ra_cidr x); ra_addr x] R' 3); [cbn; lia|cbn [firstn concat]; rewrite !len_app, !len_le, Lp, len_nil; reflexivity|cbn [nth]; rewrite La; reflexivity]. }
  assert (P4 : peek (P ++ m ++ R') (len P + 8) 4 = Some (firstn 4 (ra_addr x))).
  { assert (L4 : len (firstn 4 (ra_addr x)) = 4) by (unfold len in *; rewrite firstn_length; lia).
    replace m with (concat [[ra_af x]; pad; le 4 (ra_cidr x); firstn 4 (ra_addr x); skipn 4 (ra_addr x)]).
    - apply (peek_field P [[ra_af x]; pad; le 4 (ra_cidr x); firstn 4 (ra_addr x); skipn 4 (ra_addr x)] R' 3); [cbn; lia|cbn [firstn concat]; rewrite !len_app, !len_le, Lp, len_nil; reflexivity|cbn [nth]; rewrite L4; reflexivity].
    - rewrite Em. cbn [concat]. rewrite !app_nil_r, firstn_skipn. reflexivity. }
  rewrite P1, P2, P3, P4, le_val1. rewrite le_val_le_id by (change (256 ^ Z.of_nat 4) with (2 ^ 32); exact Wc).
  assert (Ey : (if ra_af x =? AF_INET then Some (mk_aip AF_INET (firstn 4 (ra_addr x)) (u8 (ra_cidr x)))
                else if ra_af x =? BSD_INET6 then Some (mk_aip AF_INET6 (ra_addr x) (u8 (ra_cidr x))) else Some (mk_aip (ra_af x) (repeat 0 16) 0)) = Some y).
  { unfold says_aip in Hy. unfold AF_INET, BSD_INET6 in *. destruct (ra_af x =? 2).
    - injection Hy as <-. cbn [a_cidr] in Hcy. unfold u8. rewrite Z.mod_small by (unfold word in Wc; lia). reflexivity.
    - destruct (ra_af x =? 24); [|discriminate]. injection Hy as <-. cbn [a_cidr] in Hcy. unfold u8. rewrite Z.mod_small by (unfold word in Wc; lia). reflexivity. }
  rewrite Ey. unfold R'. rewrite (app_assoc P m). rewrite (IH l (P ++ m) R (len P + sz_aip) mem Hl' Hcl).
  - unfold sz_aip. destruct (length ms <=? mem)%nat; [|reflexivity]. do 3 f_equal. lia.
  - rewrite len_app, L24. reflexivity.
Qed.

(** What is seen of a peer: an IPv6 endpoint is not. *)
Definition seen_peer (p : peer) : peer := match p_endpoint p with Ep6 _ _ _ _ => set_endpoint EpNone p | _ => p end.

Lemma seen_endpoint : forall sa e, bytes 28 sa -> says_endpoint sa = Some e ->
  (if le_val [nth 0 sa 0] <=? 16 then Some (bsd_endpoint (sa_copy (firstn (Z.to_nat (le_val [nth 0 sa 0])) sa))) else Some EpNone)
  = Some (match e with Ep6 _ _ _ _ => EpNone | _ => e end) /\ 0 <= nth 0 sa 0 <= 28.
Proof.
  intros sa e (L & B) H. rewrite le_val1. destruct sa as [|l [|f [|p0 [|p1 rest]]]]; try discriminate H. cbn [says_endpoint nth] in *.
  destruct (Z.eqb_spec l 16) as [->|N1]; cbn [andb] in H.
  - destruct (Z.eqb_spec f 2) as [->|N2]; [|discriminate]. injection H as <-. split; [|lia]. change (16 <=? 16) with true. cbv iota. change (Z.to_nat 16) with 16%nat.
    destruct rest as [|a0 [|a1 [|a2 [|a3 rest]]]]; try (vm_compute in L; discriminate L). reflexivity.
  - destruct (Z.eqb_spec l 28) as [->|]; [|discriminate]. destruct (f =? 24); [|discriminate]. injection H as <-. split; [reflexivity|lia].
Qed.

Lemma peer_len : forall r m, peer_bytes r m -> len m = 144 + 24 * Z.of_nat (length (rw_aips r)).
Proof.
  intros r m (_ & _ & (L1 & _) & (L2 & _) & _ & (L3 & _) & _ & _ & _ & _ & pad & ams & (L4 & _) & Ha & _ & ->).
  rewrite len_app, (aips_len _ _ Ha). cbn [concat]. rewrite !len_app, !len_le, L1, L2, L3, L4, len_nil. rewrite (F2_length _ _ _ _ _ Ha). cbn [Z.of_nat Pos.of_succ_nat Pos.succ]. lia.
Qed.

Lemma get_peers_spec : forall rs ms, Forall2 peer_bytes rs ms -> forall ps P R a mem, Forall2 tells_peer rs ps -> a = len P ->
  get_peers (P ++ concat ms ++ R) (length ms) a mem = Some (if (allocs ps <=? mem)%nat then Got (map seen_peer ps) (mem - allocs ps)%nat else NoMem).
Proof.
  induction 1 as [|r m rs ms Hr Hs IH]; intros ps P R a mem Hps Ha.
  { inversion Hps; subst. cbn. rewrite Nat.sub_0_r. reflexivity. }
  destruct ps as [|p ps]; [inversion Hps|]. assert (Hp : tells_peer r p) by (inversion Hps; assumption). assert (Hps' : Forall2 tells_peer rs ps) by (inversion Hps; assumption). subst a.
  cbn [length get_peers]. change (allocs (p :: ps)) with (S (length (p_aips p) + allocs ps)). destruct mem as [|mem]; [reflexivity|]. cbn [Nat.leb Nat.sub].
  pose proof (peer_len _ _ Hr) as Lm.
  destruct Hr as (W1 & W2 & (L1 & B1) & (L2 & B2) & W3 & (L3 & B3) & W4 & W5 & W6 & W7 & pad & ams & (L4 & B4) & Hams & W8 & Em).
  destruct Hp as (T1 & T2 & T3 & T4 & T5 & T6 & T7 & T8 & T9 & T10 & T11 & T12 & T13 & T14 & T15).
  cbn [concat]. rewrite <- app_assoc. set (R' := concat ms ++ R). rewrite Em. rewrite <- (app_assoc (concat _)). set (Q := concat ams ++ R').
  match goal with |- context [concat ?l] => set (Fs := l) end.
  assert (F : forall i a n, (i < length Fs)%nat -> a = len P + len (concat (firstn i Fs)) -> n = len (nth i Fs []) -> peek (P ++ concat Fs ++ Q) a n = Some (nth i Fs [])) by (intros; apply peek_field; assumption).
  assert (Hlen : length Fs = 12%nat) by reflexivity.
  assert (OFF : forall i, len (concat (firstn i Fs)) = nth i [0; 4; 8; 40; 72; 74; 76; 104; 112; 120; 128; 136] 144 \/ (12 <= i)%nat).
  { intro i. do 12 (destruct i as [|i]; [left; unfold Fs; cbn [firstn concat nth]; rewrite ?len_app, ?len_le, ?L1, ?L2, ?L3, ?L4, len_nil; reflexivity|]). right. lia. }
  assert (F' : forall i a n, (i < 12)%nat -> a = len P + nth i [0; 4; 8; 40; 72; 74; 76; 104; 112; 120; 128; 136] 144 -> n = len (nth i Fs []) -> peek (P ++ concat Fs ++ Q) a n = Some (nth i Fs [])).
  { intros i a n Hi Ha Hn. apply F; [lia| |exact Hn]. rewrite Ha. destruct (OFF i) as [-> |]; [reflexivity|lia]. }
  assert (V4 : forall v, word 32 v -> le_val (le 4 v) = v) by (intros v Hv; apply le_val_le_id; exact Hv).
  assert (V8 : forall v, word 64 v -> le_val (le 8 v) = v) by (intros v Hv; apply le_val_le_id; exact Hv).
  rewrite (F' 0%nat (len P) 4) by (first [lia | (cbn [nth]; lia) | (unfold Fs; cbn [nth]; rewrite len_le; reflexivity)]). change (nth 0 Fs []) with (le 4 (rw_flags r)).
  unfold bit. rewrite (V4 _ W1).
  rewrite (F' 2%nat (len P + 8) 32) by (first [lia | reflexivity | (unfold Fs; cbn [nth]; rewrite L1; reflexivity)]). change (nth 2 Fs []) with (rw_pub r).
  rewrite (F' 3%nat (len P + 40) 32) by (first [lia | reflexivity | (unfold Fs; cbn [nth]; rewrite L2; reflexivity)]). change (nth 3 Fs []) with (rw_psk r).
  rewrite (F' 4%nat (len P + 72) 2) by (first [lia | reflexivity | (unfold Fs; cbn [nth]; rewrite len_le; reflexivity)]). change (nth 4 Fs []) with (le 2 (rw_pka r)).
  rewrite (F' 8%nat (len P + 112) 8) by (first [lia | reflexivity | (unfold Fs; cbn [nth]; rewrite len_le; reflexivity)]). change (nth 8 Fs []) with (le 8 (rw_rx r)).
  rewrite (F' 7%nat (len P + 104) 8) by (first [lia | reflexivity | (unfold Fs; cbn [nth]; rewrite len_le; reflexivity)]). change (nth 7 Fs []) with (le 8 (rw_tx r)).
  rewrite (F' 9%nat (len P + 120) 8) by (first [lia | reflexivity | (unfold Fs; cbn [nth]; rewrite len_le; reflexivity)]). change (nth 9 Fs []) with (le 8 (rw_sec r)).
  rewrite (F' 10%nat (len P + 128) 8) by (first [lia | reflexivity | (unfold Fs; cbn [nth]; rewrite len_le; reflexivity)]). change (nth 10 Fs []) with (le 8 (rw_nsec r)).
  rewrite (F' 11%nat (len P + 136) 8) by (first [lia | reflexivity | (unfold Fs; cbn [nth]; rewrite len_le; reflexivity)]). change (nth 11 Fs []) with (le 8 (Z.of_nat (length ams))).
  rewrite !V8 by assumption. rewrite (le_val_le_id 2) by exact W3. rewrite Nat2Z.id.
  (* the endpoint *)
  assert (S1 : forall n, 0 <= n <= 28 -> peek (P ++ concat Fs ++ Q) (len P + 76) n = Some (firstn (Z.to_nat n) (rw_sa r))).
  { intros n Hn. set (Fs' := [le 4 (rw_flags r); le 4 (rw_version r); rw_pub r; rw_psk r; le 2 (rw_pka r); pad; firstn (Z.to_nat n) (rw_sa r); skipn (Z.to_nat n) (rw_sa r); le 8 (rw_tx r);
      le 8 (rw_rx r); le 8 (rw_sec r); le 8 (rw_nsec r); le 8 (Z.of_nat (length ams))]).
    replace (concat Fs) with (concat Fs'). 2: { unfold Fs, Fs'. cbn [concat]. rewrite (app_assoc (firstn _ _)), firstn_skipn. reflexivity. }
    apply (peek_field P Fs' Q 6); [cbn; lia| |].
    - unfold Fs'. cbn [firstn concat]. rewrite !len_app, !len_le, L1, L2, L4, len_nil. reflexivity.
    - unfold Fs'. cbn [nth]. unfold len in *. rewrite firstn_length. lia. }
  set (ep := if Z.testbit (rw_flags r) 3 then _ else Some EpNone).
  assert (Eep : ep = Some (p_endpoint (seen_peer p))).
  { unfold ep. rewrite (S1 1) by lia. change (Z.to_nat 1) with 1%nat. destruct (Z.testbit (rw_flags r) 3).
    - destruct (seen_endpoint (rw_sa r) (p_endpoint p) (conj L3 B3) (eq_sym T9)) as [E1 E2].
      replace (firstn 1 (rw_sa r)) with [nth 0 (rw_sa r) 0] by (destruct (rw_sa r); [vm_compute in L3; discriminate L3|reflexivity]).
      rewrite le_val1 in *. rewrite S1 by exact E2. rewrite E1. unfold seen_peer. destruct (p_endpoint p) eqn:Ee; cbn [set_endpoint p_endpoint]; congruence.
    - unfold seen_peer. assert (En : p_endpoint p = EpNone) by congruence. rewrite En. exact (eq_sym (f_equal Some En)). }
  rewrite Eep.
  set (H := concat Fs). assert (LH : len H = 144).
  { unfold H, Fs. cbn [concat]. rewrite ?len_app, ?len_le, ?L1, ?L2, ?L3, ?L4, len_nil. reflexivity. }
  unfold Q, R'. rewrite (app_assoc P H).
  replace (get_aips ((P ++ H) ++ concat ams ++ concat ms ++ R)) with (get_aips ((P ++ H) ++ concat ams ++ (concat ms ++ R))) by reflexivity.
  rewrite (get_aips_spec _ _ Hams (p_aips p) (P ++ H) (concat ms ++ R) (len P + sz_peer) mem T14 T15) by (rewrite len_app, LH; reflexivity).
  assert (Lam : length ams = length (p_aips p)).
  { rewrite <- (F2_length _ _ _ _ _ Hams). rewrite <- (map_length says_aip), T14, map_length. reflexivity. }
  rewrite Lam.
  assert (EP : forall psk, (if Z.testbit (rw_flags r) 1 then Some (rw_psk r) else Some zero_key) = Some psk -> psk = p_psk p /\ Z.testbit (rw_flags r) 1 && negb (key_is_zero psk) = p_has_psk p).
  { intros psk Ek. rewrite T6, T5. unfold if_set, nonzero_key. destruct (Z.testbit (rw_flags r) 1); injection Ek as <-; [|split; reflexivity]. split; [reflexivity|]. cbn [andb]. f_equal.
    assert (Kk : is_key (rw_psk r)) by (split; [unfold len in L2; lia|exact B2]).
    pose proof (key_is_zero_correct _ Kk) as C. destruct (key_is_zero (rw_psk r)) eqn:Ez.
    - symmetry. apply beq_eq. apply C. reflexivity.
    - symmetry. apply beq_neq. intro Hz. apply C in Hz. congruence. }
  assert (X1 : (if Z.testbit (rw_flags r) 0 then Some (rw_pub r) else Some zero_key) = Some (p_pub p)) by (rewrite T4; unfold if_set; destruct (Z.testbit (rw_flags r) 0); reflexivity).
  assert (X2 : (if Z.testbit (rw_flags r) 1 then Some (rw_psk r) else Some zero_key) = Some (p_psk p)) by (rewrite T5; unfold if_set; destruct (Z.testbit (rw_flags r) 1); reflexivity).
  assert (X3 : (if Z.testbit (rw_flags r) 2 then Some (rw_pka r) else Some 0) = Some (p_ka p)) by (rewrite T8; unfold if_set; destruct (Z.testbit (rw_flags r) 2); reflexivity).
  rewrite X1, X2, X3. destruct (EP _ X2) as [_ EP2]. rewrite EP2.
  destruct (Nat.leb_spec (length (p_aips p)) mem) as [Hm|Hm].
  2: { destruct (Nat.leb_spec (length (p_aips p) + allocs ps) mem); [lia|reflexivity]. }
  replace ((P ++ H) ++ concat ams ++ concat ms ++ R) with ((P ++ m) ++ concat ms ++ R).
  2: { rewrite Em. fold Fs. fold H. rewrite <- !app_assoc. reflexivity. }
  rewrite (IH ps (P ++ m) R (len P + sz_peer + 24 * Z.of_nat (length (p_aips p))) (mem - length (p_aips p))%nat Hps').
  2: { rewrite len_app, Lm. unfold sz_peer. rewrite <- (map_length says_aip (rw_aips r)), T14, map_length. lia. }
  destruct (Nat.leb_spec (allocs ps) (mem - length (p_aips p))) as [Hn|Hn]; destruct (Nat.leb_spec (length (p_aips p) + allocs ps) mem); try lia; [|reflexivity].
  do 2 f_equal; [|lia]. cbn [map]. f_equal.
  rewrite <- T3, <- T7. change (s64 ?x) with (signed64 x). rewrite <- T10, <- T11, <- T12, <- T13. clear - T1 T2.
  unfold seen_peer. destruct p as [q1 q2 q3 q4 q5 q6 q7 q8 q9 q10 q11 q12 q13 q14]. cbn in *. subst. destruct q8; reflexivity.
Qed.

Definition seen (name : list Z) (d : device) : device := set_name (firstn 15 name) (set_peers (map seen_peer (d_peers d)) d).

Lemma get_block_spec : forall iface b R d mem, tells b d ->
  get_block iface (b ++ R) mem = Some (if (S (allocs (d_peers d)) <=? mem)%nat then Got (seen iface d) (mem - S (allocs (d_peers d)))%nat else NoMem).
Proof.
  intros iface b R d mem (r & Hb & T). cbv zeta in T. destruct mem as [|mem]; [reflexivity|]. cbn [get_block Nat.leb Nat.sub].
  destruct Hb as (W1 & W2 & W3 & (L1 & B1) & (L2 & B2) & pad & ms & (L3 & B3) & Hms & W4 & Eb).
  destruct T as (T0 & T1 & T2 & T3 & T4 & T5 & T6 & T7 & T8 & T9 & T10). rewrite Eb. rewrite <- app_assoc. set (Q := concat ms ++ R).
  match goal with |- context [concat ?l ++ Q] => set (Fs := l) end.
  assert (F : forall i a n, (i < length Fs)%nat -> a = len (concat (firstn i Fs)) -> n = len (nth i Fs []) -> peek (concat Fs ++ Q) a n = Some (nth i Fs [])).
  { intros i a n Hi Ha Hn. apply (peek_field [] Fs Q i a n Hi); [rewrite len_nil; exact Ha|exact Hn]. }
  rewrite (F 0%nat 0 1) by (first [cbn; lia | reflexivity]). change (nth 0 Fs []) with [ri_flags r]. unfold bit. rewrite le_val1.
  rewrite (F 3%nat 4 4) by (first [(cbn [length Fs]; unfold Fs; cbn [length]; lia) | (unfold Fs; cbn [firstn concat]; rewrite !len_app, !len_le, L3, len_nil; reflexivity) | (unfold Fs; cbn [nth]; rewrite len_le; reflexivity)]).
  change (nth 3 Fs []) with (le 4 (ri_rtable r)).
  rewrite (F 2%nat 2 2) by (first [(unfold Fs; cbn [length]; lia) | (unfold Fs; cbn [firstn concat]; rewrite !len_app, L3, len_nil; reflexivity) | (unfold Fs; cbn [nth]; rewrite len_le; reflexivity)]).
  change (nth 2 Fs []) with (le 2 (ri_port r)).
  rewrite (F 4%nat 8 32) by (first [(unfold Fs; cbn [length]; lia) | (unfold Fs; cbn [firstn concat]; rewrite !len_app, !len_le, L3, len_nil; reflexivity) | (unfold Fs; cbn [nth]; rewrite L1; reflexivity)]).
  change (nth 4 Fs []) with (ri_pub r).
  rewrite (F 5%nat 40 32) by (first [(unfold Fs; cbn [length]; lia) | (unfold Fs; cbn [firstn concat]; rewrite !len_app, !len_le, L3, L1, len_nil; reflexivity) | (unfold Fs; cbn [nth]; rewrite L2; reflexivity)]).
  change (nth 5 Fs []) with (ri_priv r).
  rewrite (F 6%nat 72 8) by (first [(unfold Fs; cbn [length]; lia) | (unfold Fs; cbn [firstn concat]; rewrite !len_app, !len_le, L3, L1, L2, len_nil; reflexivity) | (unfold Fs; cbn [nth]; rewrite len_le; reflexivity)]).
  change (nth 6 Fs []) with (le 8 (Z.of_nat (length ms))).
  rewrite !le_val_le_id by (first [exact W4 | exact W3 | exact W2]). rewrite Nat2Z.id.
  set (H := concat Fs). assert (LH : len H = 80) by (unfold H, Fs; cbn [concat]; rewrite ?len_app, ?len_le, ?L1, ?L2, ?L3, len_nil; reflexivity).
  unfold Q. rewrite (get_peers_spec _ _ Hms (d_peers d) H R sz_iface mem T10) by (rewrite LH; reflexivity).
  assert (X1 : (if Z.testbit (ri_flags r) 3 then Some (ri_rtable r) else Some 0) = Some (d_fwmark d)) by (rewrite T9; unfold if_set; destruct (Z.testbit (ri_flags r) 3); reflexivity).
  assert (X2 : (if Z.testbit (ri_flags r) 2 then Some (ri_port r) else Some 0) = Some (d_port d)) by (rewrite T7; unfold if_set; destruct (Z.testbit (ri_flags r) 2); reflexivity).
  assert (X3 : (if Z.testbit (ri_flags r) 0 then Some (ri_pub r) else Some zero_key) = Some (d_pub d)) by (rewrite T3; unfold if_set; destruct (Z.testbit (ri_flags r) 0); reflexivity).
  assert (X4 : (if Z.testbit (ri_flags r) 1 then Some (ri_priv r) else Some zero_key) = Some (d_priv d)) by (rewrite T5; unfold if_set; destruct (Z.testbit (ri_flags r) 1); reflexivity).
  rewrite X1, X2, X3, X4. destruct (Nat.leb_spec (allocs (d_peers d)) mem); [|reflexivity].
  do 2 f_equal. rewrite <- T2, <- T4, <- T6, <- T8. unfold seen, set_name, set_peers. destruct d. cbn in *. subst. reflexivity.
Qed.
