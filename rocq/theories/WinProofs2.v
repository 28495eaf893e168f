(** Proofs about the Windows backend: reading. *)
From Coq Require Import ZArith List Bool Lia.
From Verif Require Import Base Types Encoding EncodingSpec HexProofs NlSpec NlProofs NlSetProofs NlSet Fields ObsdSpec Ipc Obsd ObsdProofs ObsdProofs2 WinSpec Win WinProofs.
Import ListNotations.
Open Scope Z_scope.

Lemma waip_len : forall x m, waip_bytes x m -> len m = 24.
Proof. intros x m ((L & _) & _ & _ & pad & (Lp & _) & ->). cbn [concat]. rewrite !len_app, !len_le, Lp, L, len_nil. reflexivity. Qed.
Lemma waips_len : forall rs ms, Forall2 waip_bytes rs ms -> len (concat ms) = 24 * Z.of_nat (length ms).
Proof. induction 1 as [|x m rs ms Hx Hs IH]; [reflexivity|]. cbn [concat length]. rewrite len_app, IH, (waip_len _ _ Hx). lia. Qed.

Lemma wget_aips_spec : forall rs ms, Forall2 waip_bytes rs ms -> forall l P R a mem, map wsays_aip rs = map Some l -> a = len P ->
  wget_aips (P ++ concat ms ++ R) (length ms) a mem = Some (if (length ms <=? mem)%nat then Got (l, a + 24 * Z.of_nat (length ms)) (mem - length ms)%nat else NoMem).
Proof.
  induction 1 as [|x m rs ms Hx Hs IH]; intros l P R a mem Hl Ha.
  { destruct l; [|discriminate]. cbn. rewrite Z.add_0_r, Nat.sub_0_r. reflexivity. }
  destruct l as [|y l]; [discriminate|]. cbn [map] in Hl. assert (Hy : wsays_aip x = Some y) by congruence. assert (Hl' : map wsays_aip rs = map Some l) by congruence. clear Hl.
  subst. cbn [length wget_aips]. destruct mem as [|mem]; [reflexivity|]. cbn [Nat.leb Nat.sub].
  pose proof (waip_len _ _ Hx) as L24. destruct Hx as ((La & Ba) & Wa & Wc & pad & (Lp & Bp) & Em).
  cbn [concat]. rewrite <- app_assoc. set (R' := concat ms ++ R).
  assert (P1 : peek (P ++ m ++ R') (len P + 16) 2 = Some (le 2 (wa_af x))).
  { rewrite Em. apply (peek_field P [wa_addr x; le 2 (wa_af x); [wa_cidr x]; pad] R' 1); [cbn [length]; lia|cbn [firstn concat]; rewrite len_app, La, len_nil; lia|cbn [nth]; rewrite len_le; reflexivity]. }
  assert (P2 : peek (P ++ m ++ R') (len P + 18) 1 = Some [wa_cidr x]).
  { rewrite Em. apply (peek_field P [wa_addr x; le 2 (wa_af x); [wa_cidr x]; pad] R' 2); [cbn [length]; lia|cbn [firstn concat]; rewrite !len_app, len_le, La, len_nil; lia|reflexivity]. }
  assert (P3 : peek (P ++ m ++ R') (len P) 16 = Some (wa_addr x)).
  { rewrite Em. apply (peek_field P [wa_addr x; le 2 (wa_af x); [wa_cidr x]; pad] R' 0); [cbn [length]; lia|cbn [firstn concat]; rewrite len_nil; lia|cbn [nth]; rewrite La; reflexivity]. }
  assert (P4 : peek (P ++ m ++ R') (len P) 4 = Some (firstn 4 (wa_addr x))).
  { assert (L4 : len (firstn 4 (wa_addr x)) = 4) by (unfold len in *; rewrite firstn_length; lia).
    replace m with (concat [firstn 4 (wa_addr x); skipn 4 (wa_addr x); le 2 (wa_af x); [wa_cidr x]; pad]).
    - apply (peek_field P [firstn 4 (wa_addr x); skipn 4 (wa_addr x); le 2 (wa_af x); [wa_cidr x]; pad] R' 0); [cbn [length]; lia|cbn [firstn concat]; rewrite len_nil; lia|cbn [nth]; rewrite L4; reflexivity].
    - rewrite Em. cbn [concat]. rewrite (app_assoc (firstn _ _)), firstn_skipn. reflexivity. }
  rewrite P1, P2, P3, P4, le_val1. rewrite le_val_le_id by exact Wa.
  assert (Ey : (if wa_af x =? AF_INET then Some (mk_aip AF_INET (firstn 4 (wa_addr x)) (wa_cidr x))
                else if wa_af x =? WIN_INET6 then Some (mk_aip AF_INET6 (wa_addr x) (wa_cidr x)) else Some (mk_aip (wa_af x) (repeat 0 16) 0)) = Some y).
  { unfold wsays_aip in Hy. unfold AF_INET, WIN_INET6 in *. destruct (wa_af x =? 2); [exact Hy|]. destruct (wa_af x =? 23); [exact Hy|discriminate]. }
  rewrite Ey. unfold R'. rewrite (app_assoc P m). rewrite (IH l (P ++ m) R (len P + wz_aip) mem Hl').
  - unfold wz_aip. destruct (length ms <=? mem)%nat; [|reflexivity]. do 3 f_equal. lia.
  - rewrite len_app, L24. reflexivity.
Qed.

Lemma wpeer_len : forall r m, wpeer_bytes r m -> len m = 136 + 24 * Z.of_nat (length (wp_aips r)).
Proof.
  intros r m (_ & _ & (L1 & _) & (L2 & _) & _ & (L3 & _) & _ & _ & _ & pad & pad' & ams & (L4 & _) & (L5 & _) & Ha & _ & ->).
  rewrite len_app, (waips_len _ _ Ha). cbn [concat]. rewrite !len_app, !len_le, L1, L2, L3, L4, L5, len_nil. rewrite (F2_length _ _ _ _ _ Ha). cbn [Z.of_nat Pos.of_succ_nat Pos.succ]. lia.
Qed.

Lemma seconds_ok : forall t, word 64 t -> (if t =? 0 then 0 else s64 (u64 (t / 10000000 - 11644473600))) = unix_seconds t.
Proof.
  intros t Ht. unfold unix_seconds. destruct (Z.eqb_spec t 0) as [->|N]; [reflexivity|]. change (10 ^ 7) with 10000000. unfold word in Ht. change (2 ^ 64) with 18446744073709551616 in Ht.
  assert (0 <= t / 10000000 < 1844674407371) by (split; [apply Z.div_pos; lia|apply Z.div_lt_upper_bound; lia]).
  unfold u64, s64. change (2 ^ 64) with 18446744073709551616. change (2 ^ 63) with 9223372036854775808.
  destruct (Z.leb_spec 0 (t / 10000000 - 11644473600)) as [H1|H1].
  - rewrite Z.mod_small by lia. destruct (Z.ltb_spec (t / 10000000 - 11644473600) 9223372036854775808); lia.
  - replace ((t / 10000000 - 11644473600) mod 18446744073709551616) with (t / 10000000 - 11644473600 + 18446744073709551616).
    + destruct (Z.ltb_spec (t / 10000000 - 11644473600 + 18446744073709551616) 9223372036854775808); lia.
    + symmetry. rewrite <- (Z_mod_plus_full (t / 10000000 - 11644473600) 1). apply Z.mod_small. lia.
Qed.

Lemma win_endpoint_spec : forall sa P R e, bytes 28 sa -> wsays_endpoint sa = Some e -> win_endpoint (P ++ sa ++ R) (len P) = Some e.
Proof.
  intros sa P R e (L & B) H. unfold win_endpoint.
  assert (PK : forall n, (n <= 28)%nat -> peek (P ++ sa ++ R) (len P) (Z.of_nat n) = Some (firstn n sa)).
  { intros n Hn. replace (P ++ sa ++ R) with (P ++ firstn n sa ++ (skipn n sa ++ R)) by (rewrite (app_assoc (firstn n sa)), firstn_skipn; reflexivity).
    apply peek_at; [reflexivity|]. unfold len in *. rewrite firstn_length. lia. }
  pose proof (PK 2%nat ltac:(lia)) as P2. pose proof (PK 16%nat ltac:(lia)) as P16. pose proof (PK 28%nat ltac:(lia)) as P28. clear PK. cbn [Z.of_nat Pos.of_succ_nat Pos.succ] in P2, P16, P28. 
  destruct sa as [|f0 [|f1 [|p0 [|p1 rest]]]]; try discriminate H. unfold wsays_endpoint in H. rewrite P2.
  change (firstn 2 (f0 :: f1 :: p0 :: p1 :: rest)) with [f0; f1].
  change (firstn 16 (f0 :: f1 :: p0 :: p1 :: rest)) with (f0 :: f1 :: p0 :: p1 :: firstn 12 rest) in P16.
  change (firstn 28 (f0 :: f1 :: p0 :: p1 :: rest)) with (f0 :: f1 :: p0 :: p1 :: firstn 24 rest) in P28.
  rewrite P16, P28. replace (le_val [f0; f1]) with (f0 + 256 * f1) by (cbn [le_val]; lia).
  unfold AF_INET, WIN_INET6. destruct (f0 + 256 * f1 =? 2).
  - replace (firstn 4 (skipn 4 (f0 :: f1 :: p0 :: p1 :: firstn 12 rest))) with (firstn 4 rest); [exact H|]. cbn [skipn]. rewrite firstn_firstn. reflexivity.
  - destruct (f0 + 256 * f1 =? 23); [|discriminate].
    assert (Lr : length rest = 24%nat) by (unfold len in L; cbn [length] in L; lia). replace (firstn 24 rest) with rest by (symmetry; apply firstn_all2; lia). exact H.
Qed.

Lemma wget_peers_spec : forall rs ms, Forall2 wpeer_bytes rs ms -> forall ps P R a mem, Forall2 wtells_peer rs ps -> a = len P ->
  wget_peers (P ++ concat ms ++ R) (length ms) a mem = Some (if (allocs ps <=? mem)%nat then Got ps (mem - allocs ps)%nat else NoMem).
Proof.
  induction 1 as [|r m rs ms Hr Hs IH]; intros ps P R a mem Hps Ha.
  { inversion Hps; subst. cbn. rewrite Nat.sub_0_r. reflexivity. }
  destruct ps as [|p ps]; [inversion Hps|]. assert (Hp : wtells_peer r p) by (inversion Hps; assumption). assert (Hps' : Forall2 wtells_peer rs ps) by (inversion Hps; assumption). subst a.
  cbn [length wget_peers]. change (allocs (p :: ps)) with (S (length (p_aips p) + allocs ps)). destruct mem as [|mem]; [reflexivity|]. cbn [Nat.leb Nat.sub].
  pose proof (wpeer_len _ _ Hr) as Lm.
  destruct Hr as (W1 & W2 & (L1 & B1) & (L2 & B2) & W3 & (L3 & B3) & W4 & W5 & W6 & pad & pad' & ams & (L4 & B4) & (L5 & B5) & Hams & W8 & Em).
  destruct Hp as (T1 & T2 & T3 & T4 & T5 & T6 & T7 & T8 & T9 & T10 & T11 & T12 & T13 & T14).
  cbn [concat]. rewrite <- app_assoc. set (R' := concat ms ++ R). rewrite Em. rewrite <- (app_assoc (concat _)). set (Q := concat ams ++ R').
  match goal with |- context [concat ?l] => set (Fs := l) end.
  assert (F : forall i a n, (i < length Fs)%nat -> a = len P + len (concat (firstn i Fs)) -> n = len (nth i Fs []) -> peek (P ++ concat Fs ++ Q) a n = Some (nth i Fs [])) by (intros; apply peek_field; assumption).
  assert (Hlen : length Fs = 12%nat) by reflexivity.
  assert (OFF : forall i, len (concat (firstn i Fs)) = nth i [0; 4; 8; 40; 72; 74; 76; 104; 112; 120; 128; 132] 136 \/ (12 <= i)%nat).
  { intro i. do 12 (destruct i as [|i]; [left; unfold Fs; cbn [firstn concat nth]; rewrite ?len_app, ?len_le, ?L1, ?L2, ?L3, ?L4, ?L5, len_nil; reflexivity|]). right. lia. }
  assert (F' : forall i a n, (i < 12)%nat -> a = len P + nth i [0; 4; 8; 40; 72; 74; 76; 104; 112; 120; 128; 132] 136 -> n = len (nth i Fs []) -> peek (P ++ concat Fs ++ Q) a n = Some (nth i Fs [])).
  { intros i a n Hi Ha Hn. apply F; [lia| |exact Hn]. rewrite Ha. destruct (OFF i) as [-> |]; [reflexivity|lia]. }
  assert (V4 : forall v, word 32 v -> le_val (le 4 v) = v) by (intros v Hv; apply le_val_le_id; exact Hv).
  assert (V8 : forall v, word 64 v -> le_val (le 8 v) = v) by (intros v Hv; apply le_val_le_id; exact Hv).
  rewrite (F' 0%nat (len P) 4) by (first [lia | (cbn [nth]; lia) | (unfold Fs; cbn [nth]; rewrite len_le; reflexivity)]). change (nth 0 Fs []) with (le 4 (wp_flags r)).
  unfold bit. rewrite (V4 _ W1).
  rewrite (F' 2%nat (len P + 8) 32) by (first [lia | reflexivity | (unfold Fs; cbn [nth]; rewrite L1; reflexivity)]). change (nth 2 Fs []) with (wp_pub r).
  rewrite (F' 3%nat (len P + 40) 32) by (first [lia | reflexivity | (unfold Fs; cbn [nth]; rewrite L2; reflexivity)]). change (nth 3 Fs []) with (wp_psk r).
  rewrite (F' 4%nat (len P + 72) 2) by (first [lia | reflexivity | (unfold Fs; cbn [nth]; rewrite len_le; reflexivity)]). change (nth 4 Fs []) with (le 2 (wp_ka r)).
  rewrite (F' 8%nat (len P + 112) 8) by (first [lia | reflexivity | (unfold Fs; cbn [nth]; rewrite len_le; reflexivity)]). change (nth 8 Fs []) with (le 8 (wp_rx r)).
  rewrite (F' 7%nat (len P + 104) 8) by (first [lia | reflexivity | (unfold Fs; cbn [nth]; rewrite len_le; reflexivity)]). change (nth 7 Fs []) with (le 8 (wp_tx r)).
  rewrite (F' 9%nat (len P + 120) 8) by (first [lia | reflexivity | (unfold Fs; cbn [nth]; rewrite len_le; reflexivity)]). change (nth 9 Fs []) with (le 8 (wp_time r)).
  rewrite (F' 10%nat (len P + 128) 4) by (first [lia | reflexivity | (unfold Fs; cbn [nth]; rewrite len_le; reflexivity)]). change (nth 10 Fs []) with (le 4 (Z.of_nat (length ams))).
  rewrite !V8 by assumption. rewrite (V4 (Z.of_nat (length ams)) W8). rewrite (le_val_le_id 2) by exact W3. rewrite Nat2Z.id.
  rewrite (seconds_ok _ W6). change (if wp_time r =? 0 then 0 else wp_time r mod 10000000 * 100) with (unix_nanoseconds (wp_time r)).
  (* the endpoint *)
  assert (Eep : (if Z.testbit (wp_flags r) 3 then win_endpoint (P ++ concat Fs ++ Q) (len P + 76) else Some EpNone) = Some (p_endpoint p)).
  { destruct (Z.testbit (wp_flags r) 3); [|congruence]. rewrite (split_fields 6 Fs) by (rewrite Hlen; lia). change (nth 6 Fs []) with (wp_sa r). rewrite <- !app_assoc. rewrite (app_assoc P).
    replace (len P + 76) with (len (P ++ concat (firstn 6 Fs))) by (rewrite len_app; destruct (OFF 6%nat) as [-> |]; [reflexivity|lia]).
    apply win_endpoint_spec; [split; assumption|]. symmetry. exact T9. }
  rewrite Eep.
  set (H := concat Fs). assert (LH : len H = 136).
  { unfold H, Fs. cbn [concat]. rewrite ?len_app, ?len_le, ?L1, ?L2, ?L3, ?L4, ?L5, len_nil. reflexivity. }
  unfold Q, R'. rewrite (app_assoc P H).
  rewrite (wget_aips_spec _ _ Hams (p_aips p) (P ++ H) (concat ms ++ R) (len P + wz_peer) mem T14) by (rewrite len_app, LH; reflexivity).
  assert (Lam : length ams = length (p_aips p)).
  { rewrite <- (F2_length _ _ _ _ _ Hams). rewrite <- (map_length wsays_aip), T14, map_length. reflexivity. }
  rewrite Lam.
  assert (EP : forall psk, (if Z.testbit (wp_flags r) 1 then Some (wp_psk r) else Some zero_key) = Some psk -> psk = p_psk p /\ Z.testbit (wp_flags r) 1 && negb (key_is_zero psk) = p_has_psk p).
  { intros psk Ek. rewrite T6, T5. unfold if_set, nonzero_key. destruct (Z.testbit (wp_flags r) 1); injection Ek as <-; [|split; reflexivity]. split; [reflexivity|]. cbn [andb]. f_equal.
    assert (Kk : is_key (wp_psk r)) by (split; [unfold len in L2; lia|exact B2]).
    pose proof (key_is_zero_correct _ Kk) as C. destruct (key_is_zero (wp_psk r)) eqn:Ez.
    - symmetry. apply beq_eq. apply C. reflexivity.
    - symmetry. apply beq_neq. intro Hz. apply C in Hz. congruence. }
  assert (X1 : (if Z.testbit (wp_flags r) 0 then Some (wp_pub r) else Some zero_key) = Some (p_pub p)) by (rewrite T4; unfold if_set; destruct (Z.testbit (wp_flags r) 0); reflexivity).
  assert (X2 : (if Z.testbit (wp_flags r) 1 then Some (wp_psk r) else Some zero_key) = Some (p_psk p)) by (rewrite T5; unfold if_set; destruct (Z.testbit (wp_flags r) 1); reflexivity).
  assert (X3 : (if Z.testbit (wp_flags r) 2 then Some (wp_ka r) else Some 0) = Some (p_ka p)) by (rewrite T8; unfold if_set; destruct (Z.testbit (wp_flags r) 2); reflexivity).
  rewrite X1, X2, X3. destruct (EP _ X2) as [_ EP2]. rewrite EP2.
  destruct (Nat.leb_spec (length (p_aips p)) mem) as [Hm|Hm].
  2: { destruct (Nat.leb_spec (length (p_aips p) + allocs ps) mem); [lia|reflexivity]. }
  replace ((P ++ H) ++ concat ams ++ concat ms ++ R) with ((P ++ m) ++ concat ms ++ R).
  2: { rewrite Em. fold Fs. fold H. rewrite <- !app_assoc. reflexivity. }
  rewrite (IH ps (P ++ m) R (len P + wz_peer + 24 * Z.of_nat (length (p_aips p))) (mem - length (p_aips p))%nat Hps').
  2: { rewrite len_app, Lm. unfold wz_peer. rewrite <- (map_length wsays_aip (wp_aips r)), T14, map_length. lia. }
  destruct (Nat.leb_spec (allocs ps) (mem - length (p_aips p))) as [Hn|Hn]; destruct (Nat.leb_spec (length (p_aips p) + allocs ps) mem); try lia; [|reflexivity].
  do 2 f_equal; [|lia]. f_equal.
  rewrite <- T3, <- T7. rewrite <- T10, <- T11, <- T12, <- T13. clear - T1 T2.
  destruct p as [q1 q2 q3 q4 q5 q6 q7 q8 q9 q10 q11 q12 q13 q14]. cbn in *. subst. reflexivity.
Qed.

Lemma wget_block_spec : forall iface b R d mem, wtells b d ->
  wget_block iface (b ++ R) mem = Some (if (S (allocs (d_peers d)) <=? mem)%nat then Got (set_name (firstn 63 iface) d) (mem - S (allocs (d_peers d)))%nat else NoMem).
Proof.
  intros iface b R d mem (r & Hb & T). cbv zeta in T. destruct mem as [|mem]; [reflexivity|]. cbn [wget_block Nat.leb Nat.sub].
  destruct Hb as (W1 & W2 & (L1 & B1) & (L2 & B2) & pad & pad' & ms & (L3 & B3) & (L4 & B4) & Hms & W4 & Eb).
  destruct T as (T0 & T1 & T8 & T9 & T2 & T3 & T4 & T5 & T6 & T7 & T10). rewrite Eb. rewrite <- app_assoc. set (Q := concat ms ++ R).
  match goal with |- context [concat ?l ++ Q] => set (Fs := l) end.
  assert (F : forall i a n, (i < length Fs)%nat -> a = len (concat (firstn i Fs)) -> n = len (nth i Fs []) -> peek (concat Fs ++ Q) a n = Some (nth i Fs [])).
  { intros i a n Hi Ha Hn. apply (peek_field [] Fs Q i a n Hi); [rewrite len_nil; exact Ha|exact Hn]. }
  rewrite (F 0%nat 0 4) by (first [(unfold Fs; cbn [length]; lia) | reflexivity | (unfold Fs; cbn [nth]; rewrite len_le; reflexivity)]). change (nth 0 Fs []) with (le 4 (wi_flags r)). unfold bit.
  rewrite (F 1%nat 4 2) by (first [(unfold Fs; cbn [length]; lia) | (unfold Fs; cbn [firstn concat]; rewrite !len_app, !len_le, len_nil; reflexivity) | (unfold Fs; cbn [nth]; rewrite len_le; reflexivity)]).
  change (nth 1 Fs []) with (le 2 (wi_port r)).
  rewrite (F 2%nat 6 32) by (first [(unfold Fs; cbn [length]; lia) | (unfold Fs; cbn [firstn concat]; rewrite !len_app, !len_le, len_nil; reflexivity) | (unfold Fs; cbn [nth]; rewrite L1; reflexivity)]).
  change (nth 2 Fs []) with (wi_priv r).
  rewrite (F 3%nat 38 32) by (first [(unfold Fs; cbn [length]; lia) | (unfold Fs; cbn [firstn concat]; rewrite !len_app, !len_le, L1, len_nil; reflexivity) | (unfold Fs; cbn [nth]; rewrite L2; reflexivity)]).
  change (nth 3 Fs []) with (wi_pub r).
  rewrite (F 5%nat 72 4) by (first [(unfold Fs; cbn [length]; lia) | (unfold Fs; cbn [firstn concat]; rewrite !len_app, !len_le, L3, L1, L2, len_nil; reflexivity) | (unfold Fs; cbn [nth]; rewrite len_le; reflexivity)]).
  change (nth 5 Fs []) with (le 4 (Z.of_nat (length ms))).
  rewrite !le_val_le_id by (first [exact W4 | exact W2 | exact W1]). rewrite Nat2Z.id.
  set (H := concat Fs). assert (LH : len H = 80) by (unfold H, Fs; cbn [concat]; rewrite ?len_app, ?len_le, ?L1, ?L2, ?L3, ?L4, len_nil; reflexivity).
  unfold Q. rewrite (wget_peers_spec _ _ Hms (d_peers d) H R wz_iface mem T10) by (rewrite LH; reflexivity).
  assert (X2 : (if Z.testbit (wi_flags r) 2 then Some (wi_port r) else Some 0) = Some (d_port d)) by (rewrite T7; unfold if_set; destruct (Z.testbit (wi_flags r) 2); reflexivity).
  assert (X3 : (if Z.testbit (wi_flags r) 0 then Some (wi_pub r) else Some zero_key) = Some (d_pub d)) by (rewrite T3; unfold if_set; destruct (Z.testbit (wi_flags r) 0); reflexivity).
  assert (X4 : (if Z.testbit (wi_flags r) 1 then Some (wi_priv r) else Some zero_key) = Some (d_priv d)) by (rewrite T5; unfold if_set; destruct (Z.testbit (wi_flags r) 1); reflexivity).
  rewrite X2, X3, X4. destruct (Nat.leb_spec (allocs (d_peers d)) mem); [|reflexivity].
  do 2 f_equal. rewrite <- T2, <- T4, <- T6. unfold set_name. destruct d. cbn in *. subst. reflexivity.
Qed.
