(** Proofs about the OpenBSD backend: writing. *)
From Coq Require Import ZArith List Bool Lia.
From Verif Require Import Base Types Encoding NlSpec NlProofs NlSetProofs NlSet Fields ObsdSpec Obsd.
Import ListNotations.
Open Scope Z_scope.

Definition upd {A} (i : nat) (y : A) (l : list A) : list A := firstn i l ++ y :: skipn (S i) l.

(** A field that is stored and flagged if [c]. *)
Lemma put_flagged : forall P R n fl Fs i a b y bits (c : bool), 0 <= n -> 0 <= fl < 256 ^ n -> (i < length Fs)%nat -> b = len P ->
  a = b + n + len (concat (firstn i Fs)) -> (c = true -> len y = len (nth i Fs [])) ->
  (if c then let* m := poke (P ++ concat (le (Z.to_nat n) fl :: Fs) ++ R) a y in or_bits m b n bits else Some (P ++ concat (le (Z.to_nat n) fl :: Fs) ++ R))
  = Some (P ++ concat (le (Z.to_nat n) (Z.lor fl (if c then bits else 0)) :: upd i (if c then y else nth i Fs []) Fs) ++ R).
Proof.
  intros P R n fl Fs i a b y bits c Hn Hf Hi -> Ha Hl. destruct c.
  - rewrite (poke_field P _ R (S i) a y).
    + cbn [firstn skipn app]. rewrite (or_bits_field P _ R 0 (len P) n bits fl); [reflexivity| | |reflexivity|exact Hn|exact Hf].
      * cbn. lia.
      * cbn [firstn concat]. rewrite len_nil. lia.
    + cbn [length]. lia.
    + cbn [firstn concat]. rewrite len_app, len_le. rewrite Z2Nat.id by lia. lia.
    + cbn [nth]. apply Hl. reflexivity.
  - rewrite Z.lor_0_r. unfold upd. do 2 f_equal. f_equal. cbn [concat]. f_equal. rewrite concat_app. cbn [concat]. apply split_fields, Hi.
Qed.
Lemma put_flag : forall P R n fl Fs b bits (c : bool), 0 <= n -> 0 <= fl < 256 ^ n -> b = len P ->
  (if c then or_bits (P ++ concat (le (Z.to_nat n) fl :: Fs) ++ R) b n bits else Some (P ++ concat (le (Z.to_nat n) fl :: Fs) ++ R))
  = Some (P ++ concat (le (Z.to_nat n) (Z.lor fl (if c then bits else 0)) :: Fs) ++ R).
Proof.
  intros P R n fl Fs b bits c Hn Hf ->. destruct c; [|rewrite Z.lor_0_r; reflexivity].
  rewrite (or_bits_field P _ R 0 (len P) n bits fl); [reflexivity| | |reflexivity|exact Hn|exact Hf]; [cbn; lia|]. cbn [firstn concat]. rewrite len_nil. lia.
Qed.

(** ** Allowed IPs *)
Definition raw_of_aip (x : allowedip) : raw_aip := mk_raw_aip (af_out (a_family x)) (a_cidr x) (a_ip x ++ repeat 0 (16 - length (a_ip x))).
Definition aip_mem (x : allowedip) : list Z := concat [[af_out (a_family x)]; [0; 0; 0]; le 4 (a_cidr x); a_ip x ++ repeat 0 (16 - length (a_ip x))].

Lemma bytes_zero : forall n, Forall is_byte (repeat 0 n).
Proof. intro n. apply Forall_forall. intros x Hx. apply repeat_spec in Hx. subst. unfold is_byte. lia. Qed.
Lemma aip_raw : forall x, wf_aip x -> aip_bytes (raw_of_aip x) (aip_mem x) /\ says_aip (raw_of_aip x) = Some x /\ len (aip_mem x) = 24.
Proof.
  intros [f ip c] H. unfold wf_aip in H. cbn [a_family a_ip a_cidr] in H.
  assert (E : (f = 2 \/ f = 10) /\ 0 <= c <= 128 /\ Forall is_byte ip /\ (length ip <= 16)%nat /\ (f = 2 -> length ip = 4%nat) /\ (f = 10 -> length ip = 16%nat)).
  { unfold AF_INET, AF_INET6 in H. destruct H as [(-> & L & B & C)|(-> & L & B & C)]; repeat split; try (left; reflexivity); try (right; reflexivity); try assumption; try lia; congruence. }
  destruct E as (Ef & Ec & Eb & El & E4 & E6).
  assert (L16 : len (ip ++ repeat 0 (16 - length ip)) = 16) by (rewrite len_app, len_repeat; unfold len; lia).
  assert (Hout : af_out f = 2 /\ f = 2 \/ af_out f = 24 /\ f = 10) by (destruct Ef as [-> | ->]; [left|right]; split; reflexivity).
  split; [|split].
  - unfold aip_bytes, raw_of_aip. cbn [ra_af ra_cidr ra_addr a_family a_ip a_cidr]. split; [unfold word; destruct Hout as [[-> _]|[-> _]]; lia|].
    split; [unfold word; change (2 ^ 32) with 4294967296; lia|].
    split; [split; [exact L16|apply Forall_app; split; [exact Eb|apply bytes_zero]]|].
    exists [0; 0; 0]. split; [split; [reflexivity|exact (bytes_zero 3)]|]. reflexivity.
  - unfold says_aip, raw_of_aip. cbn [ra_af ra_cidr ra_addr a_family a_ip a_cidr]. destruct Hout as [[-> ->]|[-> ->]].
    + cbn [Z.eqb Pos.eqb]. rewrite firstn_app. rewrite (E4 eq_refl). replace (firstn 4 ip) with ip by (symmetry; apply firstn_all2; rewrite (E4 eq_refl); lia).
      cbn [Nat.sub firstn]. rewrite app_nil_r. reflexivity.
    + cbn [Z.eqb Pos.eqb]. rewrite (E6 eq_refl). cbn [Nat.sub repeat]. rewrite app_nil_r. reflexivity.
  - unfold aip_mem. cbn [concat a_family a_ip a_cidr]. set (w := ip ++ _) in *. rewrite !len_app, L16, len_le. reflexivity.
Qed.

Lemma put_aips_spec : forall l P R a count, Forall wf_aip l -> a = len P ->
  put_aips (P ++ repeat 0 (24 * length l) ++ R) a l count = Some (P ++ concat (map aip_mem l) ++ R, a + 24 * Z.of_nat (length l), count + Z.of_nat (length l)).
Proof.
  induction l as [|x l IH]; intros P R a count Hw Ha.
  { cbn. rewrite Z.add_0_r, Z.add_0_r. reflexivity. }
  inversion Hw as [|? ? Hx Hl]; subst. destruct (aip_raw x Hx) as (_ & _ & L24). cbn [put_aips].
  replace (24 * length (x :: l))%nat with (24 + 24 * length l)%nat by (cbn [length]; lia). rewrite repeat_app. rewrite <- app_assoc.
  set (R' := repeat 0 (24 * length l) ++ R).
  assert (Z16 : forall n, (n <= 16)%nat -> repeat 0 16 = repeat 0 n ++ repeat 0 (16 - n)) by (intros n Hn; rewrite <- repeat_app; f_equal; lia).
  assert (Hn : (length (a_ip x) <= 16)%nat) by (destruct Hx as [(_ & -> & _)|(_ & -> & _)]; lia).
  change (repeat 0 24) with (concat [[0]; [0; 0; 0]; le 4 0; repeat 0 16]). rewrite (Z16 _ Hn).
  replace (concat [[0]; [0; 0; 0]; le 4 0; repeat 0 (length (a_ip x)) ++ repeat 0 (16 - length (a_ip x))])
    with (concat [[0]; [0; 0; 0]; le 4 0; repeat 0 (length (a_ip x)); repeat 0 (16 - length (a_ip x))]).
  2: { cbn [concat]. rewrite !app_nil_r. reflexivity. }
  rewrite (poke_field P _ R' 0); [|cbn; lia|cbn [firstn concat]; rewrite len_nil; lia|reflexivity]. cbn [firstn app skipn].
  rewrite (poke_field P _ R' 2); [|cbn; lia|cbn [firstn concat]; rewrite !len_app, len_nil; reflexivity|cbn [nth]; rewrite !len_le; reflexivity]. cbn [firstn app skipn].
  assert (Hput : poke (P ++ concat [[af_out (a_family x)]; [0; 0; 0]; le 4 (a_cidr x); repeat 0 (length (a_ip x)); repeat 0 (16 - length (a_ip x))] ++ R') (len P + 8) (a_ip x)
     = Some (P ++ aip_mem x ++ R')).
  { rewrite (poke_field P _ R' 3); [|cbn; lia|cbn [firstn concat]; rewrite !len_app, len_le, len_nil; reflexivity|cbn [nth]; rewrite len_repeat; reflexivity]. cbn [firstn app skipn].
    unfold aip_mem. cbn [concat]. rewrite !app_nil_r. reflexivity. }
  rewrite Hput. assert (Step : put_aips (P ++ aip_mem x ++ R') (len P + sz_aip) l (count + 1)
     = Some (P ++ concat (map aip_mem (x :: l)) ++ R, len P + 24 * Z.of_nat (length (x :: l)), count + Z.of_nat (length (x :: l)))).
  { unfold R'. rewrite (app_assoc P). rewrite (IH (P ++ aip_mem x) R (len P + sz_aip) (count + 1) Hl).
    - cbn [map concat length]. rewrite <- !app_assoc. unfold sz_aip. do 2 f_equal; [f_equal|]; lia.
    - rewrite len_app, L24. reflexivity. }
  rewrite Step. destruct Hx as [(-> & _)|(-> & _)]; reflexivity.
Qed.

(** ** Peers *)
Definition flags_of (p : peer) : Z :=
  Z.lor (Z.lor (Z.lor (Z.lor (Z.lor 1 (if p_has_psk p then 2 else 0)) (if p_has_ka p then 4 else 0)) (match p_endpoint p with EpNone => 0 | _ => 8 end))
    (if p_replace_aips p then 16 else 0)) (if p_remove p then 32 else 0).
Definition raw_of_peer (p : peer) : raw_peer :=
  mk_raw_peer (flags_of p) 0 (p_pub p) (if p_has_psk p then p_psk p else zero_key) (if p_has_ka p then p_ka p else 0) (bsd_sockaddr (p_endpoint p)) 0 0 0 0
    (map raw_of_aip (p_aips p)).
Definition peer_mem (p : peer) : list Z :=
  concat [le 4 (flags_of p); le 4 0; p_pub p; if p_has_psk p then p_psk p else zero_key; le 2 (if p_has_ka p then p_ka p else 0); [0; 0]; bsd_sockaddr (p_endpoint p);
          le 8 0; le 8 0; le 8 0; le 8 0; le 8 (Z.of_nat (length (p_aips p)))] ++ concat (map aip_mem (p_aips p)).

Lemma len_bsd : forall e, wf_endpoint e -> len (bsd_sockaddr e) = 28 /\ Forall is_byte (bsd_sockaddr e).
Proof.
  intros [|a p|a p f s] H; cbn in H.
  - split; [reflexivity|apply bytes_zero].
  - destruct H as (L & B & Hp). split.
    + unfold bsd_sockaddr, be16. rewrite !len_app, !len_repeat. unfold len. rewrite L. reflexivity.
    + unfold bsd_sockaddr, be16, AF_INET. repeat (apply Forall_app; split); try exact B; try exact (bytes_zero 8); try exact (bytes_zero 12);
        repeat (apply Forall_cons; [unfold is_byte; first [lia | (pose proof (Z.mod_pos_bound p 256); lia) | (split; [apply Z.div_pos; lia|apply Z.div_lt_upper_bound; lia])]|]); apply Forall_nil.
  - destruct H as (L & B & Hp & Hf & Hs). split.
    + unfold bsd_sockaddr, be16. rewrite !len_app, !len_le. unfold len. rewrite L. reflexivity.
    + unfold bsd_sockaddr, be16, BSD_INET6. repeat (apply Forall_app; split); try exact B; try apply le_bytes;
        repeat (apply Forall_cons; [unfold is_byte; first [lia | (pose proof (Z.mod_pos_bound p 256); lia) | (split; [apply Z.div_pos; lia|apply Z.div_lt_upper_bound; lia])]|]); apply Forall_nil.
Qed.
Lemma says_bsd : forall e, wf_endpoint e -> e <> EpNone -> says_endpoint (bsd_sockaddr e) = Some e.
Proof.
  intros [|a p|a p f s] H He; cbn in H; [congruence| |].
  - destruct H as (L & B & Hp). destruct a as [|a0 [|a1 [|a2 [|a3 [|]]]]]; try discriminate L. unfold says_endpoint, bsd_sockaddr, be16. cbn [app].
    change ((16 =? 16) && (AF_INET =? 2)) with true. cbv iota. cbn [firstn repeat app]. f_equal. f_equal. pose proof (Z.div_mod p 256). lia.
  - destruct H as (L & B & Hp & Hf & Hs). unfold says_endpoint, bsd_sockaddr, be16. change ([28; BSD_INET6] ++ ?x) with (28 :: BSD_INET6 :: x). cbn [app].
    change ((28 =? 16) && (BSD_INET6 =? 2)) with false. change ((28 =? 28) && (BSD_INET6 =? 24)) with true. cbv iota.
    replace (skipn 4 (le 4 f ++ a ++ le 4 s)) with (a ++ le 4 s) by reflexivity.
    replace (firstn 4 (le 4 f ++ a ++ le 4 s)) with (le 4 f) by reflexivity.
    replace (firstn 16 (a ++ le 4 s)) with a by (rewrite <- L, firstn_app_exact; reflexivity).
    replace (skipn 20 (le 4 f ++ a ++ le 4 s)) with (le 4 s).
    2: { change (skipn 20 (le 4 f ++ a ++ le 4 s)) with (skipn 16 (a ++ le 4 s)). rewrite <- L, skipn_app_exact. reflexivity. }
    change (firstn 4 (le 4 s)) with (le 4 s). rewrite !le_val_le_id by (change (256 ^ Z.of_nat 4) with (2 ^ 32); assumption). f_equal. f_equal. pose proof (Z.div_mod p 256). lia.
Qed.

Lemma lor_small : forall n x y, 0 <= x < 2 ^ n -> 0 <= y < 2 ^ n -> 0 <= n -> 0 <= Z.lor x y < 2 ^ n.
Proof.
  intros n x y Hx Hy Hn. split; [apply Z.lor_nonneg; lia|].
  destruct (Z.eq_dec (Z.lor x y) 0) as [->|Hne]; [lia|]. apply Z.log2_lt_pow2; [pose proof (proj2 (Z.lor_nonneg x y)); lia|]. rewrite Z.log2_lor by lia.
  apply Z.max_lub_lt.
  - destruct (Z.eq_dec x 0) as [->|]; [cbn; destruct (Z.eq_dec n 0); [subst; assert (y = 0) by (change (2 ^ 0) with 1 in Hy; lia); subst; cbn in Hne; lia|lia]|apply Z.log2_lt_pow2; lia].
  - destruct (Z.eq_dec y 0) as [->|]; [cbn; destruct (Z.eq_dec n 0); [subst; assert (x = 0) by (change (2 ^ 0) with 1 in Hx; lia); subst; cbn in Hne; lia|lia]|apply Z.log2_lt_pow2; lia].
Qed.
Lemma flags_small : forall p, 0 <= flags_of p < 64.
Proof.
  intro p. unfold flags_of. change 64 with (2 ^ 6). repeat (apply lor_small; try lia); try (destruct (p_endpoint p)); try (destruct (p_has_psk p)); try (destruct (p_has_ka p));
    try (destruct (p_replace_aips p)); try (destruct (p_remove p)); lia.
Qed.

Lemma peer_raw : forall p, wf_peer p -> Z.of_nat (length (p_aips p)) < 2 ^ 64 ->
  peer_bytes (raw_of_peer p) (peer_mem p) /\ asks_peer (raw_of_peer p) (rq_peer_of p) /\ len (peer_mem p) = 144 + 24 * Z.of_nat (length (p_aips p)).
Proof.
  intros p (Hpub & Hpsk & Hep & Hka & Haip & _) Hn.
  destruct (len_bsd _ Hep) as [Lsa Bsa]. destruct Hpub as [Lp Bp]. destruct Hpsk as [Lk Bk].
  assert (Lps : len (p_pub p) = 32) by (unfold len; lia).
  assert (Lpk : bytes 32 (if p_has_psk p then p_psk p else zero_key)).
  { destruct (p_has_psk p); split; try assumption; [unfold len; lia|reflexivity|apply bytes_zero]. }
  assert (Hka' : 0 <= (if p_has_ka p then p_ka p else 0) < 65536) by (destruct (p_has_ka p); lia).
  assert (Has : Forall2 aip_bytes (map raw_of_aip (p_aips p)) (map aip_mem (p_aips p)) /\ map says_aip (map raw_of_aip (p_aips p)) = map Some (p_aips p)
     /\ len (concat (map aip_mem (p_aips p))) = 24 * Z.of_nat (length (p_aips p))).
  { clear Hn. induction Haip as [|x l Hx Hl IH]; [cbn; split; [constructor|split; reflexivity]|]. destruct IH as (I1 & I2 & I3). destruct (aip_raw x Hx) as (A1 & A2 & A3).
    cbn [map concat length]. split; [constructor; assumption|]. split; [rewrite A2, I2; reflexivity|]. rewrite len_app, A3, I3. lia. }
  destruct Has as (H1 & H2 & H3). pose proof (flags_small p) as Hfs. split; [|split].
  - unfold peer_bytes, raw_of_peer. cbn [rw_flags rw_version rw_pub rw_psk rw_pka rw_sa rw_tx rw_rx rw_sec rw_nsec rw_aips]. unfold word.
    split; [change (2 ^ 32) with 4294967296; lia|]. split; [lia|]. split; [split; [exact Lps|exact Bp]|]. split; [exact Lpk|]. split; [exact Hka'|]. split; [split; assumption|].
    split; [lia|]. split; [lia|]. split; [lia|]. split; [lia|].
    exists [0; 0], (map aip_mem (p_aips p)). split; [split; [reflexivity|exact (bytes_zero 2)]|]. split; [exact H1|]. rewrite map_length. split; [lia|]. reflexivity.
  - unfold asks_peer, raw_of_peer, rq_peer_of. cbn [rw_flags rw_version rw_pub rw_psk rw_pka rw_sa rw_tx rw_rx rw_sec rw_nsec rw_aips rp_pub rp_psk rp_ka rp_endpoint rp_replace rp_remove rp_aips].
    assert (T : forall n, Z.testbit (flags_of p) n = Z.testbit (flags_of p) n) by reflexivity. unfold flags_of. pose proof (says_bsd _ Hep) as Se.
    destruct (p_has_psk p), (p_has_ka p), (p_replace_aips p), (p_remove p), (p_endpoint p) as [|ea ep|ea ep ef es]; cbn [Z.lor Pos.lor Z.testbit Pos.testbit Pos.pred_N Pos.pred_double opt];
      repeat (split; [first [reflexivity | (split; [symmetry; apply Se; discriminate|rewrite Se by discriminate; discriminate])]|]); exact H2.
  - unfold peer_mem. rewrite len_app, H3. cbn [concat]. rewrite !len_app, !len_le, Lps, (proj1 Lpk), Lsa, len_nil. unfold len. cbn [length Z.of_nat Pos.of_succ_nat Pos.succ]. lia.
Qed.

Lemma put_peer_spec : forall p P R a, wf_peer p -> a = len P ->
  put_peer (P ++ repeat 0 (144 + 24 * length (p_aips p)) ++ R) a p = Some (P ++ peer_mem p ++ R, a + 144 + 24 * Z.of_nat (length (p_aips p))).
Proof.
  intros p P R a Hw ->. destruct Hw as ((Lp & Bp) & (Lk & Bk) & Hep & Hka & Haip & _). destruct (len_bsd _ Hep) as [Lsa Bsa].
  assert (Lps : len (p_pub p) = 32) by (unfold len; lia). assert (Lks : len (p_psk p) = 32) by (unfold len; lia).
  rewrite repeat_app, <- app_assoc. set (R' := repeat 0 (24 * length (p_aips p)) ++ R).
  change (repeat 0 144) with (concat [le 4 0; le 4 0; zero_key; zero_key; le 2 0; [0; 0]; repeat 0 28; le 8 0; le 8 0; le 8 0; le 8 0; le 8 0]).
  unfold put_peer.
  rewrite (poke_field P _ R' 0); [|cbn [length]; lia|cbn [firstn concat]; rewrite len_nil; lia|reflexivity]. cbn [firstn skipn app].
  rewrite (poke_field P _ R' 2); [|cbn [length]; lia|cbn [firstn concat]; rewrite !len_app, !len_le, len_nil; reflexivity|cbn [nth]; rewrite Lps; reflexivity]. cbn [firstn skipn app].
  change (le 4 1) with (le (Z.to_nat 4) 1).
  rewrite (put_flagged P R' 4 1 _ 2 (len P + 40) (len P) (p_psk p) 2 (p_has_psk p));
    [|lia|change (256 ^ 4) with 4294967296; lia|cbn [length]; lia|reflexivity|cbn [firstn concat]; rewrite !len_app, !len_le, Lps, len_nil; lia|intros _; cbn [nth]; rewrite Lks; reflexivity].
  set (f1 := Z.lor 1 (if p_has_psk p then 2 else 0)). unfold upd. cbn [firstn skipn app nth].
  assert (Lk' : len (if p_has_psk p then p_psk p else zero_key) = 32) by (destruct (p_has_psk p); [exact Lks|reflexivity]).
  set (k' := if p_has_psk p then p_psk p else zero_key) in *.
  assert (F1 : 0 <= f1 < 2 ^ 6) by (apply lor_small; try lia; destruct (p_has_psk p); lia).
  rewrite (put_flagged P R' 4 f1 _ 3 (len P + 72) (len P) (le 2 (p_ka p)) 4 (p_has_ka p));
    [|lia|change (256 ^ 4) with 4294967296; lia|cbn [length]; lia|reflexivity|cbn [firstn concat]; rewrite !len_app, !len_le, Lps, Lk', len_nil; lia|intros _; cbn [nth]; rewrite !len_le; reflexivity].
  set (f2 := Z.lor f1 (if p_has_ka p then 4 else 0)). unfold upd. cbn [firstn skipn app nth].
  assert (F2 : 0 <= f2 < 2 ^ 6) by (apply lor_small; try lia; destruct (p_has_ka p); lia).
  replace (if p_has_ka p then le 2 (p_ka p) else le 2 0) with (le 2 (if p_has_ka p then p_ka p else 0)) by (destruct (p_has_ka p); reflexivity).
  set (ka := le 2 (if p_has_ka p then p_ka p else 0)).
  assert (Lka : len ka = 2) by (unfold ka; rewrite len_le; reflexivity).
  set (c := ((nth 1 (bsd_sockaddr (p_endpoint p)) 0 =? AF_INET) || (nth 1 (bsd_sockaddr (p_endpoint p)) 0 =? BSD_INET6)) && (nth 0 (bsd_sockaddr (p_endpoint p)) 0 <=? 28)).
  set (f3 := Z.lor f2 (match p_endpoint p with EpNone => 0 | _ => 8 end)).
  assert (Stp : (if c then let* b := poke (P ++ concat (le (Z.to_nat 4) f2 :: [le 4 0; p_pub p; k'; ka; [0; 0]; repeat 0 28; le 8 0; le 8 0; le 8 0; le 8 0; le 8 0]) ++ R') (len P + 76)
                     (firstn (Z.to_nat (nth 0 (bsd_sockaddr (p_endpoint p)) 0)) (bsd_sockaddr (p_endpoint p))) in or_bits b (len P) 4 8
                 else Some (P ++ concat (le (Z.to_nat 4) f2 :: [le 4 0; p_pub p; k'; ka; [0; 0]; repeat 0 28; le 8 0; le 8 0; le 8 0; le 8 0; le 8 0]) ++ R'))
    = Some (P ++ concat (le (Z.to_nat 4) f3 :: [le 4 0; p_pub p; k'; ka; [0; 0]; bsd_sockaddr (p_endpoint p); le 8 0; le 8 0; le 8 0; le 8 0; le 8 0]) ++ R')).
  { destruct (p_endpoint p) as [|ea ep|ea ep ef es] eqn:Ee.
    - unfold f3. rewrite Z.lor_0_r. reflexivity.
    - change c with true. cbv iota. unfold f3. cbn in Hep. destruct Hep as (La & Ba & Hp).
      replace (firstn (Z.to_nat (nth 0 (bsd_sockaddr (Ep4 ea ep)) 0)) (bsd_sockaddr (Ep4 ea ep))) with ([16; AF_INET] ++ be16 ep ++ ea ++ repeat 0 8).
      2: { destruct ea as [|a0 [|a1 [|a2 [|a3 [|]]]]]; try discriminate La. reflexivity. }
      replace (concat (le (Z.to_nat 4) f2 :: [le 4 0; p_pub p; k'; ka; [0; 0]; repeat 0 28; le 8 0; le 8 0; le 8 0; le 8 0; le 8 0]))
        with (concat (le (Z.to_nat 4) f2 :: [le 4 0; p_pub p; k'; ka; [0; 0]; repeat 0 16; repeat 0 12; le 8 0; le 8 0; le 8 0; le 8 0; le 8 0])) by reflexivity.
      rewrite (poke_field P _ R' 6); [|cbn [length]; lia|cbn [firstn concat]; rewrite !len_app, !len_le, Lps, Lk', Lka, len_nil; reflexivity|
         cbn [nth]; rewrite !len_app, !len_repeat; unfold len; rewrite La; reflexivity]. cbn [firstn skipn app].
      rewrite (or_bits_field P _ R' 0 (len P) 4 8 f2); [|cbn [length]; lia|cbn [firstn concat]; rewrite len_nil; lia|reflexivity|lia|change (256 ^ 4) with 4294967296; lia].
      cbn [firstn skipn app concat bsd_sockaddr]. rewrite <- !app_assoc. reflexivity.
    - change c with true. cbv iota. unfold f3. cbn in Hep. destruct Hep as (La & Ba & Hp & Hf & Hs).
      replace (firstn (Z.to_nat (nth 0 (bsd_sockaddr (Ep6 ea ep ef es)) 0)) (bsd_sockaddr (Ep6 ea ep ef es))) with (bsd_sockaddr (Ep6 ea ep ef es)).
      2: { symmetry. apply firstn_all2. change (Z.to_nat (nth 0 (bsd_sockaddr (Ep6 ea ep ef es)) 0)) with 28%nat. unfold len in Lsa. lia. }
      rewrite (poke_field P _ R' 6); [|cbn [length]; lia|cbn [firstn concat]; rewrite !len_app, !len_le, Lps, Lk', Lka, len_nil; reflexivity|cbn [nth]; rewrite Lsa; reflexivity]. cbn [firstn skipn app].
      rewrite (or_bits_field P _ R' 0 (len P) 4 8 f2); [|cbn [length]; lia|cbn [firstn concat]; rewrite len_nil; lia|reflexivity|lia|change (256 ^ 4) with 4294967296; lia].
      reflexivity. }
  rewrite Stp. clear Stp.
  assert (F3 : 0 <= f3 < 2 ^ 6) by (apply lor_small; try lia; destruct (p_endpoint p); lia).
  rewrite (put_flag P R' 4 f3 _ (len P) 16 (p_replace_aips p)); [|lia|change (256 ^ 4) with 4294967296; lia|reflexivity].
  set (f4 := Z.lor f3 (if p_replace_aips p then 16 else 0)).
  assert (F4 : 0 <= f4 < 2 ^ 6) by (apply lor_small; try lia; destruct (p_replace_aips p); lia).
  rewrite (put_flag P R' 4 f4 _ (len P) 32 (p_remove p)); [|lia|change (256 ^ 4) with 4294967296; lia|reflexivity].
  change (Z.lor f4 (if p_remove p then 32 else 0)) with (flags_of p). change (Z.to_nat 4) with 4%nat.
  set (H := concat (le 4 (flags_of p) :: [le 4 0; p_pub p; k'; ka; [0; 0]; bsd_sockaddr (p_endpoint p); le 8 0; le 8 0; le 8 0; le 8 0; le 8 0])).
  assert (LH : len H = 144) by (unfold H; cbn [concat]; rewrite !len_app, !len_le, Lps, Lk', Lka, Lsa, len_nil; reflexivity).
  unfold R'. rewrite (app_assoc P H). rewrite (put_aips_spec (p_aips p) (P ++ H) R (len P + sz_peer) 0 Haip); [|rewrite len_app, LH; reflexivity].
  rewrite <- app_assoc. unfold H.
  rewrite (poke_field P _ (concat (map aip_mem (p_aips p)) ++ R) 11); [|cbn [length]; lia|cbn [firstn concat]; rewrite !len_app, !len_le, Lps, Lk', Lka, Lsa, len_nil; reflexivity|cbn [nth]; rewrite !len_le; reflexivity].
  cbn [firstn skipn app]. rewrite Z.add_0_l. unfold peer_mem, k', ka, sz_peer. rewrite <- app_assoc. reflexivity.
Qed.

Definition zeros_of (ps : list peer) : nat := fold_right (fun p n => 144 + 24 * length (p_aips p) + n)%nat 0%nat ps.
Lemma put_peers_spec : forall ps P R a count, Forall wf_peer ps -> a = len P ->
  put_peers (P ++ repeat 0 (zeros_of ps) ++ R) a ps count = Some (P ++ concat (map peer_mem ps) ++ R, count + Z.of_nat (length ps)).
Proof.
  induction ps as [|p ps IH]; intros P R a count Hw ->.
  { cbn. rewrite Z.add_0_r. reflexivity. }
  inversion Hw as [|? ? Hp Hps]; subst. cbn [put_peers].
  change (zeros_of (p :: ps)) with (144 + 24 * length (p_aips p) + zeros_of ps)%nat. rewrite repeat_app, <- app_assoc.
  rewrite (put_peer_spec p P _ (len P) Hp eq_refl). rewrite (app_assoc P). rewrite (IH (P ++ peer_mem p) R _ (count + 1) Hps).
  - cbn [map concat length]. rewrite <- !app_assoc. do 2 f_equal. lia.
  - rewrite len_app. clear IH Hw Hps. destruct Hp as ((Lp & Bp) & (Lk & Bk) & Hep & Hka & Haip & _).
    assert (L : len (peer_mem p) = 144 + 24 * Z.of_nat (length (p_aips p))); [|lia].
    unfold peer_mem. destruct (len_bsd _ Hep) as [Lsa _].
    assert (Lk' : len (if p_has_psk p then p_psk p else zero_key) = 32) by (destruct (p_has_psk p); [unfold len; lia|reflexivity]).
    assert (La : len (concat (map aip_mem (p_aips p))) = 24 * Z.of_nat (length (p_aips p))).
    { clear Hka. induction Haip as [|x l Hx Hl IH]; [reflexivity|]. cbn [map concat length]. rewrite len_app, IH. destruct (aip_raw x Hx) as (_ & _ & ->). lia. }
    rewrite len_app, La. cbn [concat]. rewrite !len_app, !len_le, Lk', Lsa, len_nil. unfold len. rewrite Lp. cbn [length Z.of_nat Pos.of_succ_nat Pos.succ]. lia.
Qed.

Definition iflags_of (d : device) : Z :=
  Z.lor (Z.lor (Z.lor (Z.lor 0 (if d_has_priv d then 2 else 0)) (if d_has_port d then 4 else 0)) (if d_has_fwmark d then 8 else 0)) (if d_replace_peers d then 16 else 0).
Definition raw_of (d : device) : raw_iface :=
  mk_raw_iface (iflags_of d) (if d_has_port d then d_port d else 0) (if d_has_fwmark d then d_fwmark d else 0) zero_key (if d_has_priv d then d_priv d else zero_key) (map raw_of_peer (d_peers d)).
Definition block_of (d : device) : list Z :=
  concat [le 1 (iflags_of d); [0]; le 2 (if d_has_port d then d_port d else 0); le 4 (if d_has_fwmark d then d_fwmark d else 0); zero_key; if d_has_priv d then d_priv d else zero_key;
          le 8 (Z.of_nat (length (d_peers d)))] ++ concat (map peer_mem (d_peers d)).

(** The true size. *)
Definition size_of (d : device) : Z := 80 + Z.of_nat (zeros_of (d_peers d)).
Lemma io_size_of : forall d, io_size d = u64 (size_of d).
Proof.
  intro d. unfold io_size, size_of. f_equal. unfold sz_iface, sz_peer, sz_aip.
  assert (A : forall (l : list allowedip) n, fold_left (fun n _ => n + 24) l n = n + 24 * Z.of_nat (length l)).
  { induction l as [|x l IH]; intro n; cbn [fold_left length]; [lia|]. rewrite IH. lia. }
  assert (B : forall ps n, fold_left (fun n p => fold_left (fun n (_ : allowedip) => n + 24) (p_aips p) (n + 144)) ps n = n + Z.of_nat (zeros_of ps)).
  { induction ps as [|p ps IH]; intro n; [cbn; lia|]. change (zeros_of (p :: ps)) with (144 + 24 * length (p_aips p) + zeros_of ps)%nat. cbn [fold_left]. rewrite IH, A. lia. }
  apply B.
Qed.

Lemma fill_spec : forall d, wf_device d -> size_of d < 2 ^ 64 -> fill d = Some (block_of d) /\ len (block_of d) = size_of d.
Proof.
  intros d (Hpub & (Lk & Bk) & Hm & Hp & Hps) Hs. split.
  - unfold fill. rewrite io_size_of. unfold u64. rewrite Z.mod_small by (unfold size_of in *; lia). unfold size_of. rewrite Z2Nat.inj_add by lia. rewrite Nat2Z.id. change (Z.to_nat 80) with 80%nat.
    assert (Lks : len (d_priv d) = 32) by (unfold len; lia).
    rewrite repeat_app. set (R := repeat 0 (zeros_of (d_peers d))).
    destruct (ex_intro (fun N : list Z => N = []) [] eq_refl) as (N & EN). assert (LN : 0 = len N) by (rewrite EN; reflexivity).
    replace (repeat 0 80 ++ R) with (N ++ concat (le (Z.to_nat 1) 0 :: [[0]; le 2 0; le 4 0; zero_key; zero_key; le 8 0]) ++ R) by (rewrite EN; reflexivity).
    rewrite (put_flagged N R 1 0 _ 4 40 0 (d_priv d) 2 (d_has_priv d)); [|lia|change (256 ^ 1) with 256; lia|cbn [length]; lia|exact LN|reflexivity|intros _; cbn [nth]; rewrite Lks; reflexivity].
    set (f1 := Z.lor 0 (if d_has_priv d then 2 else 0)). unfold upd. cbn [firstn skipn nth app].
    set (k' := if d_has_priv d then d_priv d else zero_key).
    assert (Lk' : len k' = 32) by (unfold k'; destruct (d_has_priv d); [exact Lks|reflexivity]).
    assert (F1 : 0 <= f1 < 2 ^ 5) by (apply lor_small; try lia; destruct (d_has_priv d); lia).
    rewrite (put_flagged N R 1 f1 _ 1 2 0 (le 2 (d_port d)) 4 (d_has_port d)); [|lia|change (256 ^ 1) with 256; lia|cbn [length]; lia|exact LN|reflexivity|intros _; cbn [nth]; rewrite !len_le; reflexivity].
    set (f2 := Z.lor f1 (if d_has_port d then 4 else 0)). unfold upd. cbn [firstn skipn nth app].
    assert (F2 : 0 <= f2 < 2 ^ 5) by (apply lor_small; try lia; destruct (d_has_port d); lia).
    replace (if d_has_port d then le 2 (d_port d) else le 2 0) with (le 2 (if d_has_port d then d_port d else 0)) by (destruct (d_has_port d); reflexivity).
    set (po := if d_has_port d then d_port d else 0).
    rewrite (put_flagged N R 1 f2 _ 2 4 0 (le 4 (d_fwmark d)) 8 (d_has_fwmark d)); [|lia|change (256 ^ 1) with 256; lia|cbn [length]; lia|exact LN|cbn [firstn concat]; rewrite !len_app, !len_le; reflexivity|intros _; cbn [nth]; rewrite !len_le; reflexivity].
    set (f3 := Z.lor f2 (if d_has_fwmark d then 8 else 0)). unfold upd. cbn [firstn skipn nth app].
    assert (F3 : 0 <= f3 < 2 ^ 5) by (apply lor_small; try lia; destruct (d_has_fwmark d); lia).
    replace (if d_has_fwmark d then le 4 (d_fwmark d) else le 4 0) with (le 4 (if d_has_fwmark d then d_fwmark d else 0)) by (destruct (d_has_fwmark d); reflexivity).
    set (ma := if d_has_fwmark d then d_fwmark d else 0).
    rewrite (put_flag N R 1 f3 _ 0 16 (d_replace_peers d)); [|lia|change (256 ^ 1) with 256; lia|exact LN].
    change (Z.lor f3 (if d_replace_peers d then 16 else 0)) with (iflags_of d). change (Z.to_nat 1) with 1%nat.
    set (H := concat (le 1 (iflags_of d) :: [[0]; le 2 po; le 4 ma; zero_key; k'; le 8 0])).
    assert (LH : len H = 80) by (unfold H; cbn [concat]; rewrite !len_app, !len_le, Lk', len_nil; reflexivity).
    rewrite EN. cbn [app]. unfold R. rewrite <- (app_nil_r (H ++ repeat 0 (zeros_of (d_peers d)))). rewrite <- app_assoc.
    rewrite (put_peers_spec (d_peers d) H [] sz_iface 0 Hps); [|rewrite LH; reflexivity].
    rewrite app_nil_r. change (H ++ concat (map peer_mem (d_peers d))) with ([] ++ H ++ concat (map peer_mem (d_peers d))). unfold H.
    rewrite (poke_field [] _ _ 6); [|cbn [length]; lia|cbn [firstn concat]; rewrite !len_app, !len_le, Lk', len_nil; reflexivity|cbn [nth]; rewrite !len_le; reflexivity].
    reflexivity.
  - unfold block_of. rewrite len_app.
    assert (Lk' : len (if d_has_priv d then d_priv d else zero_key) = 32) by (destruct (d_has_priv d); [unfold len; lia|reflexivity]).
    assert (Q : len (concat (map peer_mem (d_peers d))) = Z.of_nat (zeros_of (d_peers d))).
    { unfold size_of in Hs. clear - Hps Hs. induction Hps as [|p ps Hp Hps IH]; [reflexivity|]. change (zeros_of (p :: ps)) with (144 + 24 * length (p_aips p) + zeros_of ps)%nat in *.
      cbn [map concat]. rewrite len_app, IH by lia. destruct (peer_raw p Hp) as (_ & _ & ->); lia. }
    rewrite Q. unfold size_of. cbn [concat]. rewrite !len_app, !len_le, Lk', len_nil. reflexivity.
Qed.

Lemma length_zeros : forall ps, (length ps <= zeros_of ps)%nat.
Proof. induction ps as [|p ps IH]; [cbn; lia|]. change (zeros_of (p :: ps)) with (144 + 24 * length (p_aips p) + zeros_of ps)%nat. cbn [length]. lia. Qed.
Lemma block_asks : forall d, wf_device d -> size_of d < 2 ^ 64 -> asks (d_name d) (block_of d) (request_of d).
Proof.
  intros d (Hpub & (Lk & Bk) & Hm & Hp & Hps) Hs. exists (raw_of d).
  assert (Lk' : bytes 32 (if d_has_priv d then d_priv d else zero_key)).
  { destruct (d_has_priv d); split; try assumption; [unfold len; lia|reflexivity|apply bytes_zero]. }
  assert (Q : Forall2 peer_bytes (map raw_of_peer (d_peers d)) (map peer_mem (d_peers d)) /\ Forall2 asks_peer (map raw_of_peer (d_peers d)) (map rq_peer_of (d_peers d))).
  { unfold size_of in Hs. clear - Hps Hs. induction Hps as [|p ps Hp Hps IH]; [split; constructor|]. change (zeros_of (p :: ps)) with (144 + 24 * length (p_aips p) + zeros_of ps)%nat in *.
    destruct IH as [I1 I2]; [lia|]. destruct (peer_raw p Hp) as (A & B & _); [lia|]. cbn [map]. split; constructor; assumption. }
  destruct Q as [Q1 Q2]. pose proof (length_zeros (d_peers d)) as LZ. unfold size_of in Hs.
  assert (Fi : 0 <= iflags_of d < 32).
  { unfold iflags_of. change 32 with (2 ^ 5). repeat (apply lor_small; try lia); try (destruct (d_has_priv d)); try (destruct (d_has_port d)); try (destruct (d_has_fwmark d)); try (destruct (d_replace_peers d)); lia. }
  split.
  - unfold iface_bytes, raw_of. cbn [ri_flags ri_port ri_rtable ri_pub ri_priv ri_peers]. unfold word. split; [lia|]. split; [destruct (d_has_port d); lia|]. split; [destruct (d_has_fwmark d); lia|].
    split; [split; [reflexivity|apply bytes_zero]|]. split; [exact Lk'|]. exists [0], (map peer_mem (d_peers d)). split; [split; [reflexivity|exact (bytes_zero 1)]|]. split; [exact Q1|].
    rewrite map_length. split; [lia|]. unfold block_of. f_equal. f_equal. f_equal. cbn [le]. rewrite Z.mod_small by lia. reflexivity.
  - cbv zeta. unfold raw_of, request_of. cbn [ri_flags ri_port ri_rtable ri_pub ri_priv ri_peers rq_name rq_priv rq_port rq_fwmark rq_replace rq_peers]. unfold iflags_of.
    destruct (d_has_priv d), (d_has_port d), (d_has_fwmark d), (d_replace_peers d); cbn [Z.lor Pos.lor Z.testbit Pos.testbit Pos.pred_N Pos.pred_double opt];
      repeat (split; [reflexivity|]); exact Q2.
Qed.
