(** Proofs about the Windows backend: writing. *)
From Coq Require Import ZArith List Bool Lia.
From Verif Require Import Base Types Encoding NlSpec NlProofs NlSetProofs NlSet Fields ObsdSpec Obsd ObsdProofs WinSpec Win.
Import ListNotations.
Open Scope Z_scope.

(** ** Allowed IPs *)
Definition wraw_of_aip (x : allowedip) : w_aip := mk_w_aip (a_ip x ++ repeat 0 (16 - length (a_ip x))) (waf_out (a_family x)) (a_cidr x).
Definition waip_mem (x : allowedip) : list Z := concat [a_ip x ++ repeat 0 (16 - length (a_ip x)); le 2 (waf_out (a_family x)); [a_cidr x]; [0; 0; 0; 0; 0]].

Lemma waip_raw : forall x, wf_aip x -> waip_bytes (wraw_of_aip x) (waip_mem x) /\ wsays_aip (wraw_of_aip x) = Some x /\ len (waip_mem x) = 24.
Proof.
  intros [f ip c] H. unfold wf_aip in H. cbn [a_family a_ip a_cidr] in H.
  assert (E : (f = 2 \/ f = 10) /\ 0 <= c <= 128 /\ Forall is_byte ip /\ (length ip <= 16)%nat /\ (f = 2 -> length ip = 4%nat) /\ (f = 10 -> length ip = 16%nat)).
  { unfold AF_INET, AF_INET6 in H. destruct H as [(-> & L & B & C)|(-> & L & B & C)]; repeat split; try (left; reflexivity); try (right; reflexivity); try assumption; try lia; congruence. }
  destruct E as (Ef & Ec & Eb & El & E4 & E6).
  assert (L16 : len (ip ++ repeat 0 (16 - length ip)) = 16) by (rewrite len_app, len_repeat; unfold len; lia).
  assert (Hout : waf_out f = 2 /\ f = 2 \/ waf_out f = 23 /\ f = 10) by (destruct Ef as [-> | ->]; [left|right]; split; reflexivity).
  split; [|split].
  - unfold waip_bytes, wraw_of_aip. cbn [wa_af wa_cidr wa_addr a_family a_ip a_cidr]. split; [split; [exact L16|apply Forall_app; split; [exact Eb|apply bytes_zero]]|].
    split; [unfold word; change (2 ^ 16) with 65536; destruct Hout as [[-> _]|[-> _]]; lia|]. split; [unfold word; change (2 ^ 8) with 256; lia|].
    exists [0; 0; 0; 0; 0]. split; [split; [reflexivity|exact (bytes_zero 5)]|]. reflexivity.
  - unfold wsays_aip, wraw_of_aip. cbn [wa_af wa_cidr wa_addr a_family a_ip a_cidr]. destruct Hout as [[-> ->]|[-> ->]].
    + cbn [Z.eqb Pos.eqb]. rewrite firstn_app. rewrite (E4 eq_refl). replace (firstn 4 ip) with ip by (symmetry; apply firstn_all2; rewrite (E4 eq_refl); lia).
      cbn [Nat.sub firstn]. rewrite app_nil_r. reflexivity.
    + cbn [Z.eqb Pos.eqb]. rewrite (E6 eq_refl). cbn [Nat.sub repeat]. rewrite app_nil_r. reflexivity.
  - unfold waip_mem. cbn [concat a_family a_ip a_cidr]. set (w := ip ++ _) in *. rewrite !len_app, L16, len_le. reflexivity.
Qed.

Lemma wput_aips_spec : forall l P R a count, Forall wf_aip l -> a = len P ->
  wput_aips (P ++ repeat 0 (24 * length l) ++ R) a l count = Some (P ++ concat (map waip_mem l) ++ R, a + 24 * Z.of_nat (length l), count + Z.of_nat (length l)).
Proof.
  induction l as [|x l IH]; intros P R a count Hw Ha.
  { cbn. rewrite Z.add_0_r, Z.add_0_r. reflexivity. }
  inversion Hw as [|? ? Hx Hl]; subst. destruct (waip_raw x Hx) as (_ & _ & L24). cbn [wput_aips].
  replace (24 * length (x :: l))%nat with (24 + 24 * length l)%nat by (cbn [length]; lia). rewrite repeat_app. rewrite <- app_assoc.
  set (R' := repeat 0 (24 * length l) ++ R).
  assert (Z16 : forall n, (n <= 16)%nat -> repeat 0 16 = repeat 0 n ++ repeat 0 (16 - n)) by (intros n Hn; rewrite <- repeat_app; f_equal; lia).
  assert (Hn : (length (a_ip x) <= 16)%nat) by (destruct Hx as [(_ & -> & _)|(_ & -> & _)]; lia).
  assert (Hc : u8 (a_cidr x) = a_cidr x) by (unfold u8; apply Z.mod_small; change (2 ^ 8) with 256; destruct Hx as [(_ & _ & _ & C)|(_ & _ & _ & C)]; lia). rewrite Hc.
  change (repeat 0 24) with (concat [repeat 0 16; le 2 0; [0]; [0; 0; 0; 0; 0]]). rewrite (Z16 _ Hn).
  replace (concat [repeat 0 (length (a_ip x)) ++ repeat 0 (16 - length (a_ip x)); le 2 0; [0]; [0; 0; 0; 0; 0]])
    with (concat [repeat 0 (length (a_ip x)); repeat 0 (16 - length (a_ip x)); le 2 0; [0]; [0; 0; 0; 0; 0]]).
  2: { cbn [concat]. rewrite <- !app_assoc. reflexivity. }
  rewrite (poke_field P _ R' 2); [|cbn [length]; lia|cbn [firstn concat]; rewrite !len_app, !len_repeat, len_nil; lia|cbn [nth]; rewrite !len_le; reflexivity]. cbn [firstn app skipn].
  rewrite (poke_field P _ R' 3); [|cbn [length]; lia|cbn [firstn concat]; rewrite !len_app, !len_repeat, len_le, len_nil; lia|reflexivity]. cbn [firstn app skipn].
  assert (Hput : poke (P ++ concat [repeat 0 (length (a_ip x)); repeat 0 (16 - length (a_ip x)); le 2 (waf_out (a_family x)); [a_cidr x]; [0; 0; 0; 0; 0]] ++ R') (len P) (a_ip x)
     = Some (P ++ waip_mem x ++ R')).
  { rewrite (poke_field P _ R' 0); [|cbn [length]; lia|cbn [firstn concat]; rewrite len_nil; lia|cbn [nth]; rewrite len_repeat; reflexivity]. cbn [firstn app skipn].
    unfold waip_mem. cbn [concat]. rewrite <- !app_assoc. reflexivity. }
  rewrite Hput. assert (Step : wput_aips (P ++ waip_mem x ++ R') (len P + wz_aip) l (count + 1)
     = Some (P ++ concat (map waip_mem (x :: l)) ++ R, len P + 24 * Z.of_nat (length (x :: l)), count + Z.of_nat (length (x :: l)))).
  { unfold R'. rewrite (app_assoc P). rewrite (IH (P ++ waip_mem x) R (len P + wz_aip) (count + 1) Hl).
    - cbn [map concat length]. rewrite <- !app_assoc. unfold wz_aip. do 2 f_equal; [f_equal|]; lia.
    - rewrite len_app, L24. reflexivity. }
  rewrite Step. destruct Hx as [(-> & _)|(-> & _)]; reflexivity.
Qed.

(** ** Peers *)
Definition wflags_of (p : peer) : Z :=
  Z.lor (Z.lor (Z.lor (Z.lor (Z.lor 1 (if p_has_psk p then 2 else 0)) (if p_has_ka p then 4 else 0)) (match p_endpoint p with EpNone => 0 | _ => 8 end))
    (if p_replace_aips p then 32 else 0)) (if p_remove p then 64 else 0).
Definition wraw_of_peer (p : peer) : w_peer :=
  mk_w_peer (wflags_of p) 0 (p_pub p) (if p_has_psk p then p_psk p else zero_key) (if p_has_ka p then p_ka p else 0) (win_sockaddr (p_endpoint p)) 0 0 0
    (map wraw_of_aip (p_aips p)).
Definition wpeer_mem (p : peer) : list Z :=
  concat [le 4 (wflags_of p); le 4 0; p_pub p; if p_has_psk p then p_psk p else zero_key; le 2 (if p_has_ka p then p_ka p else 0); [0; 0]; win_sockaddr (p_endpoint p);
          le 8 0; le 8 0; le 8 0; le 4 (Z.of_nat (length (p_aips p))); [0; 0; 0; 0]] ++ concat (map waip_mem (p_aips p)).

Lemma len_win : forall e, wf_endpoint e -> len (win_sockaddr e) = 28 /\ Forall is_byte (win_sockaddr e).
Proof.
  intros [|a p|a p f s] H; cbn in H.
  - split; [reflexivity|apply bytes_zero].
  - destruct H as (L & B & Hp). split.
    + unfold win_sockaddr, be16. rewrite !len_app, !len_le, !len_repeat. unfold len. rewrite L. reflexivity.
    + unfold win_sockaddr, be16. repeat (apply Forall_app; split); try exact B; try apply le_bytes; try exact (bytes_zero 8); try exact (bytes_zero 12);
        repeat (apply Forall_cons; [unfold is_byte; first [lia | (pose proof (Z.mod_pos_bound p 256); lia) | (split; [apply Z.div_pos; lia|apply Z.div_lt_upper_bound; lia])]|]); apply Forall_nil.
  - destruct H as (L & B & Hp & Hf & Hs). split.
    + unfold win_sockaddr, be16. rewrite !len_app, !len_le. unfold len. rewrite L. reflexivity.
    + unfold win_sockaddr, be16, WIN_INET6. repeat (apply Forall_app; split); try exact B; try apply le_bytes;
        repeat (apply Forall_cons; [unfold is_byte; first [lia | (pose proof (Z.mod_pos_bound p 256); lia) | (split; [apply Z.div_pos; lia|apply Z.div_lt_upper_bound; lia])]|]); apply Forall_nil.
Qed.
Lemma says_win : forall e, wf_endpoint e -> e <> EpNone -> wsays_endpoint (win_sockaddr e) = Some e.
Proof.
  intros [|a p|a p f s] H He; cbn in H; [congruence| |].
  - destruct H as (L & B & Hp). destruct a as [|a0 [|a1 [|a2 [|a3 [|]]]]]; try discriminate L. unfold wsays_endpoint, win_sockaddr, be16. change (le 2 AF_INET) with [2; 0]. cbn [app].
    change (2 + 256 * 0 =? 2) with true. cbv iota. cbn [firstn repeat app]. f_equal. f_equal. pose proof (Z.div_mod p 256). lia.
  - destruct H as (L & B & Hp & Hf & Hs). unfold wsays_endpoint, win_sockaddr, be16. change (le 2 WIN_INET6 ++ ?x) with (23 :: 0 :: x). cbn [app].
    change (23 + 256 * 0 =? 2) with false. change (23 + 256 * 0 =? 23) with true. cbv iota.
    replace (skipn 4 (le 4 f ++ a ++ le 4 s)) with (a ++ le 4 s) by reflexivity.
    replace (firstn 4 (le 4 f ++ a ++ le 4 s)) with (le 4 f) by reflexivity.
    replace (firstn 16 (a ++ le 4 s)) with a by (rewrite <- L, firstn_app_exact; reflexivity).
    replace (skipn 20 (le 4 f ++ a ++ le 4 s)) with (le 4 s).
    2: { change (skipn 20 (le 4 f ++ a ++ le 4 s)) with (skipn 16 (a ++ le 4 s)). rewrite <- L, skipn_app_exact. reflexivity. }
    change (firstn 4 (le 4 s)) with (le 4 s). rewrite !le_val_le_id by (change (256 ^ Z.of_nat 4) with (2 ^ 32); assumption). f_equal. f_equal. pose proof (Z.div_mod p 256). lia.
Qed.

Lemma wflags_small : forall p, 0 <= wflags_of p < 128.
Proof.
  intro p. unfold wflags_of. change 128 with (2 ^ 7). repeat (apply lor_small; try lia); try (destruct (p_endpoint p)); try (destruct (p_has_psk p)); try (destruct (p_has_ka p));
    try (destruct (p_replace_aips p)); try (destruct (p_remove p)); lia.
Qed.

Lemma wpeer_raw : forall p, wf_peer p -> Z.of_nat (length (p_aips p)) < 2 ^ 32 ->
  wpeer_bytes (wraw_of_peer p) (wpeer_mem p) /\ wasks_peer (wraw_of_peer p) (rq_peer_of p) /\ len (wpeer_mem p) = 136 + 24 * Z.of_nat (length (p_aips p)).
Proof.
  intros p (Hpub & Hpsk & Hep & Hka & Haip & _) Hn.
  destruct (len_win _ Hep) as [Lsa Bsa]. destruct Hpub as [Lp Bp]. destruct Hpsk as [Lk Bk].
  assert (Lps : len (p_pub p) = 32) by (unfold len; lia).
  assert (Lpk : bytes 32 (if p_has_psk p then p_psk p else zero_key)).
  { destruct (p_has_psk p); split; try assumption; [unfold len; lia|reflexivity|apply bytes_zero]. }
  assert (Hka' : 0 <= (if p_has_ka p then p_ka p else 0) < 65536) by (destruct (p_has_ka p); lia).
  assert (Has : Forall2 waip_bytes (map wraw_of_aip (p_aips p)) (map waip_mem (p_aips p)) /\ map wsays_aip (map wraw_of_aip (p_aips p)) = map Some (p_aips p)
     /\ len (concat (map waip_mem (p_aips p))) = 24 * Z.of_nat (length (p_aips p))).
  { clear Hn. induction Haip as [|x l Hx Hl IH]; [cbn; split; [constructor|split; reflexivity]|]. destruct IH as (I1 & I2 & I3). destruct (waip_raw x Hx) as (A1 & A2 & A3).
    cbn [map concat length]. split; [constructor; assumption|]. split; [rewrite A2, I2; reflexivity|]. rewrite len_app, A3, I3. lia. }
  destruct Has as (H1 & H2 & H3). pose proof (wflags_small p) as Hfs. split; [|split].
  - unfold wpeer_bytes, wraw_of_peer. cbn [wp_flags wp_version wp_pub wp_psk wp_ka wp_sa wp_tx wp_rx wp_time wp_aips]. unfold word.
    split; [change (2 ^ 32) with 4294967296; lia|]. split; [lia|]. split; [split; [exact Lps|exact Bp]|]. split; [exact Lpk|]. split; [exact Hka'|]. split; [split; assumption|].
    split; [lia|]. split; [lia|]. split; [lia|].
    exists [0; 0], [0; 0; 0; 0], (map waip_mem (p_aips p)). split; [split; [reflexivity|exact (bytes_zero 2)]|]. split; [split; [reflexivity|exact (bytes_zero 4)]|]. split; [exact H1|]. rewrite map_length. split; [lia|]. reflexivity.
  - unfold wasks_peer, wraw_of_peer, rq_peer_of. cbn [wp_flags wp_version wp_pub wp_psk wp_ka wp_sa wp_tx wp_rx wp_time wp_aips rp_pub rp_psk rp_ka rp_endpoint rp_replace rp_remove rp_aips].
    assert (T : forall n, Z.testbit (wflags_of p) n = Z.testbit (wflags_of p) n) by reflexivity. unfold wflags_of. pose proof (says_win _ Hep) as Se.
    destruct (p_has_psk p), (p_has_ka p), (p_replace_aips p), (p_remove p), (p_endpoint p) as [|ea ep|ea ep ef es]; cbn [Z.lor Pos.lor Z.testbit Pos.testbit Pos.pred_N Pos.pred_double opt];
      repeat (split; [first [reflexivity | (split; [symmetry; apply Se; discriminate|rewrite Se by discriminate; discriminate])]|]); exact H2.
  - unfold wpeer_mem. rewrite len_app, H3. cbn [concat]. rewrite !len_app, !len_le, Lps, (proj1 Lpk), Lsa, len_nil. unfold len. cbn [length Z.of_nat Pos.of_succ_nat Pos.succ]. lia.
Qed.

Lemma wput_peer_spec : forall p P R a, wf_peer p -> a = len P ->
  wput_peer (P ++ repeat 0 (136 + 24 * length (p_aips p)) ++ R) a p = Some (P ++ wpeer_mem p ++ R, a + 136 + 24 * Z.of_nat (length (p_aips p))).
Proof.
  intros p P R a Hw ->. destruct Hw as ((Lp & Bp) & (Lk & Bk) & Hep & Hka & Haip & _). destruct (len_win _ Hep) as [Lsa Bsa].
  assert (Lps : len (p_pub p) = 32) by (unfold len; lia). assert (Lks : len (p_psk p) = 32) by (unfold len; lia).
  rewrite repeat_app, <- app_assoc. set (R' := repeat 0 (24 * length (p_aips p)) ++ R).
  change (repeat 0 136) with (concat [le 4 0; le 4 0; zero_key; zero_key; le 2 0; [0; 0]; repeat 0 28; le 8 0; le 8 0; le 8 0; le 4 0; [0; 0; 0; 0]]).
  unfold wput_peer. cbv zeta. set (fam := le_val (firstn 2 (win_sockaddr (p_endpoint p)))). set (s16 := firstn 16 (win_sockaddr (p_endpoint p))).
  assert (EF : fam = le_val (firstn 2 (win_sockaddr (p_endpoint p)))) by reflexivity. assert (ES : s16 = firstn 16 (win_sockaddr (p_endpoint p))) by reflexivity. clearbody fam s16.
  rewrite (poke_field P _ R' 0); [|cbn [length]; lia|cbn [firstn concat]; rewrite len_nil; lia|reflexivity]. cbn [firstn skipn app].
  rewrite (poke_field P _ R' 2); [|cbn [length]; lia|cbn [firstn concat]; rewrite !len_app, !len_le, len_nil; reflexivity|cbn [nth]; rewrite Lps; reflexivity]. cbn [firstn skipn app].
  change (le 4 1) with (le (Z.to_nat 4) 1).
  rewrite (put_flagged P R' 4 1 _ 2 (len P + 40) (len P) (p_psk p) 2 (p_has_psk p));
    [|lia|change (256 ^ 4) with 4294967296; lia|cbn [length]; lia|reflexivity|cbn [firstn concat]; rewrite !len_app, !len_le, Lps, len_nil; lia|intros _; cbn [nth]; rewrite Lks; reflexivity].
  set (f1 := Z.lor 1 (if p_has_psk p then 2 else 0)). unfold upd. cbn [firstn skipn app nth].
  assert (Lk' : len (if p_has_psk p then p_psk p else zero_key) = 32) by (destruct (p_has_psk p); [exact Lks|reflexivity]).
  set (k' := if p_has_psk p then p_psk p else zero_key) in *.
  assert (F1 : 0 <= f1 < 2 ^ 7) by (apply lor_small; try lia; destruct (p_has_psk p); lia).
  rewrite (put_flagged P R' 4 f1 _ 3 (len P + 72) (len P) (le 2 (p_ka p)) 4 (p_has_ka p));
    [|lia|change (256 ^ 4) with 4294967296; lia|cbn [length]; lia|reflexivity|cbn [firstn concat]; rewrite !len_app, !len_le, Lps, Lk', len_nil; lia|intros _; cbn [nth]; rewrite !len_le; reflexivity].
  set (f2 := Z.lor f1 (if p_has_ka p then 4 else 0)). unfold upd. cbn [firstn skipn app nth].
  assert (F2 : 0 <= f2 < 2 ^ 7) by (apply lor_small; try lia; destruct (p_has_ka p); lia).
  replace (if p_has_ka p then le 2 (p_ka p) else le 2 0) with (le 2 (if p_has_ka p then p_ka p else 0)) by (destruct (p_has_ka p); reflexivity).
  set (ka := le 2 (if p_has_ka p then p_ka p else 0)).
  assert (Lka : len ka = 2) by (unfold ka; rewrite len_le; reflexivity).
  set (f3 := Z.lor f2 (match p_endpoint p with EpNone => 0 | _ => 8 end)).
  assert (Stp : (if fam =? AF_INET then let* b := poke (P ++ concat (le (Z.to_nat 4) f2 :: [le 4 0; p_pub p; k'; ka; [0; 0]; repeat 0 28; le 8 0; le 8 0; le 8 0; le 4 0; [0; 0; 0; 0]]) ++ R') (len P + 76) s16 in or_bits b (len P) 4 8
                 else if fam =? WIN_INET6 then let* b := poke (P ++ concat (le (Z.to_nat 4) f2 :: [le 4 0; p_pub p; k'; ka; [0; 0]; repeat 0 28; le 8 0; le 8 0; le 8 0; le 4 0; [0; 0; 0; 0]]) ++ R') (len P + 76) (win_sockaddr (p_endpoint p)) in or_bits b (len P) 4 8
                 else Some (P ++ concat (le (Z.to_nat 4) f2 :: [le 4 0; p_pub p; k'; ka; [0; 0]; repeat 0 28; le 8 0; le 8 0; le 8 0; le 4 0; [0; 0; 0; 0]]) ++ R'))
    = Some (P ++ concat (le (Z.to_nat 4) f3 :: [le 4 0; p_pub p; k'; ka; [0; 0]; win_sockaddr (p_endpoint p); le 8 0; le 8 0; le 8 0; le 4 0; [0; 0; 0; 0]]) ++ R')).
  { destruct (p_endpoint p) as [|ea ep|ea ep ef es] eqn:Ee; rewrite EF; try rewrite ES.
    - unfold f3. rewrite Z.lor_0_r. reflexivity.
    - change (le_val (firstn 2 (win_sockaddr (Ep4 ea ep))) =? AF_INET) with true. cbv iota. unfold f3. cbn in Hep. destruct Hep as (La & Ba & Hp).
      replace (firstn 16 (win_sockaddr (Ep4 ea ep))) with (le 2 AF_INET ++ be16 ep ++ ea ++ repeat 0 8).
      2: { destruct ea as [|a0 [|a1 [|a2 [|a3 [|]]]]]; try discriminate La. reflexivity. }
      replace (concat (le (Z.to_nat 4) f2 :: [le 4 0; p_pub p; k'; ka; [0; 0]; repeat 0 28; le 8 0; le 8 0; le 8 0; le 4 0; [0; 0; 0; 0]]))
        with (concat (le (Z.to_nat 4) f2 :: [le 4 0; p_pub p; k'; ka; [0; 0]; repeat 0 16; repeat 0 12; le 8 0; le 8 0; le 8 0; le 4 0; [0; 0; 0; 0]])) by reflexivity.
      rewrite (poke_field P _ R' 6); [|cbn [length]; lia|cbn [firstn concat]; rewrite !len_app, !len_le, Lps, Lk', Lka, len_nil; reflexivity|
         cbn [nth]; rewrite !len_app, !len_le, !len_repeat; unfold len; rewrite La; reflexivity]. cbn [firstn skipn app].
      rewrite (or_bits_field P _ R' 0 (len P) 4 8 f2); [|cbn [length]; lia|cbn [firstn concat]; rewrite len_nil; lia|reflexivity|lia|change (256 ^ 4) with 4294967296; lia].
      cbn [firstn skipn app concat win_sockaddr]. rewrite <- !app_assoc. reflexivity.
    - change (le_val (firstn 2 (win_sockaddr (Ep6 ea ep ef es))) =? AF_INET) with false. change (le_val (firstn 2 (win_sockaddr (Ep6 ea ep ef es))) =? WIN_INET6) with true. cbv iota. unfold f3.
      rewrite (poke_field P _ R' 6); [|cbn [length]; lia|cbn [firstn concat]; rewrite !len_app, !len_le, Lps, Lk', Lka, len_nil; reflexivity|cbn [nth]; rewrite Lsa; reflexivity]. cbn [firstn skipn app].
      rewrite (or_bits_field P _ R' 0 (len P) 4 8 f2); [|cbn [length]; lia|cbn [firstn concat]; rewrite len_nil; lia|reflexivity|lia|change (256 ^ 4) with 4294967296; lia].
      reflexivity. }
  rewrite Stp. clear Stp.
  assert (F3 : 0 <= f3 < 2 ^ 7) by (apply lor_small; try lia; destruct (p_endpoint p); lia).
  rewrite (put_flag P R' 4 f3 _ (len P) 32 (p_replace_aips p)); [|lia|change (256 ^ 4) with 4294967296; lia|reflexivity].
  set (f4 := Z.lor f3 (if p_replace_aips p then 32 else 0)).
  assert (F4 : 0 <= f4 < 2 ^ 7) by (apply lor_small; try lia; destruct (p_replace_aips p); lia).
  rewrite (put_flag P R' 4 f4 _ (len P) 64 (p_remove p)); [|lia|change (256 ^ 4) with 4294967296; lia|reflexivity].
  change (Z.lor f4 (if p_remove p then 64 else 0)) with (wflags_of p). change (Z.to_nat 4) with 4%nat.
  set (H := concat (le 4 (wflags_of p) :: [le 4 0; p_pub p; k'; ka; [0; 0]; win_sockaddr (p_endpoint p); le 8 0; le 8 0; le 8 0; le 4 0; [0; 0; 0; 0]])).
  assert (LH : len H = 136) by (unfold H; cbn [concat]; rewrite !len_app, !len_le, Lps, Lk', Lka, Lsa, len_nil; reflexivity).
  unfold R'. rewrite (app_assoc P H). rewrite (wput_aips_spec (p_aips p) (P ++ H) R (len P + wz_peer) 0 Haip); [|rewrite len_app, LH; reflexivity].
  rewrite <- app_assoc. unfold H.
  rewrite (poke_field P _ (concat (map waip_mem (p_aips p)) ++ R) 10); [|cbn [length]; lia|cbn [firstn concat]; rewrite !len_app, !len_le, Lps, Lk', Lka, Lsa, len_nil; reflexivity|cbn [nth]; rewrite !len_le; reflexivity].
  cbn [firstn skipn app]. rewrite Z.add_0_l. unfold wpeer_mem, k', ka, wz_peer. rewrite <- app_assoc. reflexivity.
Qed.

Definition wzeros_of (ps : list peer) : nat := fold_right (fun p n => 136 + 24 * length (p_aips p) + n)%nat 0%nat ps.
Lemma wput_peers_spec : forall ps P R a count, Forall wf_peer ps -> a = len P ->
  wput_peers (P ++ repeat 0 (wzeros_of ps) ++ R) a ps count = Some (P ++ concat (map wpeer_mem ps) ++ R, count + Z.of_nat (length ps)).
Proof.
  induction ps as [|p ps IH]; intros P R a count Hw ->.
  { cbn. rewrite Z.add_0_r. reflexivity. }
  inversion Hw as [|? ? Hp Hps]; subst. cbn [wput_peers].
  change (wzeros_of (p :: ps)) with (136 + 24 * length (p_aips p) + wzeros_of ps)%nat. rewrite repeat_app, <- app_assoc.
  rewrite (wput_peer_spec p P _ (len P) Hp eq_refl). rewrite (app_assoc P). rewrite (IH (P ++ wpeer_mem p) R _ (count + 1) Hps).
  - cbn [map concat length]. rewrite <- !app_assoc. do 2 f_equal. lia.
  - rewrite len_app. clear IH Hw Hps. destruct Hp as ((Lp & Bp) & (Lk & Bk) & Hep & Hka & Haip & _).
    assert (L : len (wpeer_mem p) = 136 + 24 * Z.of_nat (length (p_aips p))); [|lia].
    unfold wpeer_mem. destruct (len_win _ Hep) as [Lsa _].
    assert (Lk' : len (if p_has_psk p then p_psk p else zero_key) = 32) by (destruct (p_has_psk p); [unfold len; lia|reflexivity]).
    assert (La : len (concat (map waip_mem (p_aips p))) = 24 * Z.of_nat (length (p_aips p))).
    { clear Hka. induction Haip as [|x l Hx Hl IH]; [reflexivity|]. cbn [map concat length]. rewrite len_app, IH. destruct (waip_raw x Hx) as (_ & _ & ->). lia. }
    rewrite len_app, La. cbn [concat]. rewrite !len_app, !len_le, Lk', Lsa, len_nil. unfold len. rewrite Lp. cbn [length Z.of_nat Pos.of_succ_nat Pos.succ]. lia.
Qed.

Definition wiflags_of (d : device) : Z :=
  Z.lor (Z.lor (Z.lor 0 (if d_has_priv d then 2 else 0)) (if d_has_port d then 4 else 0)) (if d_replace_peers d then 8 else 0).
Definition wraw_of (d : device) : w_iface :=
  mk_w_iface (wiflags_of d) (if d_has_port d then d_port d else 0) (if d_has_priv d then d_priv d else zero_key) zero_key (map wraw_of_peer (d_peers d)).
Definition wblock_of (d : device) : list Z :=
  concat [le 4 (wiflags_of d); le 2 (if d_has_port d then d_port d else 0); if d_has_priv d then d_priv d else zero_key; zero_key; [0; 0];
          le 4 (Z.of_nat (length (d_peers d))); [0; 0; 0; 0]] ++ concat (map wpeer_mem (d_peers d)).

(** The true size. *)
Definition wsize_of (d : device) : Z := 80 + Z.of_nat (wzeros_of (d_peers d)).
Lemma wadd_spec : forall l n, 0 <= n < 2 ^ 32 -> wadd n l = if n + 24 * Z.of_nat (length l) <? 2 ^ 32 then Some (n + 24 * Z.of_nat (length l)) else None.
Proof.
  change (2 ^ 32) with 4294967296. induction l as [|x l IH]; intros n Hn; cbn [wadd length].
  - rewrite Z.add_0_r. destruct (Z.ltb_spec n 4294967296); [reflexivity|lia].
  - change (2 ^ 32) with 4294967296. unfold wz_aip. destruct (Z.ltb_spec (4294967296 - 1 - n) 24).
    + match goal with |- _ = if ?c then _ else _ => replace c with false by (symmetry; apply Z.ltb_ge; lia) end. reflexivity.
    + rewrite IH by lia. replace (n + 24 + 24 * Z.of_nat (length l)) with (n + 24 * Z.of_nat (S (length l))) by lia. reflexivity.
Qed.
Lemma wsize_spec : forall ps n, 0 <= n < 2 ^ 32 -> wsize n ps = if n + Z.of_nat (wzeros_of ps) <? 2 ^ 32 then Some (n + Z.of_nat (wzeros_of ps)) else None.
Proof.
  change (2 ^ 32) with 4294967296. induction ps as [|p ps IH]; intros n Hn; cbn [wsize].
  - change (wzeros_of []) with 0%nat. rewrite Z.add_0_r. destruct (Z.ltb_spec n 4294967296); [reflexivity|lia].
  - change (wzeros_of (p :: ps)) with (136 + 24 * length (p_aips p) + wzeros_of ps)%nat. change (2 ^ 32) with 4294967296. unfold wz_peer. destruct (Z.ltb_spec (4294967296 - 1 - n) 136).
    + match goal with |- _ = if ?c then _ else _ => replace c with false by (symmetry; apply Z.ltb_ge; lia) end. reflexivity.
    + rewrite wadd_spec by (change (2 ^ 32) with 4294967296; lia). change (2 ^ 32) with 4294967296.
      destruct (Z.ltb_spec (n + 136 + 24 * Z.of_nat (length (p_aips p))) 4294967296).
      * rewrite IH by lia. replace (n + 136 + 24 * Z.of_nat (length (p_aips p)) + Z.of_nat (wzeros_of ps)) with (n + Z.of_nat (136 + 24 * length (p_aips p) + wzeros_of ps)) by lia. reflexivity.
      * match goal with |- _ = if ?c then _ else _ => replace c with false by (symmetry; apply Z.ltb_ge; lia) end. reflexivity.
Qed.

Lemma wfill_spec : forall d, wf_device d -> wsize_of d < 2 ^ 32 -> wfill (wsize_of d) d = Some (wblock_of d) /\ len (wblock_of d) = wsize_of d.
Proof.
  intros d (Hpub & (Lk & Bk) & Hm & Hp & Hps) Hs. split.
  - unfold wfill. unfold wsize_of. rewrite Z2Nat.inj_add by lia. rewrite Nat2Z.id. change (Z.to_nat 80) with 80%nat.
    assert (Lks : len (d_priv d) = 32) by (unfold len; lia).
    rewrite repeat_app. set (R := repeat 0 (wzeros_of (d_peers d))).
    destruct (ex_intro (fun N : list Z => N = []) [] eq_refl) as (N & EN). assert (LN : 0 = len N) by (rewrite EN; reflexivity).
    replace (repeat 0 80 ++ R) with (N ++ concat (le (Z.to_nat 4) 0 :: [le 2 0; zero_key; zero_key; [0; 0]; le 4 0; [0; 0; 0; 0]]) ++ R) by (rewrite EN; reflexivity).
    rewrite (put_flagged N R 4 0 _ 1 6 0 (d_priv d) 2 (d_has_priv d)); [|lia|change (256 ^ 4) with 4294967296; lia|cbn [length]; lia|exact LN|reflexivity|intros _; cbn [nth]; rewrite Lks; reflexivity].
    set (f1 := Z.lor 0 (if d_has_priv d then 2 else 0)). unfold upd. cbn [firstn skipn nth app].
    set (k' := if d_has_priv d then d_priv d else zero_key).
    assert (Lk' : len k' = 32) by (unfold k'; destruct (d_has_priv d); [exact Lks|reflexivity]).
    assert (F1 : 0 <= f1 < 2 ^ 5) by (apply lor_small; try lia; destruct (d_has_priv d); lia).
    rewrite (put_flagged N R 4 f1 _ 0 4 0 (le 2 (d_port d)) 4 (d_has_port d)); [|lia|change (256 ^ 4) with 4294967296; lia|cbn [length]; lia|exact LN|reflexivity|intros _; cbn [nth]; rewrite !len_le; reflexivity].
    set (f2 := Z.lor f1 (if d_has_port d then 4 else 0)). unfold upd. cbn [firstn skipn nth app].
    assert (F2 : 0 <= f2 < 2 ^ 5) by (apply lor_small; try lia; destruct (d_has_port d); lia).
    replace (if d_has_port d then le 2 (d_port d) else le 2 0) with (le 2 (if d_has_port d then d_port d else 0)) by (destruct (d_has_port d); reflexivity).
    set (po := if d_has_port d then d_port d else 0).
    rewrite (put_flag N R 4 f2 _ 0 8 (d_replace_peers d)); [|lia|change (256 ^ 4) with 4294967296; lia|exact LN].
    change (Z.lor f2 (if d_replace_peers d then 8 else 0)) with (wiflags_of d). change (Z.to_nat 4) with 4%nat.
    set (H := concat (le 4 (wiflags_of d) :: [le 2 po; k'; zero_key; [0; 0]; le 4 0; [0; 0; 0; 0]])).
    assert (LH : len H = 80) by (unfold H; cbn [concat]; rewrite !len_app, !len_le, Lk', len_nil; reflexivity).
    rewrite EN. cbn [app]. unfold R. rewrite <- (app_nil_r (H ++ repeat 0 (wzeros_of (d_peers d)))). rewrite <- app_assoc.
    rewrite (wput_peers_spec (d_peers d) H [] wz_iface 0 Hps); [|rewrite LH; reflexivity].
    rewrite app_nil_r. change (H ++ concat (map wpeer_mem (d_peers d))) with ([] ++ H ++ concat (map wpeer_mem (d_peers d))). unfold H.
    rewrite (poke_field [] _ _ 5); [|cbn [length]; lia|cbn [firstn concat]; rewrite !len_app, !len_le, Lk', len_nil; reflexivity|cbn [nth]; rewrite !len_le; reflexivity].
    reflexivity.
  - unfold wblock_of. rewrite len_app.
    assert (Lk' : len (if d_has_priv d then d_priv d else zero_key) = 32) by (destruct (d_has_priv d); [unfold len; lia|reflexivity]).
    assert (Q : len (concat (map wpeer_mem (d_peers d))) = Z.of_nat (wzeros_of (d_peers d))).
    { unfold wsize_of in Hs. clear - Hps Hs. induction Hps as [|p ps Hp Hps IH]; [reflexivity|]. change (wzeros_of (p :: ps)) with (136 + 24 * length (p_aips p) + wzeros_of ps)%nat in *.
      cbn [map concat]. rewrite len_app, IH by lia. destruct (wpeer_raw p Hp) as (_ & _ & ->); lia. }
    rewrite Q. unfold wsize_of. cbn [concat]. rewrite !len_app, !len_le, Lk', len_nil. reflexivity.
Qed.

Lemma wlength_zeros : forall ps, (length ps <= wzeros_of ps)%nat.
Proof. induction ps as [|p ps IH]; [cbn; lia|]. change (wzeros_of (p :: ps)) with (136 + 24 * length (p_aips p) + wzeros_of ps)%nat. cbn [length]. lia. Qed.
Definition without_mark (q : request) : request := mk_request (rq_name q) (rq_priv q) (rq_port q) None (rq_replace q) (rq_peers q).
Lemma wblock_asks : forall d, wf_device d -> wsize_of d < 2 ^ 32 -> wasks (d_name d) (wblock_of d) (without_mark (request_of d)).
Proof.
  intros d (Hpub & (Lk & Bk) & Hm & Hp & Hps) Hs. exists (wraw_of d).
  assert (Lk' : bytes 32 (if d_has_priv d then d_priv d else zero_key)).
  { destruct (d_has_priv d); split; try assumption; [unfold len; lia|reflexivity|apply bytes_zero]. }
  assert (Q : Forall2 wpeer_bytes (map wraw_of_peer (d_peers d)) (map wpeer_mem (d_peers d)) /\ Forall2 wasks_peer (map wraw_of_peer (d_peers d)) (map rq_peer_of (d_peers d))).
  { unfold wsize_of in Hs. clear - Hps Hs. induction Hps as [|p ps Hp Hps IH]; [split; constructor|]. change (wzeros_of (p :: ps)) with (136 + 24 * length (p_aips p) + wzeros_of ps)%nat in *.
    destruct IH as [I1 I2]; [lia|]. destruct (wpeer_raw p Hp) as (A & B & _); [lia|]. cbn [map]. split; constructor; assumption. }
  destruct Q as [Q1 Q2]. pose proof (wlength_zeros (d_peers d)) as LZ. unfold wsize_of in Hs.
  assert (Fi : 0 <= wiflags_of d < 32).
  { unfold wiflags_of. change 32 with (2 ^ 5). repeat (apply lor_small; try lia); try (destruct (d_has_priv d)); try (destruct (d_has_port d)); try (destruct (d_replace_peers d)); lia. }
  split.
  - unfold wiface_bytes, wraw_of. cbn [wi_flags wi_port wi_pub wi_priv wi_peers]. unfold word. split; [change (2 ^ 32) with 4294967296; lia|]. split; [destruct (d_has_port d); lia|].
    split; [exact Lk'|]. split; [split; [reflexivity|apply bytes_zero]|]. exists [0; 0], [0; 0; 0; 0], (map wpeer_mem (d_peers d)).
    split; [split; [reflexivity|exact (bytes_zero 2)]|]. split; [split; [reflexivity|exact (bytes_zero 4)]|]. split; [exact Q1|].
    rewrite map_length. split; [lia|]. reflexivity.
  - cbv zeta. unfold wraw_of, request_of, without_mark. cbn [wi_flags wi_port wi_pub wi_priv wi_peers rq_name rq_priv rq_port rq_fwmark rq_replace rq_peers]. unfold wiflags_of.
    destruct (d_has_priv d), (d_has_port d), (d_replace_peers d); cbn [Z.lor Pos.lor Z.testbit Pos.testbit Pos.pred_N Pos.pred_double opt];
      repeat (split; [reflexivity|]); exact Q2.
Qed.
