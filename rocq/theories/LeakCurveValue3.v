(** curve25519 of LeakCurve.v computes curve25519 of Curve.v. *)
From Coq Require Import String ZArith List Bool Lia.
From Verif Require Import Base NlSpec EncodingSpec Keys PropKeys Curve Leak LeakProofs LeakRuns LeakValue LeakSym LeakNice LeakCurve LeakCurveOps LeakCurveValue LeakCurveValue2.
Import ListNotations.
Open Scope string_scope.
Open Scope list_scope.
Open Scope Z_scope.

Lemma slot_window : forall n pre x rest i, length (pre ++ x ++ rest) = (5 * n)%nat -> length pre = (5 * i)%nat -> length x = 10%nat ->
  x = limbs (nth i (fes (pre ++ x ++ rest)) zero_fe) ++ limbs (nth (S i) (fes (pre ++ x ++ rest)) zero_fe).
Proof.
  intros n pre x rest i L Lp Lx. pose proof L as L1. rewrite !app_length in L1.
  assert (N : forall k, (k < 10)%nat -> nth (5 * i + k) (pre ++ x ++ rest) 0 = nth k x 0) by (intros k Hk; rewrite <- Lp; apply nth_window; lia).
  rewrite (fes_nth n), (fes_nth n) by (assumption || lia). replace (5 * S i)%nat with (5 * i + 5)%nat by lia. rewrite <- !Nat.add_assoc. cbn [Nat.add].
  pose proof (N 0%nat ltac:(lia)) as N0. rewrite Nat.add_0_r in N0. rewrite N0, !N by lia. do 10 (destruct x as [|? x]; [discriminate|]). destruct x; [|discriminate]. reflexivity.
Qed.
Ltac array_of G a n l := destruct (G a (64, n) eq_refl) as (l & ? & ? & ?).
Lemma slots_of_pair : forall s a i, good s -> (a = "buf0" /\ i = 16%nat) \/ (a = "zbuf" /\ i = 21%nat) ->
  exists l, get (st_arrays s) a = Some l /\ l = limbs (m_ (mem s) i) ++ limbs (m_ (mem s) (S i)) /\ length l = 10%nat /\ Forall (fun c => 0 <= c < 2 ^ 64) l.
Proof.
  intros s a i G H. pose proof (proj1 (main_holds s G)) as L.
  destruct (G "pbuf" (64, 40%nat) eq_refl) as (l1 & E1 & L1 & F1). destruct (G "abuf" (64, 40%nat) eq_refl) as (l2 & E2 & L2 & F2). destruct (G "buf0" (64, 10%nat) eq_refl) as (l3 & E3 & L3 & F3).
  destruct (G "buf" (64, 15%nat) eq_refl) as (l4 & E4 & L4 & F4). destruct (G "zbuf" (64, 10%nat) eq_refl) as (l5 & E5 & L5 & F5). destruct (G "rbuf" (64, 20%nat) eq_refl) as (l6 & E6 & L6 & F6). cbn [fst snd] in *.
  assert (C : cells_in main s = l1 ++ l2 ++ l3 ++ l4 ++ l5 ++ l6 ++ []).
  { unfold cells_in, main. cbn [map concat fst]. unfold lookup_. rewrite E1, E2, E3, E4, E5, E6. reflexivity. }
  unfold m_, mem. rewrite C in *. destruct H as [[-> ->]|[-> ->]].
  - exists l3. split; [exact E3|]. split; [|split; assumption]. rewrite app_assoc in *. apply (slot_window 27); [exact L|rewrite app_length, L1, L2; reflexivity|exact L3].
  - exists l5. split; [exact E5|]. split; [|split; assumption]. rewrite app_assoc in *. rewrite (app_assoc (l1 ++ l2)) in *. rewrite (app_assoc ((l1 ++ l2) ++ l3)) in *. apply (slot_window 27); [exact L|rewrite !app_length, L1, L2, L3, L4; reflexivity|exact L5].
Qed.

Section Value.
Variable sg : bool.
Notation vx := (v_exec sg 101).
Variable pub : string.
Hypothesis pub_is : pub = "mypublic" \/ pub = "secret".
Definition before_ops : list op := [OZero 18 3; OOne 18; OZero 0 8; OCopy 2 16; OCopy 3 17; OOne 0].
Definition after_ops : list op := [OCopy 18 0; OCopy 19 1].
Definition big : stmt := big_loop_ ("e", 0) nq_ nqpq_ nq2_ nqpq2_ q_.
Definition wipe : list stmt := [zero U64 ("buf", 0) 15; zero U8 ("e", 0) 32; zero U64 ("buf0", 0) 10].
Definition whole_ : list stmt :=
  [op_prog (OZero 16 2); fexpand_ ("buf0", 0) ("basepoint", 0); op_prog (OOne 17); clamp_prog; block (map op_prog before_ops); Set_ U32 "bli" (Lit 32); big; block (map op_prog after_ops);
   block (map x_prog affine_ops); fcontract_store_ (pub, 0) ("zbuf", 5); block wipe].
Lemma whole_same : forall s, vx (curve25519_ (pub, 0) ("secret", 0) ("basepoint", 0)) s = vx (block whole_) s.
Proof. apply v_same. vm_compute. reflexivity. Qed.
Lemma mem_same : forall c s s1, forallb (fun d => negb (existsb (String.eqb (fst d)) (written c))) main = true -> vx c s = (s1, None) -> mem s1 = mem s.
Proof.
  intros c s s1 W E. unfold mem, cells_in. f_equal. f_equal. apply map_ext_in. intros d Hd. unfold lookup_. rewrite forallb_forall in W. specialize (W d Hd). apply negb_true_iff in W. rewrite (keeps_array sg c s s1 (fst d) W E). reflexivity.
Qed.
Lemma still_good : forall c s s1, puts (get lay) c = true -> good s -> vx c s = (s1, None) -> good s1.
Proof. intros c s s1 P G E. pose proof (v_exec_ok sg 101 (get lay) c s P G) as O. rewrite E in O. exact O. Qed.
Lemma fields_eta : forall x : fe, Fe (f0 x) (f1 x) (f2 x) (f3 x) (f4 x) = x.
Proof. intros [a b c d e]. reflexivity. Qed.
Lemma limbs_inj : forall x y, limbs x = limbs y -> x = y.
Proof. intros x y H. rewrite <- (fields_eta x), <- (fields_eta y). unfold limbs in H. congruence. Qed.
Lemma before_sem : forall m, length m = slots -> let m1 := ops_sem 0 before_ops m in
  lad m1 = Lad (Pt (Fe 1 0 0 0 0) zero_fe) (Pt (m_ m 16) (m_ m 17)) (Pt zero_fe zero_fe) (Pt zero_fe zero_fe) /\ m_ m1 16 = m_ m 16.
Proof.
  intros m H. destruct (slots27 m H) as (x0 & x1 & x2 & x3 & x4 & x5 & x6 & x7 & x8 & x9 & x10 & x11 & x12 & x13 & x14 & x15 & x16 & x17 & x18 & x19 & x20 & x21 & x22 & x23 & x24 & x25 & x26 & ->). split; reflexivity.
Qed.
Lemma after_sem : forall m, length m = slots -> let m1 := ops_sem 0 after_ops m in m_ m1 18 = m_ m 0 /\ m_ m1 19 = m_ m 1.
Proof.
  intros m H. destruct (slots27 m H) as (x0 & x1 & x2 & x3 & x4 & x5 & x6 & x7 & x8 & x9 & x10 & x11 & x12 & x13 & x14 & x15 & x16 & x17 & x18 & x19 & x20 & x21 & x22 & x23 & x24 & x25 & x26 & ->). split; reflexivity.
Qed.
Definition byte_array (s : state) (a : string) (l : list Z) : Prop := get (st_arrays s) a = Some l /\ length l = 32%nat /\ Forall (fun c => 0 <= c < 2 ^ 8) l.
Lemma byte_array_same : forall c s s1 a l, existsb (String.eqb a) (written c) = false -> vx c s = (s1, None) -> byte_array s a l -> byte_array s1 a l.
Proof. intros c s s1 a l W E [H1 H2]. split; [|exact H2]. rewrite (keeps_array sg c s s1 a W E). exact H1. Qed.
Lemma pub_written : forall c, existsb (String.eqb "mypublic") (written c) = false -> existsb (String.eqb "secret") (written c) = false -> existsb (String.eqb pub) (written c) = false.
Proof. intros c H1 H2. destruct pub_is as [E|E]; rewrite E; assumption. Qed.
Lemma zero_slots : forall m i, length m = slots -> (i = 16%nat \/ i = 17%nat) -> m_ (op_sem 0 (OZero 16 2) m) i = zero_fe.
Proof.
  intros m i H. destruct (slots27 m H) as (x0 & x1 & x2 & x3 & x4 & x5 & x6 & x7 & x8 & x9 & x10 & x11 & x12 & x13 & x14 & x15 & x16 & x17 & x18 & x19 & x20 & x21 & x22 & x23 & x24 & x25 & x26 & ->). intros [-> | ->]; reflexivity.
Qed.
Lemma one_slots : forall m, length m = slots -> m_ m 17 = zero_fe -> m_ (op_sem 0 (OOne 17) m) 16 = m_ m 16 /\ m_ (op_sem 0 (OOne 17) m) 17 = Fe 1 0 0 0 0.
Proof.
  intros m H. destruct (slots27 m H) as (x0 & x1 & x2 & x3 & x4 & x5 & x6 & x7 & x8 & x9 & x10 & x11 & x12 & x13 & x14 & x15 & x16 & x17 & x18 & x19 & x20 & x21 & x22 & x23 & x24 & x25 & x26 & ->).
  intro E. change (x17 = zero_fe) in E. rewrite E. split; reflexivity.
Qed.
Ltac wr := vm_compute; reflexivity.
Ltac keep H E :=
  lazymatch type of H with byte_array ?s ?a ?l => lazymatch type of E with v_exec _ _ ?c _ = (?s1, _) =>
    let H1 := fresh in assert (H1 : byte_array s1 a l) by (apply (byte_array_same c s s1 a l); [first [wr|apply pub_written; wr]|exact E|exact H]); clear H; rename H1 into H end end.
Ltac goodness E G name := lazymatch type of E with v_exec _ _ ?c ?s = (?s1, _) => assert (name : good s1) by (apply (still_good c s s1); [wr|exact G|exact E]) end.
Ltac memory E name := lazymatch type of E with v_exec _ _ ?c ?s = (?s1, _) => assert (name : mem s1 = mem s) by (apply (mem_same c s s1); [wr|exact E]) end.
Ltac array E a name := lazymatch type of E with v_exec _ _ ?c ?s = (?s1, _) => assert (name : get (st_arrays s1) a = get (st_arrays s) a) by (apply (keeps_array sg c s s1 a); [first [wr|apply pub_written; wr]|exact E]) end.
Lemma big_v : forall s e, good s -> byte_array s "e" e -> get (st_vars s) "bli" = Some 32 -> exists s1, vx big s = (s1, None) /\ good s1 /\ lad (mem s1) = big_loop e (lad (mem s)) (m_ (mem s) 16) 32.
Proof.
  intros s e G (A & L & F) V. destruct (big_loop_v sg 32 101 s e ltac:(lia) ltac:(lia) G A L F V) as (s1 & E & G1 & L1 & _).
  unfold big, big_loop_, while_dec. fold small. fold round_. fold (dec_ "bli"). fold (cond_ "bli"). rewrite v_seq, v_while, E. unfold dec_. rewrite v_set. eexists. split; [reflexivity|]. split; [apply good_vars; exact G1|exact L1].
Qed.
Lemma clamped_bytes : forall secret, length secret = 32%nat -> Forall (fun c => 0 <= c < 2 ^ 8) secret -> length (clamp_secret secret) = 32%nat /\ Forall (fun c => 0 <= c < 2 ^ 8) (clamp_secret secret).
Proof. intros secret H1 H2. exact (proj1 (clamp_secret_spec secret (conj H1 H2))). Qed.
Lemma wipe_none : forall s, snd (vx (block wipe) s) = None.
Proof. intro s. reflexivity. Qed.
Lemma store_terms : match s_exec 101 (fcontract_store_ (pub, 0) ("zbuf", 5)) (two pub "zbuf" 32 10) with Some (S1, None) => match get (s_arrays S1) pub with Some l => terms_eqb l t_stored | None => false end | _ => false end = true.
Proof. destruct pub_is as [E|E]; rewrite E; vm_compute; reflexivity. Qed.
Theorem curve25519_value : forall s secret basepoint out e0, good s -> byte_array s "secret" secret -> byte_array s "basepoint" basepoint -> byte_array s pub out -> byte_array s "e" e0 ->
  exists s1, vx (curve25519_ (pub, 0) ("secret", 0) ("basepoint", 0)) s = (s1, None) /\ get (st_arrays s1) pub = Some (Curve.curve25519 secret basepoint).
Proof.
  intros s secret basepoint out e0 G Hs Hb Hp He. rewrite whole_same. unfold whole_.
  (* zeros into buf0 *)
  destruct (op_none sg (OZero 16 2) s eq_refl ltac:(wr) G) as (s1 & E1 & G1 & M1). rewrite v_cons, E1. keep Hs E1. keep Hb E1. keep He E1. keep Hp E1.
  pose proof (zero_slots (mem s) 17 (mem_length s G) ltac:(auto)) as Z17. rewrite <- M1 in Z17. clear M1 E1 G s.
  (* fexpand *)
  destruct (slots_of_pair s1 "buf0" 16 G1 ltac:(auto)) as (lb & Elb & Dlb & Llb & Flb). rewrite Z17 in Dlb.
  destruct (two_run sg s1 (fexpand_ ("buf0", 0) ("basepoint", 0)) "basepoint" "buf0" basepoint lb 32 10 t_expand "buf0" ltac:(discriminate) (proj1 Hb) Elb (proj1 (proj2 Hb)) Llb ltac:(wr)) as (s2 & E2 & B2).
  rewrite v_cons, E2. rewrite (t_expand_ok sg basepoint lb (proj1 (proj2 Hb)) Llb (proj2 (proj2 Hb)) Flb) in B2. goodness E2 G1 G2. keep Hs E2. keep Hb E2. keep He E2. keep Hp E2.
  destruct (slots_of_pair s2 "buf0" 16 G2 ltac:(auto)) as (lb2 & Elb2 & Dlb2 & _ & _). rewrite B2 in Elb2.
  assert (Q : m_ (mem s2) 16 = fexpand basepoint /\ m_ (mem s2) 17 = zero_fe).
  { assert (X : limbs (fexpand basepoint) ++ skipn 5 lb = limbs (m_ (mem s2) 16) ++ limbs (m_ (mem s2) 17)) by congruence. rewrite Dlb in X. change (skipn 5 (limbs (m_ (mem s1) 16) ++ limbs zero_fe)) with (limbs zero_fe) in X.
    revert X. generalize (fexpand basepoint) (m_ (mem s2) 16) (m_ (mem s2) 17). intros x y z X. split; apply limbs_inj; unfold limbs in *; cbn [app] in X; congruence. }
  destruct Q as [Q16 Q17]. clear E2 B2 Elb Dlb Llb Flb lb Elb2 Dlb2 lb2 Z17 G1 s1.
  (* one *)
  destruct (op_none sg (OOne 17) s2 eq_refl ltac:(wr) G2) as (s3 & E3 & G3 & M3). rewrite v_cons, E3. keep Hs E3. keep Hb E3. keep He E3. keep Hp E3.
  destruct (one_slots (mem s2) (mem_length s2 G2) Q17) as [R16 R17]. rewrite <- M3 in R16, R17. rewrite Q16 in R16. clear M3 E3 Q16 Q17 G2 s2.
  (* the secret *)
  destruct (two_run sg s3 clamp_prog "secret" "e" secret e0 32 32 t_clamp "e" ltac:(discriminate) (proj1 Hs) (proj1 He) (proj1 (proj2 Hs)) (proj1 (proj2 He)) ltac:(wr)) as (s4 & E4 & B4).
  rewrite v_cons, E4. rewrite (t_clamp_ok sg secret e0 (proj1 (proj2 Hs)) (proj1 (proj2 He)) (proj2 (proj2 Hs)) (proj2 (proj2 He))) in B4. goodness E4 G3 G4. memory E4 M4. rewrite <- M4 in R16, R17. keep Hp E4.
  assert (H4 : byte_array s4 "e" (clamp_secret secret)) by (split; [exact B4|]; apply clamped_bytes; apply Hs). clear M4 E4 G3 B4 Hs He Hb s3.
  (* before the loop *)
  destruct (ops_sound sg None before_ops s4 0 ltac:(wr) G4 I ltac:(lia)) as (s5 & E5 & G5 & M5 & _). rewrite v_cons, E5. keep H4 E5. keep Hp E5.
  destruct (before_sem (mem s4) (mem_length s4 G4)) as [L5 Q5]. rewrite <- M5 in L5, Q5. rewrite R16, R17 in L5. rewrite R16 in Q5. clear M5 E5 R16 R17 G4 s4.
  (* the loop *)
  rewrite v_cons, v_set. set (s6 := mk_state _ _). assert (G6 : good s6) by (apply good_vars; exact G5). assert (M6 : mem s6 = mem s5) by reflexivity. assert (Hp6 : byte_array s6 pub out) by exact Hp. assert (He6 : byte_array s6 "e" (clamp_secret secret)) by exact H4.
  assert (V6 : get (st_vars s6) "bli" = Some 32) by (unfold s6; cbn [st_vars]; rewrite get_put_same; reflexivity). clearbody s6. rewrite <- M6 in L5, Q5. clear M6 Hp H4 G5 s5.
  destruct (big_v s6 (clamp_secret secret) G6 He6 V6) as (s7 & E7 & G7 & L7). rewrite v_cons, E7. keep Hp6 E7. rewrite L5, Q5 in L7. clear E7 V6 He6 G6 L5 Q5 s6.
  (* the result, from the projective coordinates *)
  destruct (ops_sound sg None after_ops s7 0 ltac:(wr) G7 I ltac:(lia)) as (s8 & E8 & G8 & M8 & _). rewrite v_cons, E8. keep Hp6 E8. destruct (after_sem (mem s7) (mem_length s7 G7)) as [L8 Q8]. rewrite <- M8 in L8, Q8.
  assert (P8 : Pt (m_ (mem s8) 18) (m_ (mem s8) 19) = ladder_cmult (clamp_secret secret) (Pt (fexpand basepoint) (Fe 1 0 0 0 0))) by (rewrite L8, Q8; unfold ladder_cmult; cbn [px]; rewrite <- L7; reflexivity). clear M8 E8 L8 Q8 L7 G7 s7.
  destruct (xs_sound sg affine_ops s8 affine_check G8) as (s9 & E9 & G9 & M9). rewrite v_cons, E9. keep Hp6 E9. pose proof (affine_sem (mem s8) (mem_length s8 G8)) as A9. rewrite <- M9 in A9. clear E9 M9.
  destruct (slots_of_pair s9 "zbuf" 21 G9 ltac:(auto)) as (lz & Elz & Dlz & Llz & Flz).
  destruct (two_run sg s9 (fcontract_store_ (pub, 0) ("zbuf", 5)) pub "zbuf" out lz 32 10 t_stored pub ltac:(destruct pub_is as [E|E]; rewrite E; discriminate) (proj1 Hp6) Elz (proj1 (proj2 Hp6)) Llz store_terms) as (s10 & E10 & B10).
  rewrite v_cons, E10. rewrite (t_stored_ok sg out lz _ _ (proj1 (proj2 Hp6)) Dlz (proj2 (proj2 Hp6)) Flz) in B10. rewrite v_one.
  (* zeros *)
  pose proof (wipe_none s10) as W. destruct (vx (block wipe) s10) as [s11 r] eqn:E11. cbn [snd] in W. subst r. exists s11. split; [reflexivity|]. array E11 pub A11. rewrite A11, B10. f_equal.
  unfold Curve.curve25519, scalar_of_point, fcontract. rewrite A9. rewrite <- P8. reflexivity.
Qed.
End Value.
