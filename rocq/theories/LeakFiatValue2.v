(** curve25519 of LeakFiat.v computes curve25519 of Fiat.v. *)
From Coq Require Import String ZArith List Bool Lia.
From Verif Require Import Base NlSpec EncodingSpec Keys PropKeys Leak LeakProofs LeakRuns LeakValue LeakSym LeakNice LeakCurve LeakFiat Fiat LeakFiatOps LeakFiatValue.
Import ListNotations.
Open Scope string_scope.
Open Scope list_scope.
Open Scope Z_scope.

Lemma slot_array : forall s i, good s -> (i < slots)%nat -> get (st_arrays s) (nth i slot_names "") = Some (limbs (m_ (mem s) i)) /\ Forall (fun c => 0 <= c < 2 ^ 32) (limbs (m_ (mem s) i)).
Proof.
  intros s i G Hi. assert (T : exists ts, get (sym lay 1) (nth i slot_names "") = Some ts /\ ts = ins (1 + 10 * i) 10).
  { unfold slots in Hi. do 18 (destruct i as [|i]; [eexists; split; reflexivity|]). lia. }
  destruct T as (ts & E & ->). pose proof (sym_ok true s 0 lay [] _ _ (good_all s G) eq_refl E) as H. unfold m_. rewrite (mem_nth s 0 i G Hi), limbs_fx10. split.
  - rewrite H. unfold ins. rewrite map_map. reflexivity.
  - apply Forall_forall. intros c Hc. apply in_map_iff in Hc. destruct Hc as (k & <- & Hk). apply in_seq in Hk. destruct k as [|k]; [lia|]. apply rho_range; [exact G|]. unfold slots in Hi. lia.
Qed.
Lemma fields_eta : forall x : fx, Fx (g0 x) (g1 x) (g2 x) (g3 x) (g4 x) (g5 x) (g6 x) (g7 x) (g8 x) (g9 x) = x.
Proof. intros [a b c d e f g h i j]. reflexivity. Qed.
Lemma limbs_inj : forall x y, limbs x = limbs y -> x = y.
Proof. intros x y H. rewrite <- (fields_eta x), <- (fields_eta y). unfold limbs in H. injection H. intros. congruence. Qed.

Section Value.
Variable sg : bool.
Notation vx := (v_exec sg 300).
Variable pub : string.
Hypothesis pub_is : pub = "mypublic" \/ pub = "secret".
Definition first_ops : list op := [OOne 1; OZero 2; OCopy 3 0; OOne 4].
Definition last_ops : list op := [OSwap 1 3; OSwap 2 4].
Definition whole_ : list stmt :=
  [dw "swap" (Lit 0); clamp_prog; fe_frombytes_ (pt "x1") (pt "basepoint"); block (map op_prog first_ops); Set_ I32 "pos" (Lit 254); ladder_; block (map op_prog last_ops); block (map x_prog affine_ops); block (store_ (pt pub)); block clear_].
Lemma whole_same : forall s, vx (curve25519_generic_ (pt pub) (pt "secret") (pt "basepoint")) s = vx (block whole_) s.
Proof. apply v_same. unfold whole_. destruct pub_is as [E|E]; rewrite E; vm_compute; reflexivity. Qed.
Lemma mem_same : forall c s s1, forallb (fun d => negb (existsb (String.eqb (fst d)) (written c))) lay = true -> vx c s = (s1, None) -> mem s1 = mem s.
Proof.
  intros c s s1 W E. unfold mem, cells, cells_in. f_equal. f_equal. apply map_ext_in. intros d Hd. unfold lookup_. rewrite forallb_forall in W. specialize (W d Hd). apply negb_true_iff in W. rewrite (keeps_array sg c s s1 (fst d) W E). reflexivity.
Qed.
Lemma still_good : forall c s s1, puts (get lay) c = true -> good s -> vx c s = (s1, None) -> good s1.
Proof. intros c s s1 P G E. pose proof (v_exec_ok sg 300 (get lay) c s P G) as O. rewrite E in O. exact O. Qed.
Lemma first_sem : forall m, length m = slots -> let m1 := ops_sem 0 first_ops m in lad m1 0 = L32 fe_1 fe_0 (m_ m 0) fe_1 0 /\ m_ m1 0 = m_ m 0.
Proof. intros m H. destruct (slots18 m H) as (x0 & x1 & x2 & x3 & x4 & x5 & x6 & x7 & x8 & x9 & x10 & x11 & x12 & x13 & x14 & x15 & x16 & x17 & ->). split; reflexivity. Qed.
Lemma last_sem : forall m w, length m = slots -> let m1 := ops_sem w last_ops m in m_ m1 1 = fst (fe_cswap (m_ m 1) (m_ m 3) w) /\ m_ m1 2 = fst (fe_cswap (m_ m 2) (m_ m 4) w).
Proof.
  intros m w H. destruct (slots18 m H) as (x0 & x1 & x2 & x3 & x4 & x5 & x6 & x7 & x8 & x9 & x10 & x11 & x12 & x13 & x14 & x15 & x16 & x17 & ->). cbv zeta.
  split; lazy -[fe_cswap fst snd]; reflexivity.
Qed.
Lemma pub_written : forall c, existsb (String.eqb "mypublic") (written c) = false -> existsb (String.eqb "secret") (written c) = false -> existsb (String.eqb pub) (written c) = false.
Proof. intros c H1 H2. destruct pub_is as [E|E]; rewrite E; assumption. Qed.
Ltac wr := vm_compute; reflexivity.
Ltac keep H E :=
  lazymatch type of H with byte_array ?s ?a ?l => lazymatch type of E with v_exec _ _ ?c _ = (?s1, _) =>
    let H1 := fresh in assert (H1 : byte_array s1 a l) by (apply (byte_array_same sg c s s1 a l); [first [wr|apply pub_written; wr]|exact E|exact H]); clear H; rename H1 into H end end.
Ltac goodness E G name := lazymatch type of E with v_exec _ _ ?c ?s = (?s1, _) => assert (name : good s1) by (apply (still_good c s s1); [wr|exact G|exact E]) end.
Ltac memory E name := lazymatch type of E with v_exec _ _ ?c ?s = (?s1, _) => assert (name : mem s1 = mem s) by (apply (mem_same c s s1); [wr|exact E]) end.
Ltac variable E x name := lazymatch type of E with v_exec _ _ ?c ?s = (?s1, _) => assert (name : get (st_vars s1) x = get (st_vars s) x) by (apply (keeps_var sg c s s1 x); [wr|exact E]) end.
Ltac array E a name := lazymatch type of E with v_exec _ _ ?c ?s = (?s1, _) => assert (name : get (st_arrays s1) a = get (st_arrays s) a) by (apply (keeps_array sg c s s1 a); [first [wr|apply pub_written; wr]|exact E]) end.
Lemma clamped_bytes : forall secret, length secret = 32%nat -> Forall (fun c => 0 <= c < 2 ^ 8) secret -> length (clamp_secret secret) = 32%nat /\ Forall (fun c => 0 <= c < 2 ^ 8) (clamp_secret secret).
Proof. intros secret H1 H2. exact (proj1 (clamp_secret_spec secret (conj H1 H2))). Qed.
Lemma clear_none : forall s, snd (vx (block clear_) s) = None.
Proof. intro s. reflexivity. Qed.
Lemma store_terms : match s_exec 300 (block (store_ (pt pub))) (two pub "h" 32 10) with Some (S1, None) => match get (s_arrays S1) pub with Some l => terms_eqb l t_stored | None => false end | _ => false end = true.
Proof. destruct pub_is as [E|E]; rewrite E; vm_compute; reflexivity. Qed.
Theorem curve25519_value : forall s secret basepoint out e0, good s -> byte_array s "secret" secret -> byte_array s "basepoint" basepoint -> byte_array s pub out -> byte_array s "e" e0 ->
  exists s1, vx (curve25519_generic_ (pt pub) (pt "secret") (pt "basepoint")) s = (s1, None) /\ get (st_arrays s1) pub = Some (curve25519_32 secret basepoint).
Proof.
  intros s secret basepoint out e0 G Hs Hb Hp He. rewrite whole_same. unfold whole_.
  (* swap *)
  rewrite v_cons. unfold dw at 1. rewrite v_set. set (s1 := mk_state _ _). assert (G1 : good s1) by (apply good_vars; exact G). assert (V1 : get (st_vars s1) "swap" = Some 0) by (unfold s1; cbn [st_vars]; rewrite get_put_same; reflexivity).
  assert (Hs1 : byte_array s1 "secret" secret) by exact Hs. assert (Hb1 : byte_array s1 "basepoint" basepoint) by exact Hb. assert (Hp1 : byte_array s1 pub out) by exact Hp. assert (He1 : byte_array s1 "e" e0) by exact He. clearbody s1. clear Hs Hb Hp He G s.
  (* the secret *)
  destruct (two_run sg s1 clamp_prog "secret" "e" secret e0 32 32 t_clamp "e" ltac:(discriminate) (proj1 Hs1) (proj1 He1) (proj1 (proj2 Hs1)) (proj1 (proj2 He1)) ltac:(wr)) as (s2 & E2 & B2).
  rewrite v_cons, E2. rewrite (t_clamp_ok sg secret e0 (proj1 (proj2 Hs1)) (proj2 (proj2 Hs1)) (proj2 (proj2 He1))) in B2. goodness E2 G1 G2. keep Hb1 E2. keep Hp1 E2. variable E2 "swap" V2. rewrite V1 in V2.
  assert (H2 : byte_array s2 "e" (clamp_secret secret)) by (split; [exact B2|]; apply clamped_bytes; apply Hs1). clear E2 B2 Hs1 He1 V1 G1 s1.
  (* the point *)
  destruct (slot_array s2 0 G2 ltac:(unfold slots; lia)) as [X1 X2]. cbn [nth slot_names] in X1.
  destruct (two_run sg s2 (fe_frombytes_ (pt "x1") (pt "basepoint")) "basepoint" "x1" basepoint (limbs (m_ (mem s2) 0)) 32 10 t_from "x1" ltac:(discriminate) (proj1 Hb1) X1 (proj1 (proj2 Hb1)) eq_refl ltac:(wr)) as (s3 & E3 & B3).
  rewrite v_cons, E3. rewrite (t_from_ok sg basepoint _ (proj1 (proj2 Hb1)) (proj2 (proj2 Hb1)) X2) in B3. goodness E3 G2 G3. keep Hp1 E3. keep H2 E3. variable E3 "swap" V3. rewrite V2 in V3.
  assert (Q3 : m_ (mem s3) 0 = fe_frombytes basepoint).
  { destruct (slot_array s3 0 G3 ltac:(unfold slots; lia)) as [Y1 _]. cbn [nth slot_names] in Y1. apply limbs_inj. congruence. }
  clear E3 B3 X1 X2 V2 Hb1 G2 s2.
  (* before the loop *)
  destruct (ops_sound sg None first_ops s3 0 ltac:(wr) G3 I ltac:(lia)) as (s4 & E4 & G4 & M4 & _). rewrite v_cons, E4. keep H2 E4. keep Hp1 E4. variable E4 "swap" V4. rewrite V3 in V4.
  destruct (first_sem (mem s3) (mem_length s3 G3)) as [L4 Q4]. rewrite <- M4 in L4, Q4. rewrite Q3 in L4, Q4. clear M4 E4 Q3 V3 G3 s3.
  rewrite v_cons, v_set. set (s5 := mk_state _ _). assert (G5 : good s5) by (apply good_vars; exact G4). assert (M5 : mem s5 = mem s4) by reflexivity. assert (Hp5 : byte_array s5 pub out) by exact Hp1. assert (He5 : byte_array s5 "e" (clamp_secret secret)) by exact H2.
  assert (V5 : get (st_vars s5) "swap" = Some 0) by (unfold s5; cbn [st_vars]; rewrite get_put_other by discriminate; exact V4). assert (W5 : get (st_vars s5) "pos" = Some (Z.of_nat 255 - 1)) by (unfold s5; cbn [st_vars]; rewrite get_put_same; reflexivity). clearbody s5. rewrite <- M5 in L4, Q4. clear M5 Hp1 H2 V4 G4 s4.
  (* the loop *)
  destruct (ladder_v sg 255 300 s5 (clamp_secret secret) 0 ltac:(lia) ltac:(lia) G5 He5 V5 ltac:(lia) W5) as (s6 & w & E6 & G6 & L6 & V6 & Hw).
  rewrite v_cons. assert (E6' : vx ladder_ s5 = (s6, None)) by exact E6. rewrite E6'. keep Hp5 E6'. rewrite L4, Q4 in L6. clear E6 E6' W5 V5 He5 L4 Q4 G5 s5.
  (* after it *)
  destruct (ops_sound sg (Some "swap") last_ops s6 w ltac:(wr) G6 V6 Hw) as (s7 & E7 & G7 & M7 & _). rewrite v_cons, E7. keep Hp5 E7. destruct (last_sem (mem s6) w (mem_length s6 G6)) as [L7 Q7]. rewrite <- M7 in L7, Q7. clear M7 E7.
  destruct (xs_sound sg affine_ops s7 (affine_check) G7) as (s8 & E8 & G8 & M8). rewrite v_cons, E8. keep Hp5 E8. pose proof (affine_sem (mem s7) (mem_length s7 G7)) as A8. rewrite <- M8 in A8. rewrite L7, Q7 in A8. clear E8 M8 L7 Q7 G7 s7.
  destruct (slot_array s8 17 G8 ltac:(unfold slots; lia)) as [X1 X2]. cbn [nth slot_names] in X1.
  destruct (two_run sg s8 (block (store_ (pt pub))) pub "h" out (limbs (m_ (mem s8) 17)) 32 10 t_stored pub ltac:(destruct pub_is as [E|E]; rewrite E; discriminate) (proj1 Hp5) X1 (proj1 (proj2 Hp5)) eq_refl store_terms) as (s9 & E9 & B9).
  rewrite v_cons, E9. rewrite (t_stored_ok sg out _ _ (proj1 (proj2 Hp5)) A8 (proj2 (proj2 Hp5)) X2) in B9. rewrite v_one.
  (* zeros *)
  pose proof (clear_none s9) as W. destruct (vx (block clear_) s9) as [s10 r] eqn:E10. cbn [snd] in W. subst r. exists s10. split; [reflexivity|]. array E10 pub A10. rewrite A10, B9. f_equal.
  unfold curve25519_32. cbv zeta. rewrite <- L6. unfold lad. cbn [l_x2 l_z2 l_x3 l_z3 l_swap].
  destruct (fe_cswap (m_ (mem s6) 1) (m_ (mem s6) 3) w) as [x2 x3]. destruct (fe_cswap (m_ (mem s6) 2) (m_ (mem s6) 4) w) as [z2 z3]. reflexivity.
Qed.
End Value.
