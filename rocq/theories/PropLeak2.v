(** C51, continued: reading keys. *)
From Coq Require Import String ZArith List Bool Lia.
From Verif Require Import Base Encoding EncodingProofs HexProofs Leak LeakEncoding LeakProofs LeakValue LeakSym PropLeak.
Import ListNotations.
Open Scope string_scope.
Open Scope Z_scope.

(** ** From hex *)
Lemma strlen_text : forall s, text s -> strlen_of (s ++ [0])%list = Some (Z.of_nat (length s)).
Proof.
  intros s F. induction F as [|x s H F IH]; [reflexivity|]. cbn [app strlen_of length]. unfold is_char in H. destruct (Z.eqb_spec x 0) as [->|_]; [lia|]. rewrite IH. f_equal. lia.
Qed.
Definition char_term (c : term) : term := TFits U8 (TFits U8 (TLoaded CHAR c)).
Definition num_term (x : term) : term := TFits U8 (TBin U32 Xor x (TC 48)).
Definition num0_term (x : term) : term := TFits U8 (TBin U32 Shr (TBin U32 Sub (num_term x) (TC 10)) (TC 8)).
Definition alpha_term (x : term) : term := TFits U8 (TBin U32 Sub (TBin U32 And x (TC 4294967263)) (TC 55)).
Definition alpha0_term (x : term) : term := TFits U8 (TBin U32 Shr (TBin U32 Xor (TBin U32 Sub (alpha_term x) (TC 10)) (TBin U32 Sub (alpha_term x) (TC 16))) (TC 8)).
Definition err_term (c : term) : term := let x := char_term c in TBin I32 Shr (TBin I32 Sub (TBin I32 Or (num0_term x) (alpha0_term x)) (TC 1)) (TC 8).
Definition val_term (c : term) : term := let x := char_term c in TFits U8 (TBin I32 Or (TBin I32 And (num0_term x) (num_term x)) (TBin I32 And (alpha0_term x) (alpha_term x))).
Definition unhex_cells : list term := map (fun i => TStored U8 (TBin I32 Or (TFits U8 (TBin U32 Mul (val_term (TIn (i * 2))) (TC 16))) (val_term (TIn (i * 2 + 1))))) (List.seq 0 32).
Definition unhex_ret : term := fold_left (fun r i => TFits U8 (TBin I32 Or (TFits U8 (TBin I32 Or r (err_term (TIn (i * 2))))) (err_term (TIn (i * 2 + 1))))) (List.seq 0 32) (TC 0).
Lemma unhex_gives : gives (s_exec 100 from_hex_body (mk_sstate [("ret", TC 0); ("n", TC 64)] [("hex", ins 0 65); ("key", ins 65 32)])) "key" unhex_cells
  (Some (TBin I32 And (TC 1) (TBin I32 Shr (TBin I32 Sub unhex_ret (TC 1)) (TC 8)))).
Proof. vm_compute. split; reflexivity. Qed.
Definition at_char (sg : bool) (f : term -> term) (c : Z) : Z := den sg (fun _ => c) (f (TIn 0)).
Lemma unhex_sweep : forallb (fun sg => forallb (fun c => (at_char sg val_term c =? fst (hex_in c)) && (at_char sg err_term c =? snd (hex_in c)) && (0 <=? fst (hex_in c)) && (fst (hex_in c) <=? 255)) (zrange 0 256)) [true; false] = true.
Proof. vm_compute. reflexivity. Qed.
Lemma unhex_char : forall sg c, is_byte c -> at_char sg val_term c = fst (hex_in c) /\ at_char sg err_term c = snd (hex_in c) /\ is_byte (fst (hex_in c)).
Proof.
  intros sg c H. assert (S : forallb (fun c => (at_char sg val_term c =? fst (hex_in c)) && (at_char sg err_term c =? snd (hex_in c)) && (0 <=? fst (hex_in c)) && (fst (hex_in c) <=? 255)) (zrange 0 256) = true).
  { pose proof (proj1 (forallb_forall _ _) unhex_sweep sg) as S. apply S. destruct sg; cbn; tauto. }
  pose proof (zrange_forallb _ _ _ S c ltac:(unfold is_byte in H; simpl; lia)) as E. cbv beta in E. apply andb_true_iff in E as [E E4]. apply andb_true_iff in E as [E E3]. apply andb_true_iff in E as [E1 E2].
  apply Z.eqb_eq in E1, E2. apply Z.leb_le in E3, E4. unfold is_byte. repeat split; [exact E1|exact E2|lia|lia].
Qed.
Lemma val_den : forall sg rho c, den sg rho (val_term c) = at_char sg val_term (den sg rho c).
Proof. intros sg rho c. unfold at_char, val_term, num_term, num0_term, alpha_term, alpha0_term, char_term. cbn [den]. reflexivity. Qed.
Lemma err_den : forall sg rho c, den sg rho (err_term c) = at_char sg err_term (den sg rho c).
Proof. intros sg rho c. unfold at_char, err_term, num_term, num0_term, alpha_term, alpha0_term, char_term. cbn [den]. reflexivity. Qed.
Lemma den_u8_byte : forall sg rho t, is_byte (den sg rho (TFits U8 t)).
Proof. intros sg rho t. exact (u8_is_byte (den sg rho t)). Qed.
Lemma unhex_ret_byte : forall sg rho, is_byte (den sg rho unhex_ret).
Proof.
  intros sg rho. unfold unhex_ret. assert (Z0 : is_byte (den sg rho (TC 0))) by (unfold is_byte; cbn [den]; lia). revert Z0. generalize (TC 0). generalize (List.seq 0 32). intro l. induction l as [|i l IH]; intros r Z0; cbn [fold_left]; [exact Z0|].
  apply IH. apply den_u8_byte.
Qed.
Lemma u32_small : forall x, 0 <= x < 2 ^ 32 -> u32 x = x.
Proof. intros x H. apply Z.mod_small. exact H. Qed.
Lemma some_pair : forall A B (a c : A) (b d : B), (a, Some b) = (c, Some d) -> a = c /\ b = d.
Proof. intros A B a c b d H. injection H as -> ->. split; reflexivity. Qed.
Lemma char_byte : forall c, is_char c -> is_byte c.
Proof. unfold is_char, is_byte. lia. Qed.
(** The start of both functions, whatever follows. *)
Definition checked (a : string) (n : Z) (more body : stmt) : stmt :=
  block [Set_ U8 "ret" (Lit 0); Strlen "n" a; If (Bin U64 Ne (Var "n") (Lit n)) (Return (Lit 0)) more; body].
Lemma wrong_length : forall sg fuel a n more body s rest, text s -> Z.of_nat (length s) < 2 ^ 64 -> 0 <= n < 2 ^ 64 -> Z.of_nat (length s) <> n ->
  exists st, exec sg fuel (checked a n more body) (mk_state [] ((a, (s ++ [0])%list) :: rest)) = Some (st, Some 0, [SawLength a (Z.of_nat (length s)); SawBranch true]).
Proof.
  intros sg fuel a n more body s rest Hs Hl Hn N. unfold checked. cbn [block fold_right exec eval fits stored st_vars st_arrays put get app]. rewrite String.eqb_refl, (strlen_text s Hs). cbn [exec eval st_vars st_arrays get String.eqb Ascii.eqb Bool.eqb app].
  unfold compute, operand. cbn [fits stored exact]. unfold u64. rewrite (Z.mod_small (Z.of_nat (length s)) (2 ^ 64)) by lia. rewrite (Z.mod_small n (2 ^ 64)) by lia.
  apply Z.eqb_neq in N. rewrite N. cbn [negb b2z]. change (1 mod 2 ^ 64) with 1. cbn [Z.eqb negb]. eexists. cbn [exec eval app]. reflexivity.
Qed.
Lemma right_length : forall sg fuel a n more body s rest, text s -> 0 <= n < 2 ^ 64 -> Z.of_nat (length s) = n -> v_exec sg fuel more (mk_state [("ret", 0); ("n", n)] ((a, (s ++ [0])%list) :: rest)) = (mk_state [("ret", 0); ("n", n)] ((a, (s ++ [0])%list) :: rest), None) ->
  v_exec sg fuel (checked a n more body) (mk_state [] ((a, (s ++ [0])%list) :: rest)) = match v_exec sg fuel body (mk_state [("ret", 0); ("n", n)] ((a, (s ++ [0])%list) :: rest)) with (s1, Some r) => (s1, Some r) | (s1, None) => (s1, None) end.
Proof.
  intros sg fuel a n more body s rest Hs Hn L Hm. unfold checked. cbn [block fold_right v_exec value v_fits stored st_vars st_arrays put get]. unfold lookup_. cbn [get]. rewrite String.eqb_refl, (strlen_text s Hs), L.
  change (u8 0) with 0. cbn [st_vars st_arrays get put String.eqb Ascii.eqb Bool.eqb v_exact]. rewrite Z.eqb_refl. cbn [negb b2z]. change (u64 0) with 0. cbn [Z.eqb negb v_exec]. rewrite Hm. destruct (v_exec sg fuel body _) as [s1 [r|]]; reflexivity.
Qed.
Lemma val_at : forall sg rho k, den sg rho (val_term (TIn k)) = at_char sg val_term (rho k).
Proof. intros sg rho k. exact (val_den sg rho (TIn k)). Qed.
Lemma err_at : forall sg rho k, den sg rho (err_term (TIn k)) = at_char sg err_term (rho k).
Proof. intros sg rho k. exact (err_den sg rho (TIn k)). Qed.
Lemma last_den : forall sg rho t, den sg rho (TBin I32 And (TC 1) (TBin I32 Shr (TBin I32 Sub t (TC 1)) (TC 8))) = Z.land 1 (Z.shiftr (den sg rho t - 1) 8).
Proof. reflexivity. Qed.
Lemma unhex_ret_den : forall sg rho r e0 e1, den sg rho (TFits U8 (TBin I32 Or (TFits U8 (TBin I32 Or r e0)) e1)) = u8 (Z.lor (u8 (Z.lor (den sg rho r) (den sg rho e0))) (den sg rho e1)).
Proof. reflexivity. Qed.
Lemma unhex_cell_den : forall sg rho v0 v1, is_byte (den sg rho v0) -> den sg rho (TStored U8 (TBin I32 Or (TFits U8 (TBin U32 Mul v0 (TC 16))) v1)) = u8 (Z.lor (u8 (den sg rho v0 * 16)) (den sg rho v1)).
Proof. intros sg rho v0 v1 H. cbn [den v_fits v_exact stored]. change (u32 16) with 16. unfold is_byte in H. rewrite (u32_small (den sg rho v0)) by lia. rewrite u32_small by lia. reflexivity. Qed.
Lemma zero_den : forall sg rho, den sg rho (TC 0) = 0.
Proof. reflexivity. Qed.
Definition unhex_step (s : list Z) (a : list Z * Z) (i : nat) : list Z * Z :=
  let '(key, ret) := a in
  let '(v0, e0) := hex_in (at_ s (i * 2)) in let '(v1, e1) := hex_in (at_ s (i * 2 + 1)) in ((key ++ [u8 (Z.lor (u8 (v0 * 16)) v1)])%list, u8 (Z.lor (u8 (Z.lor ret e0)) e1)).
Definition unhex_cell (i : nat) : term := TStored U8 (TBin I32 Or (TFits U8 (TBin U32 Mul (val_term (TIn (i * 2))) (TC 16))) (val_term (TIn (i * 2 + 1)))).
Definition unhex_ret_step (r : term) (i : nat) : term := TFits U8 (TBin I32 Or (TFits U8 (TBin I32 Or r (err_term (TIn (i * 2))))) (err_term (TIn (i * 2 + 1)))).
Lemma unhex_fold : forall sg rho s, (forall k, is_byte (nth k s 0)) -> (forall k, (k < 64)%nat -> rho k = at_ s k) -> forall l acc ret, (forall i, In i l -> (i < 32)%nat) ->
  fold_left (unhex_step s) l (acc, den sg rho ret) = ((acc ++ map (den sg rho) (map unhex_cell l))%list, den sg rho (fold_left unhex_ret_step l ret)).
Proof.
  intros sg rho s B R.
intro l. induction l as [|i l IH]; intros acc ret H; [cbn [fold_left map]; rewrite app_nil_r; reflexivity|]. cbn [fold_left map].
      assert (Hi : (i < 32)%nat) by (apply H; left; reflexivity).
      destruct (unhex_char sg (at_ s (i * 2)) (B _)) as (V0 & X0 & P0). destruct (unhex_char sg (at_ s (i * 2 + 1)) (B _)) as (V1 & X1 & P1).
      assert (Y0 : den sg rho (val_term (TIn (i * 2))) = fst (hex_in (at_ s (i * 2)))) by (rewrite <- V0, val_at, R by lia; reflexivity).
      assert (Y1 : den sg rho (val_term (TIn (i * 2 + 1))) = fst (hex_in (at_ s (i * 2 + 1)))) by (rewrite <- V1, val_at, R by lia; reflexivity).
      assert (Z0 : den sg rho (err_term (TIn (i * 2))) = snd (hex_in (at_ s (i * 2)))) by (rewrite <- X0, err_at, R by lia; reflexivity).
      assert (Z1 : den sg rho (err_term (TIn (i * 2 + 1))) = snd (hex_in (at_ s (i * 2 + 1)))) by (rewrite <- X1, err_at, R by lia; reflexivity).
      unfold unhex_step at 2. set (r' := unhex_ret_step ret i). 
      assert (Dr : den sg rho r' = u8 (Z.lor (u8 (Z.lor (den sg rho ret) (snd (hex_in (at_ s (i * 2)))))) (snd (hex_in (at_ s (i * 2 + 1)))))).
      { unfold r', unhex_ret_step. rewrite <- Z0, <- Z1. apply unhex_ret_den. }
      set (t' := unhex_cell i). 
      assert (Dt : den sg rho t' = u8 (Z.lor (u8 (fst (hex_in (at_ s (i * 2))) * 16)) (fst (hex_in (at_ s (i * 2 + 1)))))).
      { unfold t', unhex_cell. rewrite <- Y0, <- Y1. apply unhex_cell_den. rewrite Y0. exact P0. }
      clearbody r' t'. destruct (hex_in (at_ s (i * 2))) as [v0 e0], (hex_in (at_ s (i * 2 + 1))) as [v1 e1]. cbn [fst snd] in Dr, Dt. rewrite <- Dr, <- Dt.
      rewrite (IH (acc ++ [den sg rho t'])%list r') by (intros j Hj; apply H; right; exact Hj). rewrite <- app_assoc. reflexivity. 
Qed.
Lemma unhex_value : forall sg rho s, length s = 64%nat -> (forall k, is_byte (nth k s 0)) -> (forall k, (k < 64)%nat -> rho k = at_ s k) ->
  match key_from_hex s with
  | Some k => den sg rho (TBin I32 And (TC 1) (TBin I32 Shr (TBin I32 Sub unhex_ret (TC 1)) (TC 8))) = 1 /\ Some (map (den sg rho) unhex_cells) = Some k
  | None => den sg rho (TBin I32 And (TC 1) (TBin I32 Shr (TBin I32 Sub unhex_ret (TC 1)) (TC 8))) = 0
  end.
Proof.
  intros sg rho s L B R. pose proof (unhex_fold sg rho s B R (List.seq 0 32) [] (TC 0) ltac:(intros i Hi; apply in_seq in Hi; lia)) as F. rewrite zero_den in F.
  rewrite last_den. assert (X : is_byte (den sg rho unhex_ret)) by apply unhex_ret_byte.
  assert (E : key_from_hex s = let '(key, ret) := fold_left (unhex_step s) (List.seq 0 32) ([], 0) in if Z.land 1 (Z.shiftr (ret - 1) 8) =? 0 then None else Some key).
  { unfold key_from_hex. rewrite L. reflexivity. }
  rewrite E, F. change (fold_left unhex_ret_step (List.seq 0 32) (TC 0)) with unhex_ret. change (map unhex_cell (List.seq 0 32)) with unhex_cells. cbn [app].
  revert X. generalize (den sg rho unhex_ret). intros x X. pose proof (is_zero_bit x X) as Zb. destruct (_ =? 0) eqn:E0 in *; cbn [negb] in Zb; [exact Zb|]. split; [exact Zb|reflexivity].
Qed.
Definition unhex_start (s key : list Z) : state := mk_state [] [("hex", s ++ [0])%list; ("key", key)].
Definition unhex_bounds : astate := mk_astate [] [("hex", chars 64 ++ [(0, 0)])%list; ("key", any 32)].
Theorem C51_from_hex : forall sg, exists T : nat -> trace, forall s key, text s -> Z.of_nat (length s) < 2 ^ 64 -> bytes 32 key ->
  exists st r, exec sg 100 key_from_hex_ (unhex_start s key) = Some (st, Some r, T (length s)) /\
               match key_from_hex s with Some k => r = 1 /\ get (st_arrays st) "key" = Some k | None => r = 0 end.
Proof.
  intro sg. pose (o := a_exec sg 100 key_from_hex_ unhex_bounds).
  assert (Ho : exists a i l, o = Some (a, Some i, l)) by (destruct sg; vm_compute; do 3 eexists; reflexivity). destruct Ho as (a & i & T & Ho).
  exists (fun n : nat => if Nat.eqb n 64 then T else [SawLength "hex" (Z.of_nat n); SawBranch true]). intros s key Hs Hn Hk.
  assert (N : u64 (Z.of_nat (length s)) = Z.of_nat (length s)) by (apply Z.mod_small; lia).
  destruct (Nat.eqb_spec (length s) 64) as [L|L].
  - assert (W : within (unhex_start s key) unhex_bounds).
    { split; [constructor|]. apply (arrays_within ["hex"; "key"] [(s ++ [0])%list; key] [(chars 64 ++ [(0, 0)])%list; any 32]). repeat constructor; [|apply bytes_any, Hk].
      apply Forall2_app; [rewrite <- L; apply text_chars, Hs|]. constructor; [split; cbn; lia|constructor]. }
    destruct (a_exec_sound sg 100 _ _ _ _ _ _ W Ho) as (st & v & Es & _ & Hv). destruct v as [v|]; [|contradiction]. exists st, v. split; [exact Es|].
    apply exec_value in Es. assert (Bk := Hk). destruct Hk as [Lk _]. pose (rho := inputs (s ++ [0])%list (key ++ [])).
    assert (L0 : length (s ++ [0])%list = 65%nat) by (rewrite app_length, L; reflexivity).
    assert (D : mk_state [("ret", 0); ("n", 64)] [("hex", s ++ [0])%list; ("key", key)] = den_state sg rho (mk_sstate [("ret", TC 0); ("n", TC 64)] [("hex", ins 0 65); ("key", ins 65 32)])).
    { unfold den_state, den_vars, den_arrays. cbn [s_vars s_arrays map fst snd den].
      pose proof (ins_den sg rho (s ++ [0]) 0 (inputs_first (s ++ [0])%list _)) as E1. pose proof (ins_den sg rho key 65 (fun k => inputs_rest (s ++ [0])%list [] key _ 65 k ltac:(rewrite L0; cbn [length]; lia))) as E2.
      rewrite L0 in E1. rewrite Lk in E2. rewrite E1, E2. reflexivity. }
    change key_from_hex_ with (checked "hex" 64 Skip from_hex_body) in Es. unfold unhex_start in Es. rewrite right_length in Es by (try exact Hs; try reflexivity; rewrite ?L; lia). rewrite D in Es.
    destruct (v_exec sg 100 from_hex_body _) as [s1 r1] eqn:Eb. destruct (gives_value _ _ _ _ _ _ _ _ _ _ unhex_gives Eb) as [G1 G2]. rewrite G2 in Es. cbn [den_out] in Es. apply some_pair in Es as [Es1 Es2]. subst st v. rewrite G1. clear - L L0 Hs.
    assert (B := fun k => nth_byte 64 s k (conj L (Forall_impl _ char_byte Hs))).
    assert (R : forall k, (k < 64)%nat -> rho k = at_ s k).
    { intros k H. unfold rho. change k with (0 + k)%nat at 1. rewrite (inputs_first (s ++ [0]) (key ++ []) k) by (rewrite L0; lia). unfold at_. apply app_nth1. lia. }
    apply (unhex_value sg rho s L B R).
  - destruct (wrong_length sg 100 "hex" 64 Skip from_hex_body s [("key", key)] Hs Hn ltac:(lia) ltac:(lia)) as (st & E). exists st, 0. split; [exact E|].
    unfold key_from_hex. apply Nat.eqb_neq in L. rewrite L. reflexivity.
Qed.

(** ** From base64 *)
Definition range_term (lo hi : Z) (c v : term) : term := TBin I32 And (TBin I32 Shr (TBin I32 And (TBin I32 Sub (TC (lo - 1)) c) (TBin I32 Sub c (TC (hi + 1)))) (TC 8)) v.
Definition digit_term (c : term) : term :=
  TBin I32 Add (TBin I32 Add (TBin I32 Add (TBin I32 Add (TBin I32 Add (TC (-1)) (range_term 65 90 c (TBin I32 Sub c (TC 64)))) (range_term 97 122 c (TBin I32 Sub c (TC 70)))) (range_term 48 57 c (TBin I32 Add c (TC 5)))) (range_term 43 43 c (TC 63))) (range_term 47 47 c (TC 64)).
Definition group_term (c0 c1 c2 c3 : term) : term :=
  let d c k := TBin I32 Shl (digit_term c) (TC k) in
  TFits I32 (TBin I32 Or (TFits I32 (TBin I32 Or (TFits I32 (TBin I32 Or (TFits I32 (TBin I32 Or (TC 0) (d c0 18))) (d c1 12))) (d c2 6))) (d c3 0)).
Definition group_of (i : nat) : term := let c k := TLoaded CHAR (TIn (i * 4 + k)) in group_term (c 0%nat) (c 1%nat) (c 2%nat) (c 3%nat).
Definition group_last : term := let c k := TLoaded CHAR (TStored CHAR (TLoaded CHAR (TIn k))) in group_term (c 40%nat) (c 41%nat) (c 42%nat) (TLoaded CHAR (TStored CHAR (TC 65))).
Definition byte_of (v : term) (k : Z) : term := TStored U8 (TBin I32 And (TBin I32 Shr v (TC k)) (TC 255)).
Definition low_of (v : term) : term := TStored U8 (TBin I32 And v (TC 255)).
Definition unb64_cells : list term := flat_map (fun i => [byte_of (group_of i) 16; byte_of (group_of i) 8; low_of (group_of i)]) (List.seq 0 10) ++ [byte_of group_last 16; byte_of group_last 8].
Definition sign_term (v : term) : term := TBin U32 Shr (TFits U32 v) (TC 31).
Definition unb64_ret_step (r : term) (i : nat) : term := TFits U8 (TBin U32 Or r (sign_term (group_of i))).
Definition unb64_ret : term := TFits U8 (TBin U32 Or (fold_left unb64_ret_step (List.seq 0 10) (TC 0)) (TBin U32 Or (sign_term group_last) (TBin I32 And group_last (TC 255)))).
Lemma unb64_gives : gives (s_exec 100 from_base64_body (mk_sstate [("ret", TC 0); ("n", TC 44)] [("base64", ins 0 45); ("key", ins 45 32); ("tail", ins 77 4)])) "key" unb64_cells
  (Some (TBin I32 And (TC 1) (TBin I32 Shr (TBin I32 Sub unb64_ret (TC 1)) (TC 8)))).
Proof. vm_compute. split; reflexivity. Qed.
Lemma digit_den : forall sg rho c, den sg rho (digit_term c) = b64_in (den sg rho c).
Proof. intros sg rho c. unfold digit_term, range_term, b64_in. cbn [den v_fits v_exact]. reflexivity. Qed.
Lemma group_den : forall sg rho c0 c1 c2 c3, den sg rho (group_term c0 c1 c2 c3) =
  Z.lor (Z.lor (Z.lor (Z.lor 0 (Z.shiftl (b64_in (den sg rho c0)) 18)) (Z.shiftl (b64_in (den sg rho c1)) 12)) (Z.shiftl (b64_in (den sg rho c2)) 6)) (Z.shiftl (b64_in (den sg rho c3)) 0).
Proof. intros sg rho c0 c1 c2 c3. rewrite <- !(digit_den sg rho). unfold group_term. cbn [den v_fits v_exact]. reflexivity. Qed.
Lemma load_den : forall sg rho k, den sg rho (TLoaded CHAR (TIn k)) = char_val sg (rho k).
Proof. reflexivity. Qed.
Lemma char_u8 : forall sg c, is_byte c -> u8 (char_val sg c) = c.
Proof.
  intros sg c H. unfold char_val. unfold is_byte in H. destruct (_ && _)%bool; [|apply u8_byte; exact H]. unfold u8. change (2 ^ 8) with 256. rewrite <- (Z_mod_plus_full (c - 256) 1 256). replace (c - 256 + 1 * 256) with c by ring. apply Z.mod_small. exact H.
Qed.
Lemma reload_den : forall sg rho k, is_byte (rho k) -> den sg rho (TLoaded CHAR (TStored CHAR (TLoaded CHAR (TIn k)))) = char_val sg (rho k).
Proof. intros sg rho k H. cbn [den loaded stored]. rewrite char_u8 by exact H. reflexivity. Qed.
Lemma reload65_den : forall sg rho, den sg rho (TLoaded CHAR (TStored CHAR (TC 65))) = char_val sg 65.
Proof. reflexivity. Qed.
Lemma land255 : forall x, is_byte (Z.land x 255).
Proof. intro x. unfold is_byte. change 255 with (Z.ones 8). rewrite Z.land_ones by lia. apply Z.mod_pos_bound. reflexivity. Qed.
Lemma byte_of_den : forall sg rho v k, den sg rho (byte_of v k) = Z.land (Z.shiftr (den sg rho v) k) 255.
Proof. intros sg rho v k. unfold byte_of. cbn [den v_fits v_exact stored]. apply u8_byte, land255. Qed.
Lemma low_of_den : forall sg rho v, den sg rho (low_of v) = Z.land (den sg rho v) 255.
Proof. intros sg rho v. unfold low_of. cbn [den v_fits v_exact stored]. apply u8_byte, land255. Qed.
Lemma sign_byte : forall x, is_byte (Z.shiftr (u32 x) 31).
Proof.
  intro x. unfold u32, is_byte. pose proof (Z.mod_pos_bound x (2 ^ 32) eq_refl) as H. rewrite Z.shiftr_div_pow2 by lia. split; [apply Z.div_pos; lia|]. apply Z.div_lt_upper_bound; lia.
Qed.
Lemma byte_u32 : forall x, is_byte x -> u32 x = x.
Proof. intros x H. unfold is_byte in H. apply u32_small. lia. Qed.
Lemma sign_den : forall sg rho v, den sg rho (sign_term v) = Z.shiftr (u32 (den sg rho v)) 31.
Proof.
  intros sg rho v. unfold sign_term. cbn [den v_fits v_exact stored]. change (u32 31) with 31. rewrite (u32_small (u32 _)) by (apply Z.mod_pos_bound; reflexivity). apply byte_u32, sign_byte.
Qed.
Lemma or_den : forall sg rho a b, is_byte (den sg rho a) -> is_byte (den sg rho b) -> den sg rho (TBin U32 Or a b) = Z.lor (den sg rho a) (den sg rho b).
Proof. intros sg rho a b Ha Hb. cbn [den v_fits v_exact stored]. rewrite (byte_u32 _ Ha), (byte_u32 _ Hb). apply byte_u32, lor_byte; assumption. Qed.
Lemma fits8_den : forall sg rho a, den sg rho (TFits U8 a) = u8 (den sg rho a).
Proof. reflexivity. Qed.
Lemma and255_den : forall sg rho a, den sg rho (TBin I32 And a (TC 255)) = Z.land (den sg rho a) 255.
Proof. reflexivity. Qed.
Lemma unb64_fold : forall sg rho l r, is_byte (den sg rho r) ->
  is_byte (den sg rho (fold_left unb64_ret_step l r)) /\
  den sg rho (fold_left unb64_ret_step l r) = fold_left (fun ret v => u8 (Z.lor ret (Z.shiftr (u32 v) 31))) (map (fun i => den sg rho (group_of i)) l) (den sg rho r).
Proof.
  intros sg rho l. induction l as [|i l IH]; intros r H; cbn [fold_left map]; [split; [exact H|reflexivity]|].
  assert (E : den sg rho (unb64_ret_step r i) = u8 (Z.lor (den sg rho r) (Z.shiftr (u32 (den sg rho (group_of i))) 31))).
  { unfold unb64_ret_step. rewrite fits8_den, or_den; [rewrite sign_den; reflexivity|exact H|rewrite sign_den; apply sign_byte]. }
  destruct (IH (unb64_ret_step r i)) as [I1 I2]; [rewrite E; apply u8_is_byte|]. split; [exact I1|]. rewrite I2, E. reflexivity.
Qed.
Lemma group_at : forall sg rho s i, (forall k, (k < 44)%nat -> rho k = at_ s k) -> (i < 10)%nat ->
  den sg rho (group_of i) = decode_base64 sg (at_ s (i * 4)) (at_ s (i * 4 + 1)) (at_ s (i * 4 + 2)) (at_ s (i * 4 + 3)).
Proof. intros sg rho s i R H. unfold group_of. cbv zeta. rewrite group_den, !load_den, !R by lia. rewrite Nat.add_0_r. reflexivity. Qed.
Lemma group_last_at : forall sg rho s, (forall k, (k < 44)%nat -> rho k = at_ s k) -> (forall k, is_byte (nth k s 0)) ->
  den sg rho group_last = decode_base64 sg (at_ s 40) (at_ s 41) (at_ s 42) 65.
Proof.
  intros sg rho s R B. unfold group_last. cbv zeta. rewrite group_den, !reload_den, reload65_den, !R; [reflexivity|lia|lia|lia| | |]; rewrite R by lia; apply B.
Qed.
Lemma unb64_value : forall sg rho s, length s = 44%nat -> at_ s 43 = 61 -> (forall k, is_byte (nth k s 0)) -> (forall k, (k < 44)%nat -> rho k = at_ s k) ->
  match key_from_base64 sg s with
  | Some k => den sg rho (TBin I32 And (TC 1) (TBin I32 Shr (TBin I32 Sub unb64_ret (TC 1)) (TC 8))) = 1 /\ Some (map (den sg rho) unb64_cells) = Some k
  | None => den sg rho (TBin I32 And (TC 1) (TBin I32 Shr (TBin I32 Sub unb64_ret (TC 1)) (TC 8))) = 0
  end.
Proof.
  intros sg rho s L E43 B R. rewrite last_den. assert (X : is_byte (den sg rho unb64_ret)) by apply den_u8_byte.
  pose (vals := map (fun i => decode_base64 sg (at_ s (i * 4)) (at_ s (i * 4 + 1)) (at_ s (i * 4 + 2)) (at_ s (i * 4 + 3))) (List.seq 0 10)).
  assert (Ev : map (fun i => den sg rho (group_of i)) (List.seq 0 10) = vals).
  { unfold vals. apply map_ext_in. intros i Hi. apply in_seq in Hi. apply group_at; [exact R|lia]. }
  destruct (unb64_fold sg rho (List.seq 0 10) (TC 0)) as [F1 F2]; [rewrite zero_den; unfold is_byte; lia|]. rewrite Ev, zero_den in F2. pose proof (group_last_at sg rho s R B) as Gl.
  assert (Er : den sg rho unb64_ret = u8 (Z.lor (fold_left (fun ret v => u8 (Z.lor ret (Z.shiftr (u32 v) 31))) vals 0)
     (Z.lor (Z.shiftr (u32 (decode_base64 sg (at_ s 40) (at_ s 41) (at_ s 42) 65)) 31) (Z.land (decode_base64 sg (at_ s 40) (at_ s 41) (at_ s 42) 65) 255)))).
  { unfold unb64_ret. rewrite <- Gl, <- F2, <- sign_den, <- and255_den, fits8_den.
    assert (B1 : is_byte (den sg rho (sign_term group_last))) by (rewrite sign_den; apply sign_byte). assert (B2 : is_byte (den sg rho (TBin I32 And group_last (TC 255)))) by (rewrite and255_den; apply land255).
    rewrite or_den; [rewrite or_den by assumption; reflexivity|exact F1|]. rewrite or_den by assumption. apply lor_byte; assumption. }
  assert (Ec : map (den sg rho) unb64_cells = (flat_map (fun v => [Z.land (Z.shiftr v 16) 255; Z.land (Z.shiftr v 8) 255; Z.land v 255]) vals ++
     [Z.land (Z.shiftr (decode_base64 sg (at_ s 40) (at_ s 41) (at_ s 42) 65) 16) 255; Z.land (Z.shiftr (decode_base64 sg (at_ s 40) (at_ s 41) (at_ s 42) 65) 8) 255])%list).
  { unfold unb64_cells. rewrite map_app. f_equal; [|cbn [map]; rewrite !byte_of_den, Gl; reflexivity]. rewrite <- Ev. clear. generalize (List.seq 0 10). intro l. induction l as [|i l IH]; [reflexivity|].
    cbn [flat_map app map]. rewrite !byte_of_den, low_of_den, IH. reflexivity. }
  assert (E : key_from_base64 sg s = if Z.land 1 (Z.shiftr (den sg rho unb64_ret - 1) 8) =? 0 then None else Some (map (den sg rho) unb64_cells)).
  { rewrite Er, Ec. unfold key_from_base64. rewrite L, E43. reflexivity. }
  rewrite E. clear - X. revert X. generalize (den sg rho unb64_ret) (map (den sg rho) unb64_cells). intros x y X. pose proof (is_zero_bit x X) as Zb. destruct (_ =? 0) eqn:E0 in *; cbn [negb] in Zb; [exact Zb|]. split; [exact Zb|reflexivity].
Qed.
Definition unb64_start (s key tl : list Z) : state := mk_state [] [("base64", (s ++ [0])%list); ("key", key); ("tail", tl)].
Definition unb64_bounds : astate := mk_astate [] [("base64", (chars 43 ++ [(61, 61); (0, 0)])%list); ("key", any 32); ("tail", any 4)].
Definition padded : stmt := If (Bin I32 Ne (At CHAR "base64" (Lit 43)) (Lit 61)) (Return (Lit 0)) Skip.
Lemma text_firstn : forall n s, text s -> text (firstn n s).
Proof. intros n s H. unfold text in *. rewrite Forall_forall in *. intros x Hx. apply H. rewrite <- (firstn_skipn n s). apply in_or_app. left. exact Hx. Qed.
Lemma nth43 : forall s : list Z, length s = 44%nat -> nth (Z.to_nat 43) (s ++ [0])%list 0 = at_ s 43.
Proof. intros s L. change (Z.to_nat 43) with 43%nat. unfold at_. apply app_nth1. lia. Qed.
Lemma is61 : forall sg c, is_byte c -> (char_val sg c =? 61) = (c =? 61).
Proof. intros sg c H. unfold char_val, is_byte in *. destruct (_ && (128 <=? c))%bool eqn:E; [|reflexivity]. apply andb_true_iff in E as [_ E]. apply Z.leb_le in E. transitivity false; [apply Z.eqb_neq; lia|symmetry; apply Z.eqb_neq; lia]. Qed.
Lemma not_padded : forall sg fuel body s rest, text s -> length s = 44%nat -> at_ s 43 <> 61 ->
  exists st, exec sg fuel (checked "base64" 44 padded body) (mk_state [] (("base64", (s ++ [0])%list) :: rest)) =
    Some (st, Some 0, [SawLength "base64" 44; SawBranch false; SawIndex "base64" 43; SawBranch true]).
Proof.
  intros sg fuel body s rest Hs L N. assert (B : is_byte (at_ s 43)) by (apply char_byte; unfold text in Hs; rewrite Forall_forall in Hs; apply Hs, nth_In; lia).
  assert (C : -128 <= char_val sg (at_ s 43) <= 255 /\ char_val sg (at_ s 43) <> 61).
  { split; [unfold char_val, is_byte in *; destruct (_ && (128 <=? at_ s 43))%bool eqn:E; [apply andb_true_iff in E as [_ E]; apply Z.leb_le in E|]; lia|]. apply Z.eqb_neq. rewrite (is61 sg _ B). apply Z.eqb_neq, N. }
  assert (K : compute sg I32 Ne (char_val sg (at_ s 43)) 61 = Some 1).
  { revert C. generalize (char_val sg (at_ s 43)). intros c [C1 C2]. unfold compute, operand, fits, lowest, highest, exact. rewrite (proj2 (Z.leb_le _ c)) by (cbn; lia). rewrite (proj2 (Z.leb_le c _)) by (cbn; lia).
    apply Z.eqb_neq in C2. cbn [andb]. cbn -[Z.eqb]. rewrite C2. reflexivity. }
  unfold checked, padded. cbn [block fold_right exec eval fits stored st_vars st_arrays put get app]. rewrite String.eqb_refl, (strlen_text s Hs), L. cbn [exec eval st_vars st_arrays get String.eqb Ascii.eqb Bool.eqb app].
  change (compute sg U64 Ne (Z.of_nat 44) 44) with (Some 0). cbn [Z.eqb negb exec eval st_arrays get]. rewrite String.eqb_refl.
  rewrite app_length, L. cbn [length Nat.add]. change ((0 <=? 43) && (43 <? Z.of_nat 45))%bool with true. cbv iota beta.
  rewrite (nth43 s L). cbn [loaded]. rewrite K. cbn [Z.eqb negb exec eval app]. eexists. reflexivity.
Qed.
Theorem C51_from_base64 : forall sg, exists T : nat -> bool -> trace, forall s key tl, text s -> Z.of_nat (length s) < 2 ^ 64 -> bytes 32 key -> bytes 4 tl ->
  exists st r, exec sg 100 key_from_base64_ (unb64_start s key tl) = Some (st, Some r, T (length s) (nth 43 s 0 =? 61)) /\
               match key_from_base64 sg s with Some k => r = 1 /\ get (st_arrays st) "key" = Some k | None => r = 0 end.
Proof.
  intro sg. pose (o := a_exec sg 100 key_from_base64_ unb64_bounds).
  assert (Ho : exists a i l, o = Some (a, Some i, l)) by (destruct sg; vm_compute; do 3 eexists; reflexivity). destruct Ho as (a & i & T & Ho).
  exists (fun (n : nat) (p : bool) => if Nat.eqb n 44 then if p then T else [SawLength "base64" 44; SawBranch false; SawIndex "base64" 43; SawBranch true] else [SawLength "base64" (Z.of_nat n); SawBranch true]).
  intros s key tl Hs Hn Hk Ht.
  destruct (Nat.eqb_spec (length s) 44) as [L|L]; [destruct (Z.eqb_spec (nth 43 s 0) 61) as [P|P]|].
  - assert (L0 : length (s ++ [0])%list = 45%nat) by (rewrite app_length, L; reflexivity).
    assert (B := fun k => nth_byte 44 s k (conj L (Forall_impl _ char_byte Hs))).
    assert (W : within (unb64_start s key tl) unb64_bounds).
    { split; [constructor|]. apply (arrays_within ["base64"; "key"; "tail"] [(s ++ [0])%list; key; tl] [(chars 43 ++ [(61, 61); (0, 0)])%list; any 32; any 4]).
      constructor; [|constructor; [apply bytes_any, Hk|constructor; [apply bytes_any, Ht|constructor]]].
      assert (E : s = (firstn 43 s ++ [61])%list).
      { rewrite <- (firstn_skipn 43 s) at 1. f_equal. assert (Lr : length (skipn 43 s) = 1%nat) by (rewrite skipn_length; lia). rewrite <- P. rewrite <- (firstn_skipn 43 s) at 2. rewrite app_nth2 by (rewrite firstn_length; lia).
        rewrite firstn_length, L. change (43 - Nat.min 43 44)%nat with 0%nat. destruct (skipn 43 s) as [|x [|y r]]; try discriminate. reflexivity. }
      rewrite E, <- app_assoc. apply Forall2_app; [|constructor; [split; cbn; lia|constructor; [split; cbn; lia|constructor]]].
      assert (Lf : length (firstn 43 s) = 43%nat) by (rewrite firstn_length; lia). pose proof (text_chars (firstn 43 s) (text_firstn 43 s Hs)) as F. rewrite Lf in F. exact F. }
    destruct (a_exec_sound sg 100 _ _ _ _ _ _ W Ho) as (st & v & Es & _ & Hv). destruct v as [v|]; [|contradiction]. exists st, v. split; [exact Es|].
    apply exec_value in Es. destruct Hk as [Lk _], Ht as [Lt _]. pose (rho := inputs (s ++ [0])%list (key ++ tl ++ [])).
    assert (D : mk_state [("ret", 0); ("n", 44)] [("base64", (s ++ [0])%list); ("key", key); ("tail", tl)] = den_state sg rho (mk_sstate [("ret", TC 0); ("n", TC 44)] [("base64", ins 0 45); ("key", ins 45 32); ("tail", ins 77 4)])).
    { unfold den_state, den_vars, den_arrays. cbn [s_vars s_arrays map fst snd den].
      pose proof (ins_den sg rho (s ++ [0]) 0 (inputs_first (s ++ [0])%list _)) as E1. pose proof (ins_den sg rho key 45 (fun k => inputs_rest (s ++ [0])%list [] key _ 45 k ltac:(rewrite L0; cbn [length]; lia))) as E2.
      pose proof (ins_den sg rho tl 77 (fun k => inputs_rest (s ++ [0])%list key tl _ 77 k ltac:(rewrite L0; lia))) as E3.
      rewrite L0 in E1. rewrite Lk in E2. rewrite Lt in E3. rewrite E1, E2, E3. reflexivity. }
    change key_from_base64_ with (checked "base64" 44 padded from_base64_body) in Es. unfold unb64_start in Es.
    rewrite right_length in Es; [|exact Hs|lia|rewrite L; reflexivity|].
    2: { unfold padded. cbn [v_exec value]. unfold lookup_. cbn [st_arrays get]. rewrite String.eqb_refl. rewrite (nth43 s L). cbn [v_fits v_exact loaded]. unfold at_. rewrite (is61 sg _ (B 43%nat)), P. reflexivity. }
    rewrite D in Es.
    destruct (v_exec sg 100 from_base64_body _) as [s1 r1] eqn:Eb. destruct (gives_value _ _ _ _ _ _ _ _ _ _ unb64_gives Eb) as [G1 G2]. rewrite G2 in Es. cbn [den_out] in Es. apply some_pair in Es as [Es1 Es2]. subst st v. rewrite G1. clear - L L0 B P.
    assert (R : forall k, (k < 44)%nat -> rho k = at_ s k).
    { intros k H. unfold rho. change k with (0 + k)%nat at 1. rewrite (inputs_first (s ++ [0]) (key ++ tl ++ []) k) by (rewrite L0; lia). unfold at_. apply app_nth1. lia. }
    apply (unb64_value sg rho s L P B R).
  - destruct (not_padded sg 100 from_base64_body s [("key", key); ("tail", tl)] Hs L P) as (st & E). exists st, 0. split; [exact E|].
    unfold key_from_base64. apply Z.eqb_neq in P. unfold at_. rewrite P, orb_true_r. reflexivity.
  - destruct (wrong_length sg 100 "base64" 44 padded from_base64_body s [("key", key); ("tail", tl)] Hs Hn ltac:(lia) ltac:(lia)) as (st & E). exists st, 0. split; [exact E|].
    unfold key_from_base64. apply Nat.eqb_neq in L. rewrite L. reflexivity.
Qed.

(** ** Cases *)
(** The hypotheses can be met, and the notion tells programs apart: looking the digit up in a table, as a plain base64 encoder does, shows the key. *)
Remark C51_case : bytes 32 (repeat 7 32) /\ bytes 45 (repeat 0 45) /\ bytes 4 (repeat 0 4) /\ bytes 3 (repeat 0 3) /\ text (key_to_hex (repeat 7 32)) /\ text (repeat 65 43 ++ [61]).
Proof.
  assert (R : forall n x, is_byte x -> bytes n (repeat x n)) by (intros n x H; split; [apply repeat_length|apply Forall_forall; intros y Hy; apply repeat_spec in Hy; subst y; exact H]).
  unfold is_byte in R. repeat split; try (apply R; lia); repeat constructor.
Qed.
Definition table_encoder : stmt := Put CHAR "base64" (Lit 0) (At CHAR "table" (shr (At U8 "key" (Lit 0)) (Lit 2))).
Remark C51_table_leaks : forall sg, ~ exists T, forall key, bytes 32 key ->
  exists s, exec sg 100 table_encoder (mk_state [] [("key", key); ("base64", repeat 0 45); ("table", repeat 65 64)]) = Some (s, None, T).
Proof.
  intros sg (T & H). destruct (H (repeat 0 32)) as (s1 & E1); [split; [reflexivity|repeat constructor; unfold is_byte; cbn; lia]|]. destruct (H (repeat 4 32)) as (s2 & E2); [split; [reflexivity|repeat constructor; unfold is_byte; cbn; lia]|].
  destruct sg; vm_compute in E1, E2; congruence.
Qed.
