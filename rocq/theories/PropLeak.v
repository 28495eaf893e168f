(** C51: the conversions of keys compute what Encoding.v says, are free of undefined behaviour, and show an observer nothing of the key. *)
From Coq Require Import String ZArith List Bool Lia.
From Verif Require Import Base Encoding EncodingProofs HexProofs Leak LeakEncoding LeakProofs LeakValue LeakSym.
Import ListNotations.
Open Scope string_scope.
Open Scope Z_scope.

(** [n] bytes. *)
Definition bytes (n : nat) (l : list Z) : Prop := length l = n /\ Forall is_byte l.
(** A text of [n] characters. *)
Definition text (l : list Z) : Prop := Forall is_char l.

Definition any (n : nat) : list itv := repeat (0, 255) n.
Lemma bytes_any : forall n l, bytes n l -> Forall2 inside l (any n).
Proof.
  intros n l [<- F]. induction F as [|x l H F IH]; [constructor|]. cbn [length any repeat]. constructor; [|exact IH]. unfold is_byte in H. split; cbn [fst snd]; lia.
Qed.
Definition chars (n : nat) : list itv := repeat (1, 255) n.
Lemma text_chars : forall l, text l -> Forall2 inside l (chars (length l)).
Proof.
  intros l F. induction F as [|x l H F IH]; [constructor|]. cbn [length chars repeat]. constructor; [|exact IH]. unfold is_char in H. split; cbn [fst snd]; lia.
Qed.
Lemma arrays_within : forall names ls als, Forall2 (Forall2 inside) ls als -> agree (Forall2 inside) (combine names ls) (combine names als).
Proof.
  intros names ls als F. revert names. induction F as [|x y ls als H F IH]; intros [|n names]; try constructor; [split; [reflexivity|exact H]|]. apply IH.
Qed.

(** The cells of consecutive inputs. *)
Definition ins (o n : nat) : list term := map TIn (List.seq o n).
Lemma ins_den : forall sg rho l o, (forall k, (k < length l)%nat -> rho (o + k)%nat = nth k l 0) -> map (den sg rho) (ins o (length l)) = l.
Proof.
  intros sg rho l. unfold ins. induction l as [|x l IH]; intros o H; [reflexivity|]. cbn [length List.seq map den]. f_equal.
  - specialize (H 0%nat ltac:(cbn; lia)). rewrite Nat.add_0_r in H. exact H.
  - apply IH. intros k Hk. specialize (H (S k) ltac:(cbn [length]; lia)). rewrite Nat.add_succ_r in H. exact H.
Qed.
(** Inputs: [l] from 0 on, everything else from [length l] on. *)
Definition inputs (l rest : list Z) (n : nat) : Z := if (n <? length l)%nat then nth n l 0 else nth (n - length l) rest 0.
Lemma inputs_first : forall l rest k, (k < length l)%nat -> inputs l rest (0 + k) = nth k l 0.
Proof. intros l rest k H. unfold inputs. cbn [Nat.add]. apply Nat.ltb_lt in H. rewrite H. reflexivity. Qed.
Lemma inputs_rest : forall l a b c o k, o = (length l + length a)%nat -> (k < length b)%nat -> inputs l (a ++ b ++ c) (o + k) = nth k b 0.
Proof.
  intros l a b c o k -> H. unfold inputs. destruct (_ <? _)%nat eqn:E; [apply Nat.ltb_lt in E; lia|]. replace (length l + length a + k - length l)%nat with (length a + k)%nat by lia.
  rewrite app_nth2_plus. apply app_nth1. exact H.
Qed.

Lemma u8_byte : forall x, is_byte x -> u8 x = x.
Proof. intros x H. unfold u8, is_byte in *. apply Z.mod_small. change (2 ^ 8) with 256. lia. Qed.
Lemma lor_byte : forall x y, is_byte x -> is_byte y -> is_byte (Z.lor x y).
Proof.
  intros x y Hx Hy. unfold is_byte in *. destruct (bitwise_hull (0, 255) (0, 255) x y) as (_ & H & _); [split; cbn; lia|split; cbn; lia|].
  change (2 ^ hull (0, 255) (0, 255)) with 256 in H. split; [apply Z.lor_nonneg; lia|lia].
Qed.
Lemma nth_byte : forall n l k, bytes n l -> is_byte (nth k l 0).
Proof.
  intros n l k [L F]. destruct (Nat.lt_ge_cases k (length l)) as [H|H]; [rewrite Forall_forall in F; apply F, nth_In, H|rewrite nth_overflow by exact H; unfold is_byte; lia].
Qed.
Lemma u8_is_byte : forall x, is_byte (u8 x).
Proof. intro x. unfold u8, is_byte. pose proof (Z.mod_pos_bound x (2 ^ 8) eq_refl). change (2 ^ 8) with 256 in *. lia. Qed.
(** The last expression of three of the functions is 1 where the accumulated byte is 0, and otherwise 0. *)
Lemma is_zero_bit : forall x, is_byte x -> Z.land 1 (Z.shiftr (x - 1) 8) = (if negb (Z.land 1 (Z.shiftr (x - 1) 8) =? 0) then 1 else 0).
Proof.
  intros x H. destruct (Z.eq_dec x 0) as [->|N]; [reflexivity|]. rewrite Z.shiftr_div_pow2 by lia. change (2 ^ 8) with 256. unfold is_byte in H. rewrite (Z.div_small (x - 1) 256) by lia. reflexivity.
Qed.
Ltac cellwise := repeat match goal with |- cons _ _ = cons _ _ => apply (f_equal2 cons); [try reflexivity|] end; try reflexivity.

(** ** To base64 *)
Definition to_base64_start (key out inp tl : list Z) : state := mk_state [] [("key", key); ("base64", out); ("input", inp); ("tail", tl)].
Lemma land63 : forall x, u8 (Z.land x 63) = Z.land x 63.
Proof.
  intro x. unfold u8. change 63 with (Z.ones 6). rewrite Z.land_ones by lia. apply Z.mod_small. pose proof (Z.mod_pos_bound x (2 ^ 6) eq_refl). change (2 ^ 6) with 64 in *. change (2 ^ 8) with 256. lia.
Qed.
(** The cells of [a] and the result in a run on formulas. *)
Definition gives (o : s_outcome) (a : string) (l : list term) (r : option term) : Prop :=
  match o with Some (s, q) => get (s_arrays s) a = Some l /\ q = r | None => False end.
Lemma gives_value : forall sg fuel rho c s a l r s1 v, gives (s_exec fuel c s) a l r -> v_exec sg fuel c (den_state sg rho s) = (s1, v) ->
  get (st_arrays s1) a = Some (map (den sg rho) l) /\ v = den_out sg rho r.
Proof.
  intros sg fuel rho c s a l r s1 v G E. unfold gives in G. destruct (s_exec fuel c s) as [[s2 q]|] eqn:Es; [|contradiction]. destruct G as [G ->].
  rewrite (s_exec_value sg fuel rho c s s2 r Es) in E. injection E as <- <-. split; [|reflexivity]. unfold den_state, den_arrays. cbn [st_arrays]. rewrite den_get, G. reflexivity.
Qed.
Definition cells (o : s_outcome) (a : string) : list term := match o with Some (s, _) => match get (s_arrays s) a with Some l => l | None => [] end | None => [] end.
Definition returned (o : s_outcome) : option term := match o with Some (_, r) => r | None => None end.
Definition b64_sym : sstate := mk_sstate [] [("key", ins 0 32); ("base64", ins 32 45); ("input", ins 77 4); ("tail", ins 81 3)].
Definition b64_cells := Eval vm_compute in cells (s_exec 100 key_to_base64_ b64_sym) "base64".
Lemma b64_gives : gives (s_exec 100 key_to_base64_ b64_sym) "base64" b64_cells None.
Proof. vm_compute. split; reflexivity. Qed.
Theorem C51_to_base64 : forall sg, exists T, forall key out inp tl, bytes 32 key -> bytes 45 out -> bytes 4 inp -> bytes 3 tl ->
  exists s, exec sg 100 key_to_base64_ (to_base64_start key out inp tl) = Some (s, None, T) /\
            get (st_arrays s) "base64" = Some (key_to_base64 key ++ [0])%list.
Proof.
  intro sg. pose (o := a_exec sg 100 key_to_base64_ (mk_astate [] [("key", any 32); ("base64", any 45); ("input", any 4); ("tail", any 3)])).
  assert (Ho : exists a l, o = Some (a, None, l)) by (destruct sg; vm_compute; eexists; eexists; reflexivity). destruct Ho as (a & T & Ho). exists T. intros key out inp tl Hk Hb Hi Ht.
  assert (W : within (to_base64_start key out inp tl) (mk_astate [] [("key", any 32); ("base64", any 45); ("input", any 4); ("tail", any 3)])).
  { split; [constructor|]. apply (arrays_within ["key"; "base64"; "input"; "tail"] [key; out; inp; tl] [any 32; any 45; any 4; any 3]). repeat constructor; apply bytes_any; assumption. }
  destruct (a_exec_sound sg 100 _ _ _ _ _ _ W Ho) as (s & v & Es & _ & Hv). destruct v; [contradiction|]. exists s. split; [exact Es|].
  apply exec_value in Es. assert (Bk := Hk). destruct Hk as [Lk _], Hb as [Lb _], Hi as [Li _], Ht as [Lt _]. pose (rho := inputs key (out ++ inp ++ tl ++ [])).
  assert (D : to_base64_start key out inp tl = den_state sg rho (mk_sstate [] [("key", ins 0 32); ("base64", ins 32 45); ("input", ins 77 4); ("tail", ins 81 3)])).
  { unfold b64_sym, den_state, den_vars, den_arrays, to_base64_start. cbn [s_vars s_arrays map fst snd].
    pose proof (ins_den sg rho key 0 (inputs_first key _)) as E1. pose proof (ins_den sg rho out 32 (fun k => inputs_rest key [] out _ 32 k ltac:(cbn [length]; lia))) as E2.
    pose proof (ins_den sg rho inp 77 (fun k => inputs_rest key out inp _ 77 k ltac:(lia))) as E3.
    assert (E4 : map (den sg rho) (ins 81 (length tl)) = tl).
    { apply ins_den. intros k H. unfold rho. rewrite app_assoc. apply (inputs_rest key ((out ++ inp)%list) tl [] 81 k); [rewrite app_length; lia|exact H]. }
    rewrite Lk in E1. rewrite Lb in E2. rewrite Li in E3. rewrite Lt in E4. rewrite E1, E2, E3, E4. reflexivity. }
  rewrite D in Es. destruct (gives_value _ _ _ _ _ _ _ _ _ _ b64_gives Es) as [G _]. rewrite G. f_equal. assert (B := fun k => nth_byte 32 key k Bk). clear - Lk B.
  unfold b64_cells, key_to_base64, encode_base64. cbn [map den v_fits v_exact stored loaded flat_map List.seq Nat.mul Nat.add app firstn].
  rewrite !land63. unfold b64_out, rho, inputs. rewrite Lk. cbn [Nat.ltb Nat.leb]. unfold at_. rewrite !(u8_byte _ (B 30%nat)), !(u8_byte _ (B 31%nat)). reflexivity.
Qed.

(** ** Is it zero? *)
Definition zero_cells := Eval vm_compute in returned (s_exec 100 key_is_zero_ (mk_sstate [] [("key", ins 0 32)])).
Lemma zero_gives : gives (s_exec 100 key_is_zero_ (mk_sstate [] [("key", ins 0 32)])) "key" (ins 0 32) zero_cells.
Proof. vm_compute. split; reflexivity. Qed.
Theorem C51_is_zero : forall sg, exists T, forall key, bytes 32 key ->
  exists s, exec sg 100 key_is_zero_ (mk_state [] [("key", key)]) = Some (s, Some (if key_is_zero key then 1 else 0), T).
Proof.
  intro sg. pose (o := a_exec sg 100 key_is_zero_ (mk_astate [] [("key", any 32)])).
  assert (Ho : exists a i l, o = Some (a, Some i, l)) by (destruct sg; vm_compute; do 3 eexists; reflexivity). destruct Ho as (a & i & T & Ho). exists T. intros key Hk.
  assert (W : within (mk_state [] [("key", key)]) (mk_astate [] [("key", any 32)])).
  { split; [constructor|]. apply (arrays_within ["key"] [key] [any 32]). repeat constructor; apply bytes_any; assumption. }
  destruct (a_exec_sound sg 100 _ _ _ _ _ _ W Ho) as (s & v & Es & _ & Hv). destruct v as [v|]; [|contradiction]. exists s. rewrite Es. f_equal. f_equal. f_equal.
  apply exec_value in Es. destruct Hk as [Lk Fk]. pose (rho := inputs key []).
  assert (D : mk_state [] [("key", key)] = den_state sg rho (mk_sstate [] [("key", ins 0 32)])).
  { unfold den_state, den_vars, den_arrays. cbn [s_vars s_arrays map fst snd]. pose proof (ins_den sg rho key 0 (inputs_first key _)) as E1. rewrite Lk in E1. rewrite E1. reflexivity. }
  rewrite D in Es. destruct (gives_value _ _ _ _ _ _ _ _ _ _ zero_gives Es) as [_ G]. rewrite G. clear - Lk Fk.
  assert (B := fun k => nth_byte 32 key k (conj Lk Fk)).
  unfold zero_cells, key_is_zero. cbn [den_out den v_fits v_exact stored loaded List.seq fold_left]. unfold rho, inputs. rewrite Lk. cbn [Nat.ltb Nat.leb].
  unfold at_. rewrite !u8_byte by (repeat apply lor_byte; first [apply B | apply u8_is_byte | unfold is_byte; lia]).
  match goal with |- Some (Z.land 1 (Z.shiftr (?x - 1) 8)) = _ => assert (X : is_byte x) by (repeat apply lor_byte; first [apply B | unfold is_byte; lia]); revert X; generalize x end.
  intros x X. f_equal. apply is_zero_bit, X.
Qed.

(** ** To hex *)
Definition hex_digit_term (x : term) : term :=
  TStored CHAR (TBin U32 Add (TBin U32 Add (TC 87) x) (TBin U32 And (TBin U32 Shr (TBin U32 Sub x (TC 10)) (TC 8)) (TC 4294967257))).
Definition hex_cells : list term :=
  flat_map (fun i => [hex_digit_term (TBin I32 Shr (TLoaded U8 (TIn i)) (TC 4)); hex_digit_term (TBin I32 And (TLoaded U8 (TIn i)) (TC 15))]) (List.seq 0 32) ++ [TStored CHAR (TC 0)].
Lemma hex_gives : gives (s_exec 100 key_to_hex_ (mk_sstate [] [("key", ins 0 32); ("hex", ins 32 65)])) "hex" hex_cells None.
Proof. vm_compute. split; reflexivity. Qed.
Definition hex_digit_value (d : Z) : Z := den true (fun _ => d) (hex_digit_term (TIn 0)).
Lemma hex_digit_sweep : forallb (fun d => hex_digit_value d =? hex_out d) (zrange 0 16) = true.
Proof. vm_compute. reflexivity. Qed.
Lemma hex_digit_den : forall sg rho x, 0 <= den sg rho x < 16 -> den sg rho (hex_digit_term x) = hex_out (den sg rho x).
Proof.
  intros sg rho x H. change (hex_digit_value (den sg rho x) = hex_out (den sg rho x)). revert H. generalize (den sg rho x). intros d H. apply Z.eqb_eq. apply (zrange_forallb _ _ _ hex_digit_sweep d). simpl. lia.
Qed.
Lemma high_half : forall b, is_byte b -> 0 <= Z.shiftr b 4 < 16.
Proof. intros b H. unfold is_byte in H. rewrite Z.shiftr_div_pow2 by lia. change (2 ^ 4) with 16. split; [apply Z.div_pos; lia|apply Z.div_lt_upper_bound; lia]. Qed.
Lemma low_half : forall b, 0 <= Z.land b 15 < 16.
Proof. intro b. change 15 with (Z.ones 4). rewrite Z.land_ones by lia. apply Z.mod_pos_bound. reflexivity. Qed.
Theorem C51_to_hex : forall sg, exists T, forall key out, bytes 32 key -> bytes 65 out ->
  exists s, exec sg 100 key_to_hex_ (mk_state [] [("key", key); ("hex", out)]) = Some (s, None, T) /\
            get (st_arrays s) "hex" = Some (key_to_hex key ++ [0])%list.
Proof.
  intro sg. pose (o := a_exec sg 100 key_to_hex_ (mk_astate [] [("key", any 32); ("hex", any 65)])).
  assert (Ho : exists a l, o = Some (a, None, l)) by (destruct sg; vm_compute; eexists; eexists; reflexivity). destruct Ho as (a & T & Ho). exists T. intros key out Hk Hb.
  assert (W : within (mk_state [] [("key", key); ("hex", out)]) (mk_astate [] [("key", any 32); ("hex", any 65)])).
  { split; [constructor|]. apply (arrays_within ["key"; "hex"] [key; out] [any 32; any 65]). repeat constructor; apply bytes_any; assumption. }
  destruct (a_exec_sound sg 100 _ _ _ _ _ _ W Ho) as (s & v & Es & _ & Hv). destruct v; [contradiction|]. exists s. split; [exact Es|].
  apply exec_value in Es. assert (Bk := Hk). destruct Hk as [Lk _], Hb as [Lb _]. pose (rho := inputs key (out ++ [])).
  assert (D : mk_state [] [("key", key); ("hex", out)] = den_state sg rho (mk_sstate [] [("key", ins 0 32); ("hex", ins 32 65)])).
  { unfold den_state, den_vars, den_arrays. cbn [s_vars s_arrays map fst snd].
    pose proof (ins_den sg rho key 0 (inputs_first key _)) as E1. pose proof (ins_den sg rho out 32 (fun k => inputs_rest key [] out _ 32 k ltac:(cbn [length]; lia))) as E2.
    rewrite Lk in E1. rewrite Lb in E2. rewrite E1, E2. reflexivity. }
  rewrite D in Es. destruct (gives_value _ _ _ _ _ _ _ _ _ _ hex_gives Es) as [G _]. rewrite G. f_equal. assert (B := fun k => nth_byte 32 key k Bk). clear - Lk B.
  unfold hex_cells, key_to_hex. rewrite map_app. apply (f_equal2 (@app Z)); [|reflexivity].
  assert (I : forall i, In i (List.seq 0 32) -> rho i = at_ key i).
  { intros i H. apply in_seq in H. apply inputs_first. rewrite Lk. lia. }
  revert I. generalize (List.seq 0 32). intros l I. induction l as [|i l IH]; [reflexivity|]. cbn [flat_map app map].
  rewrite (hex_digit_den sg rho (TBin I32 Shr (TLoaded U8 (TIn i)) (TC 4))), (hex_digit_den sg rho (TBin I32 And (TLoaded U8 (TIn i)) (TC 15)));
    cbn [den v_fits v_exact loaded]; rewrite (I i (or_introl eq_refl)); [|apply low_half|apply high_half, B]. rewrite IH; [reflexivity|]. intros j H. apply I. right. exact H.
Qed.
