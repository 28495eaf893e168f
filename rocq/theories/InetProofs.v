(** inet_pton inverts inet_ntop. *)
From Coq Require Import ZArith List Bool Lia.
From Verif Require Import Base Cstr CstrProofs Inet.
Import ListNotations.
Open Scope Z_scope.

(** * IPv4 *)

Lemma leb_digit : forall c, 48 <= c <= 57 -> (48 <=? c) && (c <=? 57) = true.
Proof. intros c H. rewrite andb_true_iff, !Z.leb_le. lia. Qed.

(** Reading digits of an octet from a state that already holds [cur > 0]. *)
Lemma pton4_digits : forall ds rest tmp cur octets v,
  Forall (fun c => 48 <= c <= 57) ds -> 0 < cur -> num_value 10 cur ds = Some v -> v <= 255 ->
  pton4_go (ds ++ rest) tmp cur true octets = pton4_go rest tmp v true octets.
Proof.
  induction ds as [|c ds IH]; intros rest tmp cur octets v F Hc Hv Hle; simpl in Hv |- *.
  - injection Hv as ->. reflexivity.
  - inversion_clear F as [|? ? Hd F']. rewrite leb_digit by exact Hd.
    rewrite digit_in_10, leb_digit in Hv by exact Hd.
    pose proof (num_value_ge 10 ds (cur * 10 + (c - 48)) v ltac:(lia) ltac:(lia) Hv) as G.
    destruct (Z.eqb_spec cur 0); [lia|]. cbn [andb].
    destruct (Z.ltb_spec 255 (cur * 10 + (c - 48))); [lia|].
    apply IH; [assumption|nia|assumption|assumption].
Qed.

Lemma pton4_octet : forall n rest tmp octets, 0 <= n <= 255 -> (octets <= 3)%nat ->
  pton4_go (print_dec n ++ rest) tmp 0 false octets = pton4_go rest tmp n true (S octets).
Proof.
  intros n rest tmp octets Hn Ho.
  pose proof (print_dec_digits n ltac:(lia)) as F. pose proof (print_dec_value n ltac:(lia)) as V.
  destruct (Z.eq_dec n 0) as [->|N0].
  - change (print_dec 0) with [48]. simpl. destruct octets as [|[|[|[|o]]]]; try reflexivity. lia.
  - pose proof (print_num_head 10 n ltac:(lia) ltac:(lia)) as Hh. change (print_num 10 n) with (print_dec n) in Hh.
    destruct (print_dec n) as [|c ds]; [simpl in Hh; congruence|]. cbn [hd] in Hh.
    inversion_clear F as [|? ? Hd F']. cbn [app pton4_go]. rewrite leb_digit by exact Hd.
    cbn [num_value] in V. rewrite digit_in_10, leb_digit in V by exact Hd.
    pose proof (num_value_ge 10 ds (0 * 10 + (c - 48)) n ltac:(lia) ltac:(lia) V) as G.
    cbn [andb]. destruct (Z.ltb_spec 255 (0 * 10 + (c - 48))); [lia|].
    destruct (Nat.ltb_spec 3 octets); [lia|].
    apply pton4_digits; [assumption|lia|assumption|lia].
Qed.

Definition bytes_n (n : nat) (l : list Z) : Prop := length l = n /\ Forall is_byte l.

Lemma inet4_roundtrip : forall a, bytes_n 4 a -> inet_pton4 (inet_ntop4 a) = Some a.
Proof.
  intros a [Hl Hb]. destruct a as [|a0 [|a1 [|a2 [|a3 [|? ?]]]]]; try discriminate.
  repeat match goal with H : Forall _ (_ :: _) |- _ => inversion_clear H end. unfold is_byte in *.
  unfold inet_pton4, inet_ntop4.
  rewrite pton4_octet by lia. cbn [pton4_go Z.leb Z.compare Pos.compare Pos.compare_cont andb Z.eqb Pos.eqb Nat.eqb app].
  rewrite pton4_octet by lia. cbn [pton4_go Z.leb Z.compare Pos.compare Pos.compare_cont andb Z.eqb Pos.eqb Nat.eqb app].
  rewrite pton4_octet by lia. cbn [pton4_go Z.leb Z.compare Pos.compare Pos.compare_cont andb Z.eqb Pos.eqb Nat.eqb app].
  rewrite <- (app_nil_r (print_dec a3)). rewrite pton4_octet by lia. reflexivity.
Qed.

(** * IPv6 *)

Lemma pton6_digits : forall ds rest cur xd val tp colonp v,
  num_value 16 val ds = Some v -> 0 <= val -> v <= 65535 -> (xd + length ds <= 4)%nat ->
  pton6_go (ds ++ rest) cur xd val tp colonp = pton6_go rest cur (xd + length ds) v tp colonp.
Proof.
  induction ds as [|c ds IH]; intros rest cur xd val tp colonp v Hv H0 Hle Hl.
  - simpl in *. injection Hv as ->. rewrite Nat.add_0_r. reflexivity.
  - cbn [num_value] in Hv. cbn [app pton6_go]. destruct (digit_in 16 c) as [d|] eqn:E; [|discriminate].
    pose proof (digit_in_range 16 c d E ltac:(lia)) as R.
    pose proof (num_value_ge 16 ds (val * 16 + d) v ltac:(lia) ltac:(lia) Hv) as G.
    cbn [length] in *. destruct (Nat.eqb_spec xd 4); [lia|].
    destruct (Z.ltb_spec 65535 (val * 16 + d)); [lia|].
    rewrite (IH rest cur (S xd) _ tp colonp v Hv) by lia. f_equal. lia.
Qed.

Lemma pton6_word : forall w rest cur tp colonp, 0 <= w <= 65535 ->
  exists n, (1 <= n <= 4)%nat /\
  pton6_go (print_hex w ++ rest) cur 0 0 tp colonp = pton6_go rest cur n w tp colonp.
Proof.
  intros w rest cur tp colonp Hw. exists (length (print_hex w)).
  pose proof (print_num_length 4 16 w ltac:(lia) ltac:(simpl; lia) ltac:(lia)) as L.
  pose proof (print_num_nonempty 16 w) as NE.
  change (print_num 16 w) with (print_hex w) in *.
  split; [destruct (print_hex w); [congruence|simpl in *; lia]|].
  rewrite (pton6_digits _ _ _ _ _ _ _ w) by (try apply print_hex_value; simpl; lia). reflexivity.
Qed.

(** A word followed by ':' and something. *)
Lemma pton6_word_colon : forall w c rest cur tp colonp, 0 <= w <= 65535 -> (length tp <= 14)%nat ->
  pton6_go (print_hex w ++ 58 :: c :: rest) cur 0 0 tp colonp =
  pton6_go (c :: rest) (c :: rest) 0 0 (tp ++ [w / 256; w mod 256]) colonp.
Proof.
  intros w c rest cur tp colonp Hw Hl. destruct (pton6_word w (58 :: c :: rest) cur tp colonp Hw) as (n & Hn & ->).
  cbn [pton6_go]. change (digit_in 16 58) with (@None Z). cbn [Z.eqb Pos.eqb].
  destruct n; [lia|]. destruct (Nat.ltb_spec 16 (length tp + 2)); [lia|]. reflexivity.
Qed.

Lemma pton6_word_end : forall w cur tp colonp, 0 <= w <= 65535 -> (length tp <= 14)%nat ->
  pton6_go (print_hex w) cur 0 0 tp colonp = pton6_finish 0 0 (tp ++ [w / 256; w mod 256]) colonp.
Proof.
  intros w cur tp colonp Hw Hl. rewrite <- (app_nil_r (print_hex w)).
  destruct (pton6_word w [] cur tp colonp Hw) as (n & Hn & ->).
  cbn [pton6_go]. unfold pton6_finish. destruct n; [lia|].
  destruct (Nat.ltb_spec 16 (length tp + 2)); [lia|]. reflexivity.
Qed.

Lemma pton6_colon : forall rest cur tp,
  pton6_go (58 :: rest) cur 0 0 tp None = pton6_go rest rest 0 0 tp (Some (length tp)).
Proof. reflexivity. Qed.

Lemma digit10_16 : forall c d, digit_in 10 c = Some d -> digit_in 16 c = Some d.
Proof.
  intros c d. rewrite digit_in_10. unfold digit_in.
  destruct (Z.leb_spec 48 c), (Z.leb_spec c 57); cbn [andb]; try discriminate.
  intro H1. injection H1 as <-. destruct (Z.ltb_spec (c - 48) 16); [reflexivity|lia].
Qed.

Lemma dec_as_hex : forall n, 0 <= n <= 255 -> exists v, num_value 16 0 (print_dec n) = Some v /\ v <= 65535 /\
  (length (print_dec n) <= 3)%nat.
Proof.
  intros n Hn.
  assert (S : forallb (fun n => match num_value 16 0 (print_dec n) with
     | Some v => (v <=? 65535) && Nat.leb (length (print_dec n)) 3 | None => false end) (zrange 0 256) = true)
    by (vm_compute; reflexivity).
  pose proof (byte_sweep _ S n ltac:(unfold is_byte; lia)) as H. cbv beta in H.
  destruct (num_value 16 0 (print_dec n)) as [v|]; [|discriminate].
  rewrite andb_true_iff, Z.leb_le, Nat.leb_le in H. exists v. tauto.
Qed.

Lemma pton6_v4 : forall a tp colonp, bytes_n 4 a -> (length tp <= 12)%nat ->
  pton6_go (inet_ntop4 a) (inet_ntop4 a) 0 0 tp colonp = pton6_finish 0 0 (tp ++ a) colonp.
Proof.
  intros a tp colonp Ha Hl. pose proof (inet4_roundtrip a Ha) as RT. destruct Ha as [Hn Hb].
  destruct a as [|a0 [|a1 [|a2 [|a3 [|? ?]]]]]; try discriminate.
  inversion_clear Hb as [|? ? Hb0 Hb']. unfold is_byte in Hb0.
  set (txt := inet_ntop4 [a0; a1; a2; a3]) in *. unfold txt at 1. cbn [inet_ntop4].
  destruct (dec_as_hex a0 ltac:(lia)) as (v & V1 & V2 & V3).
  rewrite (pton6_digits _ _ _ _ _ _ _ v) by (assumption || lia).
  cbn [pton6_go]. change (digit_in 16 46) with (@None Z). cbn [Z.eqb Pos.eqb andb].
  destruct (Nat.leb_spec (length tp + 4) 16); [|lia]. rewrite RT. reflexivity.
Qed.

(** Shape of the zero run. *)
Definition run_ok (ws : list Z) (r : option (nat * nat)) : bool :=
  match r with
  | None => true
  | Some (b, l) => Nat.leb 2 l && Nat.leb (b + l) 8 && forallb (Z.eqb 0) (firstn l (skipn b ws))
  end.

Lemma best_run_flags : forall (f : Z -> Z) ws i cur best,
  Forall (fun w => (f w =? 0) = (w =? 0)) ws -> best_run i (map f ws) cur best = best_run i ws cur best.
Proof.
  intros f ws. induction ws as [|w ws IH]; intros i cur best F; [reflexivity|].
  inversion_clear F as [|? ? Hw F']. cbn [map best_run]. rewrite Hw.
  destruct (w =? 0); apply IH; exact F'.
Qed.

Definition flag (w : Z) : Z := if w =? 0 then 0 else 1.

Lemma all_flags : forallb (fun n =>
   let ws := map (fun i => if Z.testbit n (Z.of_nat i) then 1 else 0) (seq 0 8) in run_ok ws (zero_run ws)) (zrange 0 256) = true.
Proof. vm_compute. reflexivity. Qed.

Lemma zero_run_ok : forall w0 w1 w2 w3 w4 w5 w6 w7,
  let ws := [w0; w1; w2; w3; w4; w5; w6; w7] in run_ok ws (zero_run ws) = true.
Proof.
  intros. unfold zero_run.
  rewrite <- (best_run_flags flag ws 0 None None).
  2:{ apply Forall_forall. intros w _. unfold flag. destruct (w =? 0) eqn:E; [reflexivity|]. reflexivity. }
  fold (zero_run (map flag ws)).
  assert (G : forall r, run_ok (map flag ws) r = true -> run_ok ws r = true).
  { intros [[b l]|]; [|reflexivity]. cbn [run_ok]. rewrite !andb_true_iff. intros [H1 H2]. split; [exact H1|].
    rewrite skipn_map, firstn_map in H2. rewrite forallb_forall in H2 |- *. intros x Hx.
    specialize (H2 (flag x) (in_map flag _ _ Hx)). unfold flag in H2.
    destruct (Z.eqb_spec x 0); [subst; reflexivity|discriminate]. }
  apply G. unfold ws. cbn [map].
  assert (Fl : forall w, flag w = 0 \/ flag w = 1) by (intro w; unfold flag; destruct (w =? 0); auto).
  destruct (Fl w0) as [-> | ->], (Fl w1) as [-> | ->], (Fl w2) as [-> | ->], (Fl w3) as [-> | ->],
    (Fl w4) as [-> | ->], (Fl w5) as [-> | ->], (Fl w6) as [-> | ->], (Fl w7) as [-> | ->]; reflexivity.
Qed.

Definition is_word (w : Z) : Prop := 0 <= w <= 65535.
Definition word_bytes (w : Z) : list Z := [w / 256; w mod 256].

Lemma word_bytes_pair : forall x y, is_byte x -> is_byte y -> word_bytes (x * 256 + y) = [x; y].
Proof.
  intros x y Hx Hy. unfold word_bytes, is_byte in *.
  rewrite Z.div_add_l, Z.div_small, Z.add_0_r by lia.
  rewrite Z.add_comm, Z.mod_add, Z.mod_small by lia. reflexivity.
Qed.

(** The text never starts with a single ':'. *)
Lemma print_hex_head : forall w, 0 <= w -> exists c t, print_hex w = c :: t /\ c <> 58.
Proof.
  intros w Hw. pose proof (print_hex_digits w Hw) as F. pose proof (print_num_nonempty 16 w) as NE.
  change (print_num 16 w) with (print_hex w) in NE.
  destruct (print_hex w) as [|c t]; [congruence|]. inversion_clear F. exists c, t. split; [reflexivity|lia].
Qed.

Lemma inet_pton6_start : forall c t, c <> 58 -> inet_pton6 (c :: t) = pton6_go (c :: t) (c :: t) 0 0 [] None.
Proof.
  intros c t H. unfold inet_pton6. destruct c as [|p|p]; try reflexivity.
  repeat (destruct p as [p|p|]; try reflexivity). congruence.
Qed.

Lemma inet_pton6_word : forall w s, 0 <= w ->
  inet_pton6 (print_hex w ++ s) = pton6_go (print_hex w ++ s) (print_hex w ++ s) 0 0 [] None.
Proof.
  intros w s Hw. destruct (print_hex_head w Hw) as (c & t & -> & Hc). apply inet_pton6_start, Hc.
Qed.

Lemma inet_pton6_colons : forall s, inet_pton6 (58 :: 58 :: s) = pton6_go s s 0 0 [] (Some 0%nat).
Proof. reflexivity. Qed.

Lemma pton6_word_colon' : forall w rest cur tp colonp, 0 <= w <= 65535 -> (length tp <= 14)%nat -> rest <> [] ->
  pton6_go (print_hex w ++ 58 :: rest) cur 0 0 tp colonp =
  pton6_go rest rest 0 0 (tp ++ word_bytes w) colonp.
Proof.
  intros w rest cur tp colonp Hw Hl NE. destruct rest as [|c rest]; [congruence|].
  apply pton6_word_colon; assumption.
Qed.

Lemma pton6_word_end' : forall w cur tp colonp, 0 <= w <= 65535 -> (length tp <= 14)%nat ->
  pton6_go (print_hex w) cur 0 0 tp colonp = pton6_finish 0 0 (tp ++ word_bytes w) colonp.
Proof. exact pton6_word_end. Qed.

Lemma print_hex_app_ne : forall w s, print_hex w ++ s <> [].
Proof.
  intros w s H. apply app_eq_nil in H as [H _]. revert H. apply print_num_nonempty.
Qed.
Lemma print_hex_ne : forall w, print_hex w <> [].
Proof. intro w. apply print_num_nonempty. Qed.
Lemma ntop4_ne : forall a, bytes_n 4 a -> inet_ntop4 a <> [].
Proof.
  intros a [Hn _] H. destruct a as [|a0 [|a1 [|a2 [|a3 [|? ?]]]]]; try discriminate Hn.
  cbn [inet_ntop4] in H. apply app_eq_nil in H as [_ H]. discriminate.
Qed.

Lemma inet_pton6_word' : forall w s, 0 <= w <= 65535 ->
  inet_pton6 (print_hex w ++ s) = pton6_go (print_hex w ++ s) (print_hex w ++ s) 0 0 [] None.
Proof. intros. apply inet_pton6_word. lia. Qed.

Definition run_tail (r : option (nat * nat)) : list Z :=
  match r with Some (b, l) => if Nat.eqb (b + l) 8 then [58] else [] | None => [] end.

Ltac zero_words H :=
  cbn [run_ok skipn firstn forallb Nat.leb Nat.add andb] in H;
  repeat match type of H with
  | (_ && _) = true => let H1 := fresh "Hz" in apply andb_true_iff in H; destruct H as [H1 H]; apply Z.eqb_eq in H1; subst
  | true = true => clear H
  end.

Ltac split_nat l n :=
  match n with
  | O => idtac
  | S ?m => destruct l as [|l]; [|split_nat l m]
  end.

Ltac side := first [assumption | apply print_hex_app_ne | apply print_hex_ne | discriminate
                   | apply ntop4_ne; assumption | (cbn [length app word_bytes]; lia) ].

Lemma ntop6_words : forall w0 w1 w2 w3 w4 w5 w6 w7 v4 r,
  0 <= w0 <= 65535 -> 0 <= w1 <= 65535 -> 0 <= w2 <= 65535 -> 0 <= w3 <= 65535 ->
  0 <= w4 <= 65535 -> 0 <= w5 <= 65535 -> 0 <= w6 <= 65535 -> 0 <= w7 <= 65535 ->
  bytes_n 4 v4 -> v4 = word_bytes w6 ++ word_bytes w7 ->
  let ws := [w0; w1; w2; w3; w4; w5; w6; w7] in
  run_ok ws r = true ->
  inet_pton6 (ntop6_go 0 ws r w5 (inet_ntop4 v4) ++ run_tail r) = Some (flat_map word_bytes ws).
Proof.
  intros w0 w1 w2 w3 w4 w5 w6 w7 v4 r H0 H1 H2 H3 H4 H5 H6 H7 Hv Ev ws Hr. subst ws.
  assert (Z0 : word_bytes 0 = [0; 0]) by reflexivity.
  destruct r as [[b l]|].
  - assert (B : (2 <= l)%nat /\ (b + l <= 8)%nat).
    { cbn [run_ok] in Hr. rewrite !andb_true_iff, !Nat.leb_le in Hr. tauto. }
    split_nat b 7%nat; split_nat l 9%nat; try lia. all: clear B.
    all: zero_words Hr.
    all: cbn [ntop6_go Nat.leb Nat.ltb Nat.eqb Nat.add andb app run_tail Z.eqb].
    all: try match goal with |- context [?w =? 65535] => destruct (Z.eqb_spec w 65535) end.
    all: repeat (rewrite <- !app_assoc; cbn [app]); rewrite ?app_nil_r.
    all: rewrite ?inet_pton6_colons; try (rewrite inet_pton6_word' by assumption).
    all: repeat (first [ rewrite pton6_word_colon' by side
                       | rewrite pton6_word_end' by side
                       | rewrite pton6_colon
                       | rewrite pton6_v4 by side ]; cbn [app]).
    all: try rewrite Ev.
    all: cbn [flat_map word_bytes app pton6_go pton6_finish length Nat.eqb Nat.ltb Nat.leb Nat.add Nat.sub firstn skipn repeat].
    all: try reflexivity.
  - cbn [ntop6_go Nat.eqb andb app run_tail].
    repeat (rewrite <- !app_assoc; cbn [app]); rewrite ?app_nil_r.
    rewrite inet_pton6_word' by assumption.
    repeat (first [ rewrite pton6_word_colon' by side | rewrite pton6_word_end' by side ]; cbn [app]).
    reflexivity.
Qed.

Lemma inet6_roundtrip : forall a, bytes_n 16 a -> inet_pton6 (inet_ntop6 a) = Some a.
Proof.
  intros a [Hl Hb].
  do 16 (destruct a as [|? a]; [discriminate|]). destruct a; [|discriminate]. clear Hl.
  repeat match goal with H : Forall _ (_ :: _) |- _ => inversion_clear H end.
  unfold inet_ntop6. cbn [words nth skipn].
  match goal with |- context [ntop6_go 0 ?ws ?r _ (inet_ntop4 ?v)] =>
    match ws with [?w0; ?w1; ?w2; ?w3; ?w4; ?w5; ?w6; ?w7] =>
    pose proof (ntop6_words w0 w1 w2 w3 w4 w5 w6 w7 v r) as T end end.
  cbv zeta in T. unfold run_tail in T. rewrite T; clear T.
  - cbn [flat_map app]. rewrite !word_bytes_pair by assumption. reflexivity.
  - unfold is_byte in *; lia.
  - unfold is_byte in *; lia.
  - unfold is_byte in *; lia.
  - unfold is_byte in *; lia.
  - unfold is_byte in *; lia.
  - unfold is_byte in *; lia.
  - unfold is_byte in *; lia.
  - unfold is_byte in *; lia.
  - split; [reflexivity|]. repeat (constructor; [assumption|]); constructor.
  - rewrite !word_bytes_pair by assumption. reflexivity.
  - apply zero_run_ok.
Qed.

Lemma pton4_go_bytes : forall s tmp cur saw octets r, Forall is_byte tmp -> is_byte cur ->
  pton4_go s tmp cur saw octets = Some r -> Forall is_byte r.
Proof.
  induction s as [|c s IH]; intros tmp cur saw octets r Ht Hc H; cbn [pton4_go] in H.
  - destruct (Nat.ltb octets 4); [discriminate|]. injection H as <-. apply Forall_app. auto.
  - destruct ((48 <=? c) && (c <=? 57)) eqn:E.
    + rewrite andb_true_iff, !Z.leb_le in E. unfold is_byte in Hc.
      destruct (saw && (cur =? 0)); [discriminate|].
      destruct (Z.ltb_spec 255 (cur * 10 + (c - 48))); [discriminate|].
      assert (is_byte (cur * 10 + (c - 48))) by (unfold is_byte; lia).
      destruct saw; [eapply IH; eassumption|]. destruct (Nat.ltb 3 octets); [discriminate|]. eapply IH; eassumption.
    + destruct ((c =? 46) && saw); [|discriminate]. destruct (Nat.eqb octets 4); [discriminate|].
      eapply (IH _ _ _ _ _ _ _ H). Unshelve. all: [> apply Forall_app; auto | unfold is_byte; lia].
Qed.
