(** C34, C35: generated keys; public keys. *)
From Coq Require Import String ZArith List Bool Lia.
From Verif Require Import Base Ctype Encoding EncodingSpec EncodingProofs PropEncoding NlSpec NlProofs NlGetProofs ShowconfProofs Keys.
Import ListNotations.
Open Scope Z_scope.

(** ** Specification *)

(** Where 32 random bytes may come from: each source in turn, the next only when the one before did not give all. *)
Definition no_entropy (r : random) : Prop := forall b, r_entropy r <> Some (Some b).
Definition random_key (r : random) (key : list Z) : Prop :=
  length key = 32%nat /\
  (r_entropy r = Some (Some key)
   \/ (no_entropy r /\ exists more, r_getrandom r = Some (Some (key ++ more)))
   \/ (no_entropy r /\ (forall b, r_getrandom r = Some (Some b) -> (length b < 32)%nat) /\ r_open r = true
       /\ exists bs rest more, r_reads r = map Read bs ++ rest /\ Forall (fun b => b <> []) bs /\ concat bs = key ++ more)).
(** What the calls promise: bytes, and getentropy all of them. *)
Definition sources_ok (r : random) : Prop :=
  (forall b, r_entropy r = Some (Some b) -> is_key b)
  /\ (forall b, r_getrandom r = Some (Some b) -> Forall is_byte b)
  /\ (forall b, In (Read b) (r_reads r) -> Forall is_byte b).

(** RFC 7748, section 5: bits 0, 1, 2 and 255 cleared, bit 254 set, the other 251 bits as they were. *)
Definition clamped (n : Z) : Z := 2 ^ 254 + (n mod 2 ^ 254 - n mod 8).

(** ** Clamping *)
Lemma removelast_last32 : forall (A : Type) (d : A) (l : list A), l <> [] -> l = removelast l ++ [last l d].
Proof. intros. apply app_removelast_last. assumption. Qed.

Lemma le_val_app : forall a b, le_val (a ++ b) = le_val a + 256 ^ len a * le_val b.
Proof.
  induction a as [|x a IH]; intro b.
  - change (len []) with 0. cbn [app le_val]. lia.
  - cbn [app le_val]. rewrite IH. replace (len (x :: a)) with (len a + 1) by (unfold len; cbn [length]; lia).
    rewrite Z.pow_add_r by (pose proof (len_nonneg a); lia). change (256 ^ 1) with 256. ring.
Qed.

Lemma land248 : forall b, is_byte b -> Z.land b 248 = b - b mod 8.
Proof. intros b H. apply Z.eqb_eq. revert b H. apply byte_sweep. vm_compute. reflexivity. Qed.
Lemma clamp_top : forall b, is_byte b -> Z.lor (Z.land b 127) 64 = 64 + b mod 64.
Proof. intros b H. apply Z.eqb_eq. revert b H. apply byte_sweep. vm_compute. reflexivity. Qed.

Lemma clamp_secret_spec : forall k, is_key k -> is_key (clamp_secret k) /\ le_val (clamp_secret k) = clamped (le_val k).
Proof.
  intros k [L B]. destruct k as [|b0 rest]; [discriminate|]. cbn [length] in L. injection L as L. inversion B as [|x y Hb0 Hrest]; subst.
  destruct (exists_last (l := rest)) as (mid & b31 & ->); [intro H; subst; discriminate|].
  apply Forall_app in Hrest as [Hmid H31]. inversion H31 as [|x y Hb31 _]; subst. rewrite app_length in L. cbn [length] in L.
  cbn [clamp_secret]. rewrite removelast_last, last_last, land248, clamp_top by assumption. unfold is_byte in *.
  pose proof (Z.mod_pos_bound b0 8 ltac:(lia)). pose proof (Z.mod_pos_bound b31 64 ltac:(lia)). split.
  - split; [cbn [length]; rewrite app_length; cbn [length]; lia|].
    apply Forall_cons; [unfold is_byte; lia|]. apply Forall_app. split; [exact Hmid|]. apply Forall_cons; [unfold is_byte; lia|constructor].
  - cbn [le_val]. rewrite !le_val_app. cbn [le_val]. replace (len mid) with 30 by (unfold len; lia).
    pose proof (le_val_bound mid Hmid) as Hm. replace (len mid) with 30 in Hm by (unfold len; lia).
    unfold clamped. set (m := le_val mid) in *. clearbody m.
    change (2 ^ 254) with (64 * (256 * 256 ^ 30)). change (256 ^ 30) with (2 ^ 240) in *.
    set (P := 2 ^ 240) in *. assert (HP : P = 8 * (P / 8)) by (vm_compute; reflexivity). assert (0 < P) by (vm_compute; reflexivity). clearbody P.
    replace ((b0 + 256 * (m + P * (b31 + 256 * 0))) mod 8) with (b0 mod 8).
    2: { replace (b0 + 256 * (m + P * (b31 + 256 * 0))) with (b0 + (32 * (m + P * b31)) * 8) by ring. rewrite Z.mod_add by lia. reflexivity. }
    replace ((b0 + 256 * (m + P * (b31 + 256 * 0))) mod (64 * (256 * P))) with (b0 + 256 * (m + P * (b31 mod 64))).
    2: { apply Z.mod_unique_pos with (q := b31 / 64); [|pose proof (Z.div_mod b31 64 ltac:(lia)); nia].
         split; [nia|]. assert (P * (b31 mod 64) <= P * 63) by (apply Z.mul_le_mono_nonneg_l; lia). nia. }
    ring.
Qed.

(** ** Random bytes *)
Lemma put_at_prefix : forall out i b, (i + length b <= length out)%nat -> length (put_at out i b) = length out /\ firstn (i + length b) (put_at out i b) = firstn i out ++ b.
Proof.
  intros out i b H. unfold put_at. split.
  - rewrite !app_length, firstn_length, skipn_length. lia.
  - rewrite app_assoc. rewrite firstn_app. rewrite app_length, firstn_length.
    replace (i + length b - (Nat.min i (length out) + length b))%nat with 0%nat by lia. cbn [firstn]. rewrite app_nil_r.
    apply firstn_all2. rewrite app_length, firstn_length. lia.
Qed.

(** What the loop reads: chunks up to a full buffer. *)
Lemma urandom_spec : forall reads out i, (i <= length out)%nat ->
  exists i' out', urandom reads out i = (i', out') /\ length out' = length out /\ (i <= i' <= length out)%nat
    /\ (i' = length out <-> exists bs rest, reads = map Read bs ++ rest /\ Forall (fun b => b <> []) bs /\ (length out <= i + length (concat bs))%nat)
    /\ (i' = length out -> forall bs rest, reads = map Read bs ++ rest -> (length out <= i + length (concat bs))%nat -> out' = firstn i out ++ firstn (length out - i) (concat bs)).
Proof.
  induction reads as [|r reads IH]; intros out i Hi.
  - exists i, out. cbn [urandom]. destruct (Nat.ltb_spec i (length out)) as [Hlt|Hge].
    + split; [reflexivity|]. split; [reflexivity|]. split; [lia|]. split.
      * split; [lia|]. intros ([|b bs] & rest & E & _ & Hl); [cbn [concat length] in Hl; lia|discriminate].
      * lia.
    + assert (i = length out) by lia. subst i. split; [reflexivity|]. split; [reflexivity|]. split; [lia|]. split.
      * split; [|lia]. intros _. exists [], []. split; [reflexivity|]. split; [constructor|]. lia.
      * intros _ bs rest _ _. rewrite Nat.sub_diag, firstn_all. cbn [firstn]. rewrite app_nil_r. reflexivity.
  - cbn [urandom]. destruct (Nat.ltb_spec i (length out)) as [Hlt|Hge].
    2: { exists i, out. assert (i = length out) by lia. subst i. split; [reflexivity|]. split; [reflexivity|]. split; [lia|]. split.
      * split; [|lia]. intros _. exists [], (r :: reads). split; [reflexivity|]. split; [constructor|]. lia.
      * intros _ bs rest _ _. rewrite Nat.sub_diag, firstn_all. cbn [firstn]. rewrite app_nil_r. reflexivity. }
    destruct r as [e|b].
    { exists i, out. split; [reflexivity|]. split; [reflexivity|]. split; [lia|]. split; [|lia]. split; [lia|].
      intros ([|b bs] & rest & E & _ & Hl); [cbn [concat length] in Hl; lia|discriminate]. }
    cbv zeta. set (c := firstn (length out - i) b). destruct c as [|c0 cs] eqn:Ec; unfold c in Ec.
    { assert (b = []) by (destruct b; [reflexivity|]; replace (length out - i)%nat with (S (length out - i - 1)) in Ec by lia; discriminate). subst b.
      exists i, out. split; [reflexivity|]. split; [reflexivity|]. split; [lia|]. split; [|lia]. split; [lia|].
      intros ([|b bs] & rest & E & Hne & Hl); [cbn [concat length] in Hl; lia|]. cbn [map app] in E. injection E as <- _. inversion Hne; congruence. }
    rewrite <- Ec in *. set (c' := firstn (length out - i) b) in *.
    assert (Lc : (length c' = Nat.min (length out - i) (length b))%nat) by (unfold c'; apply firstn_length).
    assert (Lc0 : (0 < length c')%nat) by (rewrite Ec; cbn [length]; lia).
    destruct (put_at_prefix out i c' ltac:(lia)) as [P1 P2].
    destruct (IH (put_at out i c') (i + length c')%nat ltac:(lia)) as (i' & out' & E & L & R & F & V). rewrite P1 in *.
    exists i', out'. split; [exact E|]. split; [exact L|]. split; [lia|]. split.
    + rewrite F. split.
      * intros (bs & rest & Er & Hne & Hl). exists (b :: bs), rest. split; [cbn [map app]; rewrite Er; reflexivity|]. split.
        -- apply Forall_cons; [intros ->; cbn [length] in Lc; lia|exact Hne].
        -- cbn [concat]. rewrite app_length. lia.
      * intros ([|b1 bs] & rest & Er & Hne & Hl); [cbn [concat length] in Hl; lia|]. cbn [map app] in Er. injection Er as <- Er.
        cbn [concat] in Hl. rewrite app_length in Hl.
        destruct (Nat.leb_spec (length out) (i + length b)) as [Hf|Hf].
        -- exists [], reads. split; [reflexivity|]. split; [constructor|]. cbn [concat length]. lia.
        -- exists bs, rest. split; [exact Er|]. split; [inversion Hne; assumption|]. lia.
    + intros Hi' bs rest Er Hl. destruct bs as [|b1 bs]; [cbn [concat length] in Hl; lia|]. cbn [map app] in Er. injection Er as <- Er.
      cbn [concat] in *. rewrite app_length in Hl. destruct (Nat.leb_spec (length out) (i + length b)) as [Hf|Hf].
      * (* the chunk fills the buffer *)
        assert (Lc2 : length c' = (length out - i)%nat) by lia.
        specialize (V Hi' [] reads eq_refl ltac:(cbn [concat length]; lia)). rewrite V. cbn [concat]. rewrite firstn_nil, app_nil_r. rewrite P2.
        f_equal. rewrite firstn_app. replace (length out - i - length b)%nat with 0%nat by lia. cbn [firstn]. rewrite app_nil_r. reflexivity.
      * assert (Ec' : c' = b) by (unfold c'; apply firstn_all2; lia). rewrite Ec' in *.
        rewrite (V Hi' bs rest Er ltac:(lia)). rewrite P2, <- app_assoc. f_equal.
        rewrite firstn_app. rewrite (firstn_all2 b) by lia. f_equal. f_equal. lia.
Qed.

Lemma from_urandom : forall r out1, length out1 = 32%nat -> no_entropy r -> (forall b, r_getrandom r = Some (Some b) -> (length b < 32)%nat) ->
  let res := if r_open r then (let (i, out2) := urandom (r_reads r) out1 0 in (Nat.eqb i 32, out2)) else (false, out1) in
  (exists key, res = (true, key) /\ random_key r key) \/ (exists x, res = (false, x) /\ forall key, ~ random_key r key).
Proof.
  intros r out1 L1 Hno Hshort. destruct (r_open r) eqn:Eo.
  2: { right. exists out1. split; [reflexivity|]. intros key (Lk & [E|[(_ & more & E)|(_ & _ & E & _)]]);
       [exact (Hno _ E) | apply Hshort in E; rewrite app_length in E; lia | congruence]. }
  destruct (urandom_spec (r_reads r) out1 0 ltac:(lia)) as (i & out2 & E & L2 & R & F & V). rewrite E. rewrite L1 in *. cbv zeta.
  destruct (Nat.eqb_spec i 32) as [Hi|Hi].
  - left. exists out2. split; [reflexivity|]. split; [exact L2|]. right. right. split; [exact Hno|]. split; [exact Hshort|]. split; [exact Eo|].
    destruct (proj1 F Hi) as (bs & rest & Er & Hne & Hl). exists bs, rest, (skipn 32 (concat bs)). split; [exact Er|]. split; [exact Hne|].
    rewrite (V Hi bs rest Er Hl). cbn [app firstn]. rewrite Nat.sub_0_r. symmetry. apply firstn_skipn.
  - right. exists out2. split; [reflexivity|]. intros key (Lk & [E1|[(_ & more & E1)|(_ & _ & _ & bs & rest & more & Er & Hne & Ec)]]);
      [exact (Hno _ E1) | apply Hshort in E1; rewrite app_length in E1; lia |].
    apply Hi, (proj2 F). exists bs, rest. split; [exact Er|]. split; [exact Hne|]. rewrite Ec, app_length. lia.
Qed.

Lemma get_random_spec : forall r junk, length junk = 32%nat -> sources_ok r ->
  (exists key, get_random_bytes r junk = (true, key) /\ random_key r key)
  \/ (exists x, get_random_bytes r junk = (false, x) /\ forall key, ~ random_key r key).
Proof.
  intros r junk Lj (S1 & _ & _). unfold get_random_bytes. rewrite Lj. change (Nat.ltb 256 32) with false. cbv iota.
  destruct (r_entropy r) as [[b|]|] eqn:Ee.
  { left. exists b. split; [reflexivity|]. split; [apply (S1 b); reflexivity|]. left. exact Ee. }
  all: assert (Hno : no_entropy r) by (intros b0 E0; congruence); clear S1 Ee.
  all: destruct (r_getrandom r) as [[b|]|] eqn:Eg.
  2,3,5,6: apply from_urandom; [exact Lj|exact Hno|intros b0 E0; congruence].
  all: cbv zeta; rewrite firstn_length; destruct (Nat.eqb_spec (Nat.min 32 (length b)) 32) as [Hfull|Hshort].
  2,4: apply from_urandom; [destruct (put_at_prefix junk 0 (firstn 32 b)) as [P1 _]; [rewrite firstn_length; lia|congruence]|exact Hno|intros b0 E0; rewrite Eg in E0; injection E0 as <-; lia].
  all: left; exists (put_at junk 0 (firstn 32 b)); split; [reflexivity|].
  all: assert (Lf : length (firstn 32 b) = 32%nat) by (rewrite firstn_length; lia).
  all: assert (Ep : put_at junk 0 (firstn 32 b) = firstn 32 b) by (unfold put_at; rewrite Lf; change (firstn 0 junk) with (@nil Z); cbn [app Nat.add]; rewrite skipn_all2 by lia; apply app_nil_r).
  all: rewrite Ep; split; [exact Lf|]; right; left; split; [exact Hno|]; exists (skipn 32 b); rewrite firstn_skipn; exact Eg.
Qed.

Lemma random_key_bytes : forall r key, sources_ok r -> random_key r key -> is_key key.
Proof.
  intros r key (S1 & S2 & S3) (L & [E|[(_ & more & E)|(_ & _ & _ & bs & rest & more & Er & _ & Ec)]]).
  - apply S1, E.
  - split; [exact L|]. apply S2 in E. apply Forall_app in E. apply E.
  - split; [exact L|]. assert (H : Forall is_byte (key ++ more)); [|apply Forall_app in H; apply H]. rewrite <- Ec. apply Forall_forall. intros x Hx.
    apply in_concat in Hx as (b & Hb & Hx). assert (Hi : In (Read b) (r_reads r)) by (rewrite Er; apply in_or_app; left; apply in_map; exact Hb).
    apply S3 in Hi. rewrite Forall_forall in Hi. apply Hi, Hx.
Qed.

Lemma clamp_low : forall P n, 0 < P -> n mod (8 * P) - n mod 8 = 8 * (n mod (8 * P) / 8).
Proof.
  intros P n HP. pose proof (Z.div_mod (n mod (8 * P)) 8 ltac:(lia)) as Hd.
  assert (Hm : n mod (8 * P) mod 8 = n mod 8).
  { rewrite Z.rem_mul_r by lia. rewrite Z.mul_comm, Z.mod_add by lia. apply Z.mod_mod. lia. }
  lia.
Qed.
Lemma clamped_eq : forall a b, clamped a = clamped b -> a mod 2 ^ 254 / 8 = b mod 2 ^ 254 / 8.
Proof.
  intros a b H. unfold clamped in H.
  assert (E : 2 ^ 254 = 8 * 2 ^ 251) by (vm_compute; reflexivity).
  assert (HP : 0 < 2 ^ 251) by (vm_compute; reflexivity).
  rewrite E in *. generalize dependent (2 ^ 251). intros P H _ HP.
  pose proof (clamp_low P a HP). pose proof (clamp_low P b HP). lia.
Qed.

(** C34.  Whatever the sources answer: either 32 bytes were obtained from one source and the command prints their base64 (genkey: clamped) and
    succeeds, or it prints nothing and fails.  The contents of the uninitialised buffer never matter. *)
Theorem C34_genkey : forall r junk, length junk = 32%nat -> sources_ok r ->
  (exists key k, random_key r key /\ is_key k /\ le_val k = clamped (le_val key) /\ genkey_main r junk [str "genkey"] = (0, rfc4648 k ++ [10]))
  \/ ((forall key, ~ random_key r key) /\ genkey_main r junk [str "genkey"] = (1, [])).
Proof.
  intros r junk Lj Hs. destruct (get_random_spec r junk Lj Hs) as [(key & E & Hk)|(x & E & Hk)].
  - left. pose proof (random_key_bytes r key Hs Hk) as Hb. destruct (clamp_secret_spec key Hb) as [C1 C2].
    exists key, (clamp_secret key). split; [exact Hk|]. split; [exact C1|]. split; [exact C2|].
    unfold genkey_main. rewrite E. cbn [negb]. change (beq (str "genkey") (str "genkey")) with true. cbv iota zeta.
    rewrite key_to_base64_rfc by exact C1. reflexivity.
  - right. split; [exact Hk|]. unfold genkey_main. rewrite E. reflexivity.
Qed.
Theorem C34_genpsk : forall r junk, length junk = 32%nat -> sources_ok r ->
  (exists key, random_key r key /\ is_key key /\ genkey_main r junk [str "genpsk"] = (0, rfc4648 key ++ [10]))
  \/ ((forall key, ~ random_key r key) /\ genkey_main r junk [str "genpsk"] = (1, [])).
Proof.
  intros r junk Lj Hs. destruct (get_random_spec r junk Lj Hs) as [(key & E & Hk)|(x & E & Hk)].
  - left. pose proof (random_key_bytes r key Hs Hk) as Hb. exists key. split; [exact Hk|]. split; [exact Hb|].
    unfold genkey_main. rewrite E. cbn [negb]. change (beq (str "genpsk") (str "genkey")) with false. cbv iota zeta.
    rewrite key_to_base64_rfc by exact Hb. reflexivity.
  - right. split; [exact Hk|]. unfold genkey_main. rewrite E. reflexivity.
Qed.
(** The printed keys determine the random bits that are kept: 251 of them for genkey, all for genpsk. *)
Theorem C34_no_bits_lost : forall r1 r2 k1 k2 j1 j2 o, length j1 = 32%nat -> length j2 = 32%nat -> sources_ok r1 -> sources_ok r2 -> random_key r1 k1 -> random_key r2 k2 ->
  (genkey_main r1 j1 [str "genpsk"] = (0, o) -> genkey_main r2 j2 [str "genpsk"] = (0, o) -> k1 = k2)
  /\ (genkey_main r1 j1 [str "genkey"] = (0, o) -> genkey_main r2 j2 [str "genkey"] = (0, o) -> le_val k1 mod 2 ^ 254 / 8 = le_val k2 mod 2 ^ 254 / 8).
Proof.
  intros r1 r2 k1 k2 j1 j2 o L1 L2 S1 S2 K1 K2.
  assert (Uniq : forall r a b, random_key r a -> random_key r b -> a = b).
  { intros r a b (La & Ha) (Lb & Hb).
    assert (T : forall (x y x' y' : list Z), x ++ y = x' ++ y' -> length x = length x' -> x = x') by (intro x; induction x as [|x0 x IHx]; intros y [|x0' x'] y' E El; try discriminate; [reflexivity|]; cbn [app] in E; injection E as -> E; f_equal; apply (IHx y x' y' E); cbn [length] in El; lia).
    destruct Ha as [Ea|[(Na & ma & Ea)|(Na & Fa & Oa & bsa & ra & ma & Era & Hna & Eca)]];
    destruct Hb as [Eb|[(Nb & mb & Eb)|(Nb & Fb & Ob & bsb & rb & mb & Erb & Hnb & Ecb)]];
    try (exfalso; first [apply (Na _ Eb)|apply (Nb _ Ea)]); try congruence.
    - rewrite Ea in Eb. injection Eb as Eb. apply (T _ _ _ _ Eb). congruence.
    - apply Fb in Ea. rewrite app_length in Ea. lia.
    - apply Fa in Eb. rewrite app_length in Eb. lia.
    - assert (G : forall bsa bsb ra rb, Forall (fun b : list Z => b <> []) bsa -> map Read bsa ++ ra = map Read bsb ++ rb -> (exists x, concat bsb = concat bsa ++ x) \/ (exists x, concat bsa = concat bsb ++ x)).
      { clear. induction bsa as [|b bsa IH]; intros bsb ra rb Hne E; [left; eexists; reflexivity|]. destruct bsb as [|b' bsb]; [right; eexists; reflexivity|].
        cbn [map app] in E. injection E as <- E. inversion Hne; subst. destruct (IH bsb ra rb H2 E) as [[x Ex]|[x Ex]].
        - left. exists x. cbn [concat]. rewrite Ex, app_assoc. reflexivity.
        - right. exists x. cbn [concat]. rewrite Ex, app_assoc. reflexivity. }
      rewrite Era in Erb. destruct (G bsa bsb ra rb Hna Erb) as [[x Ex]|[x Ex]].
      + rewrite Eca, Ecb in Ex. rewrite <- app_assoc in Ex. symmetry. apply (T _ _ _ _ Ex). congruence.
      + rewrite Eca, Ecb in Ex. rewrite <- app_assoc in Ex. apply (T _ _ _ _ Ex). congruence. }
  assert (Inj : forall a b, is_key a -> is_key b -> rfc4648 a = rfc4648 b -> a = b).
  { intros a b Ha Hb E. pose proof (key_from_base64_enc true a Ha) as Da. rewrite E, (key_from_base64_enc true b Hb) in Da. congruence. }
  split.
  - intros E1 E2. destruct (C34_genpsk r1 j1 L1 S1) as [(a & Ka & Ba & Ea)|[N _]]; [|exfalso; exact (N _ K1)].
    destruct (C34_genpsk r2 j2 L2 S2) as [(b & Kb & Bb & Eb)|[N _]]; [|exfalso; exact (N _ K2)].
    rewrite E1 in Ea. rewrite E2 in Eb. injection Ea as ->. injection Eb as Eb. apply app_inv_tail in Eb.
    rewrite (Uniq _ _ _ K1 Ka), (Uniq _ _ _ K2 Kb). apply Inj; assumption.
  - intros E1 E2. destruct (C34_genkey r1 j1 L1 S1) as [(a & ka & Ka & Ba & Va & Ea)|[N _]]; [|exfalso; exact (N _ K1)].
    destruct (C34_genkey r2 j2 L2 S2) as [(b & kb & Kb & Bb & Vb & Eb)|[N _]]; [|exfalso; exact (N _ K2)].
    rewrite E1 in Ea. rewrite E2 in Eb. injection Ea as ->. injection Eb as Eb. apply app_inv_tail in Eb.
    apply (Inj _ _ Ba Bb) in Eb. subst kb. rewrite (Uniq _ _ _ K1 Ka), (Uniq _ _ _ K2 Kb). rewrite Va in Vb.
    exact (clamped_eq _ _ Vb).
Qed.

(** ** C35 *)
Lemma only_trailing_spec : forall l, Forall is_byte l -> only_trailing l = true <-> Forall (fun c => c = 0 \/ space_spec c) l.
Proof.
  induction l as [|c l IH]; intro H; [split; [constructor|reflexivity]|]. inversion H as [|x y Hc Hl]; subst. cbn [only_trailing].
  assert (Hs : char_is_space c = true <-> space_spec c) by (apply C04_char_is_space; unfold is_byte in Hc; lia). split.
  - destruct ((c =? 0) || char_is_space c) eqn:E; [|discriminate]. intro H1. apply orb_true_iff in E as [E|E].
    + apply Z.eqb_eq in E. apply Forall_cons; [left; exact E|apply IH; assumption].
    + apply Forall_cons; [right; apply Hs, E|apply IH; assumption].
  - intro H1. inversion H1 as [|x y H2 H3]; subst. replace ((c =? 0) || char_is_space c) with true; [apply IH; assumption|].
    symmetry. apply orb_true_iff. destruct H2 as [->|H2]; [left; reflexivity|right; apply Hs, H2].
Qed.

Lemma upto_nul_id : forall l, ~ In 0 l -> upto_nul l = l.
Proof.
  induction l as [|c l IH]; intro H; [reflexivity|]. cbn [upto_nul]. destruct (Z.eqb_spec c 0); [exfalso; apply H; left; assumption|].
  f_equal. apply IH. intro H0. apply H. right. exact H0.
Qed.
Lemma upto_nul_prefix : forall l, exists x, l = upto_nul l ++ x.
Proof. induction l as [|c l [x Ex]]; [exists []; reflexivity|]. cbn [upto_nul]. destruct (c =? 0); [exists (c :: l); reflexivity|]. exists x. cbn [app]. rewrite <- Ex. reflexivity. Qed.
Lemma rfc_length : forall k, is_key k -> length (rfc4648 k) = 44%nat.
Proof. intros k H. rewrite <- key_to_base64_rfc by exact H. apply key_to_base64_length. apply H. Qed.
Lemma rfc_no0 : forall k, is_key k -> ~ In 0 (rfc4648 k).
Proof.
  intros k H Hz. pose proof (key_okc k H) as F. rewrite Forall_forall in F. destruct (F _ Hz) as (_ & _ & F0 & _). congruence.
Qed.

(** 'wg pubkey' succeeds iff the input is the base64 of one key followed by nothing but white space (or NUL bytes); it then prints the base64 of
    the public key of that key; otherwise it prints nothing. *)
Theorem C35_pubkey : forall sg pub a0 stdin, Forall is_byte stdin ->
  (exists k ws, is_key k /\ stdin = rfc4648 k ++ ws /\ Forall (fun c => c = 0 \/ space_spec c) ws
     /\ pubkey_main sg pub [a0] stdin = (0, key_to_base64 (pub k) ++ [10]))
  \/ ((forall k ws, is_key k -> Forall (fun c => c = 0 \/ space_spec c) ws -> stdin <> rfc4648 k ++ ws) /\ pubkey_main sg pub [a0] stdin = (1, [])).
Proof.
  intros sg pub a0 stdin Hb. unfold pubkey_main. cbv zeta.
  assert (Hsplit : forall k ws, is_key k -> stdin = rfc4648 k ++ ws -> firstn 44 stdin = rfc4648 k /\ skipn 44 stdin = ws).
  { intros k ws Hk ->. rewrite <- (rfc_length k Hk). rewrite firstn_app, firstn_all, skipn_app, skipn_all, Nat.sub_diag. cbn [firstn skipn app]. rewrite app_nil_r. split; reflexivity. }
  destruct (Nat.eqb_spec (length (firstn 44 stdin)) 44) as [L|L]; cbn [negb].
  2: { right. split; [|reflexivity]. intros k ws Hk _ E. destruct (Hsplit k ws Hk E) as [E1 _]. rewrite E1, (rfc_length k Hk) in L. congruence. }
  assert (Hb2 : Forall is_byte (skipn 44 stdin)) by (apply Forall_forall; intros x Hx; rewrite Forall_forall in Hb; apply Hb; eapply in_skipn, Hx).
  destruct (only_trailing (skipn 44 stdin)) eqn:T; cbn [negb].
  2: { right. split; [|reflexivity]. intros k ws Hk Hws E. destruct (Hsplit k ws Hk E) as [_ E2]. rewrite E2 in T.
       apply (only_trailing_spec ws) in Hws; [congruence|]. rewrite <- E2. exact Hb2. }
  apply only_trailing_spec in T; [|exact Hb2].
  assert (Hb1 : Forall is_byte (upto_nul (firstn 44 stdin))).
  { destruct (upto_nul_prefix (firstn 44 stdin)) as [x Ex]. assert (H : Forall is_byte (firstn 44 stdin)) by (apply Forall_forall; intros y Hy; rewrite Forall_forall in Hb; apply Hb; eapply in_firstn, Hy).
    rewrite Ex in H. apply Forall_app in H. apply H. }
  destruct (key_from_base64 sg (upto_nul (firstn 44 stdin))) as [k|] eqn:K.
  - apply key_from_base64_iff in K as [Hk E]; [|exact Hb1]. left. exists k, (skipn 44 stdin). split; [exact Hk|]. split; [|split; [exact T|reflexivity]].
    destruct (upto_nul_prefix (firstn 44 stdin)) as [x Ex]. rewrite E in Ex.
    assert (x = []). { apply (f_equal (@length Z)) in Ex. rewrite app_length, (rfc_length k Hk), L in Ex. destruct x; [reflexivity|cbn [length] in Ex; lia]. }
    subst x. rewrite app_nil_r in Ex. rewrite <- Ex. symmetry. apply firstn_skipn.
  - right. split; [|reflexivity]. intros k ws Hk Hws E. destruct (Hsplit k ws Hk E) as [E1 _]. rewrite E1, upto_nul_id in K by (apply rfc_no0; exact Hk).
    rewrite key_from_base64_enc in K by exact Hk. discriminate.
Qed.

(** Without exactly one argument (the name), both fail and print nothing. *)
Theorem C35_usage : forall sg pub r junk argv stdin, length argv <> 1%nat -> pubkey_main sg pub argv stdin = (1, []) /\ genkey_main r junk argv = (1, []).
Proof. intros sg pub r junk [|a [|b argv]] stdin H; try (split; reflexivity). cbn in H. congruence. Qed.

(** Concrete runs: getrandom gives 20 bytes only, then the device gives 30 and 5. *)
Definition xr : random := mk_random (Some None) (Some (Some (repeat 1 20))) true [Read (repeat 255 30); Read [9; 8; 7; 6; 5]; ReadErr 5].
Example C34_example : sources_ok xr /\ random_key xr (repeat 255 30 ++ [9; 8]) /\ fst (genkey_main xr (repeat 3 32) [str "genkey"]) = 0.
Proof.
  split; [|split].
  - split; [discriminate|]. split.
    + intros b E. cbn [xr r_getrandom] in E. assert (Eb : b = repeat 1 20) by congruence. rewrite Eb. apply Forall_forall. intros x Hx. apply repeat_spec in Hx. subst. unfold is_byte. lia.
    + intros b [E|[E|[E|[]]]]; try discriminate.
      * assert (Eb : b = repeat 255 30) by congruence. rewrite Eb. apply Forall_forall. intros x Hx. apply repeat_spec in Hx. subst. unfold is_byte. lia.
      * assert (Eb : b = [9; 8; 7; 6; 5]) by congruence. rewrite Eb. repeat (apply Forall_cons; [unfold is_byte; lia|]). constructor.
  - split; [reflexivity|]. right. right. split; [intros b E; discriminate|]. split; [intros b E; injection E as <-; cbn; lia|]. split; [reflexivity|].
    exists [repeat 255 30; [9; 8; 7; 6; 5]], [ReadErr 5], [7; 6; 5]. split; [reflexivity|]. split; [repeat constructor; discriminate|]. reflexivity.
  - vm_compute. reflexivity.
Qed.
Example C34_example_fails : genkey_main (mk_random None (Some None) true [Read (repeat 1 31); Read []]) (repeat 0 32) [str "genkey"] = (1, []).
Proof. vm_compute. reflexivity. Qed.
Example C35_example : forall pub, pubkey_main true pub [str "pubkey"] (str "4OHi4+Tl5ufo6err7O3u7/Dx8vP09fb3+Pn6+/z9/v8=" ++ [10; 32; 0]) = (0, key_to_base64 (pub (zrange 224 32)) ++ [10])
  /\ pubkey_main true pub [str "pubkey"] (str "4OHi4+Tl5ufo6err7O3u7/Dx8vP09fb3+Pn6+/z9/v8=" ++ [10; 65]) = (1, []).
Proof.
  intro pub. split; [|vm_compute; reflexivity]. unfold pubkey_main. cbv zeta.
  set (i := str _ ++ _).
  replace (negb (Nat.eqb (length (firstn 44 i)) 44)) with false by (vm_compute; reflexivity).
  replace (negb (only_trailing (skipn 44 i))) with false by (vm_compute; reflexivity).
  replace (key_from_base64 true (upto_nul (firstn 44 i))) with (Some (zrange 224 32)) by (vm_compute; reflexivity).
  reflexivity.
Qed.
