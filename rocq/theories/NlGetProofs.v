(** The attribute reader of src/netlink.h and the parsers of src/ipc-linux.h as folds over attribute streams. *)
From Coq Require Import ZArith List Bool Lia.
From Verif Require Import Base Types Encoding NlSpec Nl NlSet NlGet NlProofs NlSetProofs4.
Import ListNotations.
Open Scope Z_scope.

Definition slice (m : list Z) (a b : Z) : list Z := firstn (Z.to_nat (b - a)) (skipn (Z.to_nat a) m).

Lemma len_slice : forall m a b, 0 <= a -> b <= len m -> a <= b -> len (slice m a b) = b - a.
Proof. intros m a b H1 H2 H3. unfold slice, len in *. rewrite firstn_length, skipn_length. lia. Qed.
Lemma slice_empty : forall m a b, b <= a -> slice m a b = [].
Proof. intros m a b H. unfold slice. replace (Z.to_nat (b - a)) with 0%nat by lia. reflexivity. Qed.
Lemma rd_slice : forall m off n, 0 <= off -> 0 <= n -> off + n <= len m -> rd m off n = Some (slice m off (off + n)).
Proof.
  intros m off n H1 H2 H3. unfold rd, slice. destruct (Z.leb_spec 0 off); [|lia]. destruct (Z.leb_spec 0 n); [|lia].
  destruct (Z.leb_spec (off + n) (len m)); [|lia]. cbn [andb]. do 3 f_equal. lia.
Qed.
Lemma firstn_skipn_slice : forall m a b c d, 0 <= a -> a <= b -> b <= len m -> 0 <= c -> c <= d -> a + d <= b ->
  slice (slice m a b) c d = slice m (a + c) (a + d).
Proof.
  intros m a b c d H1 H2 H3 H4 H5 H6. unfold slice. rewrite skipn_firstn_comm, firstn_firstn.
  replace (skipn (Z.to_nat c) (skipn (Z.to_nat a) m)) with (skipn (Z.to_nat (a + c)) m).
  - f_equal. lia.
  - rewrite Z2Nat.inj_add by lia. rewrite Nat.add_comm. clear. revert m. induction (Z.to_nat a) as [|k IH]; intro m.
    + rewrite Nat.add_0_r. reflexivity.
    + destruct m as [|x m]; [rewrite !skipn_nil; reflexivity|]. rewrite Nat.add_succ_r. cbn [skipn]. apply IH.
Qed.
Lemma slice_all : forall m, slice m 0 (len m) = m.
Proof. intro m. unfold slice, len. rewrite Z.sub_0_r, Nat2Z.id. cbn [Z.to_nat skipn]. apply firstn_all. Qed.

Lemma in_firstn : forall A (x : A) n l, In x (firstn n l) -> In x l.
Proof. induction n as [|n IH]; intros [|y l] H; cbn in *; try contradiction. destruct H as [H|H]; [left; exact H|right; apply IH, H]. Qed.
Lemma in_skipn : forall A (x : A) n l, In x (skipn n l) -> In x l.
Proof. induction n as [|n IH]; intros [|y l] H; cbn in *; try contradiction; try exact H. right. apply IH, H. Qed.
Lemma Forall_slice : forall (P : Z -> Prop) m a b, Forall P m -> Forall P (slice m a b).
Proof.
  intros P m a b H. apply Forall_forall. intros x Hx. apply (proj1 (Forall_forall P m) H). eapply in_skipn, in_firstn, Hx.
Qed.

Lemma le_val_bound : forall l, Forall is_byte l -> 0 <= le_val l < 256 ^ len l.
Proof.
  induction 1 as [|b l Hb Hl IH]; [cbn; lia|]. cbn [le_val]. rewrite len_cons, Z.pow_add_r by (try apply len_nonneg; lia).
  change (256 ^ 1) with 256. unfold is_byte in Hb. lia.
Qed.

Lemma rd_le_slice : forall m off n, 0 <= off -> 0 <= n -> off + n <= len m -> rd_le m off n = Some (le_val (slice m off (off + n))).
Proof. intros. unfold rd_le. rewrite rd_slice by assumption. reflexivity. Qed.

(** The head of the stream in a region of memory. *)
Lemma skipn_cons4 : forall m pos, 0 <= pos -> pos + 4 <= len m ->
  exists l0 l1 t0 t1 rest, skipn (Z.to_nat pos) m = l0 :: l1 :: t0 :: t1 :: rest.
Proof.
  intros m pos H1 H2. assert (L : (4 <= length (skipn (Z.to_nat pos) m))%nat) by (rewrite skipn_length; unfold len in *; lia).
  destruct (skipn (Z.to_nat pos) m) as [|a [|b [|c [|d r]]]]; cbn [length] in L; try lia. eauto 10.
Qed.

Lemma attrs_unfold : forall b, attrs b =
  match b with
  | l0 :: l1 :: t0 :: t1 :: rest =>
      let n := l0 + 256 * l1 in
      if (4 <=? n) && (n <=? len b)
      then ((t0 + 256 * t1) mod 2 ^ 14, firstn (Z.to_nat (n - 4)) rest) :: attrs (skipn (Z.to_nat (up4 n)) b)
      else []
  | _ => []
  end.
Proof.
  intro b. unfold attrs at 1. cbn [stream]. destruct b as [|l0 [|l1 [|t0 [|t1 rest]]]]; try reflexivity.
  cbv zeta. destruct ((4 <=? l0 + 256 * l1) && (l0 + 256 * l1 <=? len (l0 :: l1 :: t0 :: t1 :: rest))) eqn:E; [|reflexivity].
  f_equal. apply andb_true_iff in E as [E1 _]. apply Z.leb_le in E1. pose proof (up4_range (l0 + 256 * l1)).
  unfold attrs. apply stream_fuel; [|lia]. rewrite skipn_length. cbn [length] in *. lia.
Qed.

Lemma skipn_skipn_Z : forall (m : list Z) a b, 0 <= a -> 0 <= b -> skipn (Z.to_nat b) (skipn (Z.to_nat a) m) = skipn (Z.to_nat (a + b)) m.
Proof.
  intros m a b Ha Hb. rewrite Z2Nat.inj_add by lia. rewrite Nat.add_comm. generalize (Z.to_nat a) (Z.to_nat b). clear. intros a b.
  revert m. induction a as [|k IH]; intro m.
  - rewrite Nat.add_0_r. reflexivity.
  - destruct m as [|x m]; [rewrite !skipn_nil; reflexivity|]. rewrite Nat.add_succ_r. cbn [skipn]. apply IH.
Qed.

Lemma skipn_slice : forall m a b k, 0 <= a -> 0 <= k -> skipn (Z.to_nat k) (slice m a b) = slice m (a + k) b.
Proof.
  intros m a b k Ha Hk. unfold slice. rewrite skipn_firstn_comm, skipn_skipn_Z by assumption. f_equal. lia.
Qed.

Lemma attrs_region : forall m pos stop, 0 <= pos -> stop <= len m ->
  attrs (slice m pos stop) =
    if 4 <=? stop - pos then
      let l := le_val (slice m pos (pos + 2)) in
      if (4 <=? l) && (l <=? stop - pos)
      then (le_val (slice m (pos + 2) (pos + 4)) mod 2 ^ 14, slice m (pos + 4) (pos + l)) :: attrs (slice m (pos + up4 l) stop)
      else []
    else [].
Proof.
  intros m pos stop Hp Hs. rewrite attrs_unfold. destruct (Z.leb_spec 4 (stop - pos)) as [H4|H4].
  - destruct (skipn_cons4 m pos Hp ltac:(lia)) as (l0 & l1 & t0 & t1 & rest & E).
    assert (Es : slice m pos stop = l0 :: l1 :: t0 :: t1 :: firstn (Z.to_nat (stop - pos - 4)) rest).
    { unfold slice. rewrite E. replace (Z.to_nat (stop - pos)) with (S (S (S (S (Z.to_nat (stop - pos - 4)))))) by lia. reflexivity. }
    assert (E2 : slice m pos (pos + 2) = [l0; l1]).
    { unfold slice. rewrite E. replace (Z.to_nat (pos + 2 - pos)) with 2%nat by lia. reflexivity. }
    assert (E3 : slice m (pos + 2) (pos + 4) = [t0; t1]).
    { unfold slice. rewrite <- skipn_skipn_Z by lia. rewrite E. replace (Z.to_nat (pos + 4 - (pos + 2))) with 2%nat by lia. reflexivity. }
    assert (E4 : skipn (Z.to_nat (pos + 4)) m = rest) by (rewrite <- skipn_skipn_Z by lia; rewrite E; reflexivity).
    assert (El : len (slice m pos stop) = stop - pos) by (apply len_slice; lia).
    rewrite E2, E3. cbn [le_val]. replace (l0 + 256 * (l1 + 256 * 0)) with (l0 + 256 * l1) by lia. replace (t0 + 256 * (t1 + 256 * 0)) with (t0 + 256 * t1) by lia.
    cbv zeta. rewrite <- El. rewrite Es. cbv zeta. rewrite <- Es, El.
    destruct ((4 <=? l0 + 256 * l1) && (l0 + 256 * l1 <=? stop - pos)) eqn:C; [|reflexivity].
    apply andb_true_iff in C as [C1 C2]. apply Z.leb_le in C1. apply Z.leb_le in C2. f_equal.
    + f_equal. unfold slice. rewrite E4. rewrite firstn_firstn. f_equal. lia.
    + rewrite skipn_slice; [reflexivity|lia|]. pose proof (up4_range (l0 + 256 * l1)). lia.
  - assert (L : (length (slice m pos stop) < 4)%nat) by (unfold slice; rewrite firstn_length; lia).
    destruct (slice m pos stop) as [|a [|b [|c [|d r]]]]; try reflexivity. cbn [length] in L. lia.
Qed.

(** Where an attribute lies. *)
Definition in_attr (m : list Z) (stop pos t : Z) (p : list Z) : Prop :=
  exists l, 0 <= pos /\ pos + l <= stop /\ stop <= len m /\ 4 <= l < 65536
    /\ attr_type m pos = Some t /\ attr_plen m pos = Some (l - 4) /\ p = slice m (pos + 4) (pos + l).

Fixpoint fold_attrs {A} (f : Z -> list Z -> A -> Z * A) (l : list (Z * list Z)) (ret : Z) (s : A) : Z * A :=
  match l with
  | [] => (ret, s)
  | (t, p) :: l' => let (r, s') := f t p s in if r <=? CB_STOP then (r, s') else fold_attrs f l' r s'
  end.

Lemma attr_loop_spec : forall A m (cb : Z -> A -> option (Z * A)) (f : Z -> list Z -> A -> Z * A) (okp : Z -> list Z -> Prop) stop,
  Forall is_byte m -> len m < 2 ^ 30 -> stop <= len m ->
  (forall pos t p s, in_attr m stop pos t p -> okp t p -> cb pos s = Some (f t p s)) ->
  forall fuel pos ret s, 0 <= pos <= stop + 4 -> (Z.to_nat (stop + 4 - pos) < fuel)%nat ->
  Forall (fun a => okp (fst a) (snd a)) (attrs (slice m pos stop)) ->
  attr_loop m cb fuel pos stop ret s = Some (fold_attrs f (attrs (slice m pos stop)) ret s).
Proof.
  intros A m cb f okp stop Hb Hl Hs Hcb. induction fuel as [|fu IH]; intros pos ret s Hp Hf Hok; [lia|].
  cbn [attr_loop]. rewrite attrs_region in * by lia. unfold attr_ok.
  pose proof (len_nonneg m) as Lm0.
  assert (Es : s32 (stop - pos) = stop - pos).
  { change (2 ^ 30) with 1073741824 in Hl. destruct (Z_le_gt_dec 0 (stop - pos)).
    - apply s32_small. change (2 ^ 31) with 2147483648. lia.
    - rewrite <- (s32_id (stop - pos)) at 2 by (change (2 ^ 31) with 2147483648; lia).
      unfold s32. rewrite Z.mod_mod by lia. reflexivity. }
  rewrite Es. destruct (Z.leb_spec 4 (stop - pos)) as [H4|H4]; [|reflexivity].
  rewrite (rd_le_slice m pos 2) by lia. cbv zeta in *. set (l := le_val (slice m pos (pos + 2))) in *.
  assert (Hlb : 0 <= l < 65536).
  { pose proof (le_val_bound _ (Forall_slice _ m pos (pos + 2) Hb)) as B. rewrite len_slice in B by lia.
    replace (pos + 2 - pos) with 2 in B by lia. exact B. }
  destruct ((4 <=? l) && (l <=? stop - pos)) eqn:C; [|reflexivity].
  apply andb_true_iff in C as [C1 C2]. apply Z.leb_le in C1. apply Z.leb_le in C2.
  inversion Hok as [|x y Hok1 Hok2]; subst.
  set (t := le_val (slice m (pos + 2) (pos + 4)) mod 2 ^ 14) in *. set (p := slice m (pos + 4) (pos + l)) in *.
  cbn [fst snd] in Hok1.
  assert (Hia : in_attr m stop pos t p).
  { exists l. repeat split; try lia.
    - unfold attr_type. rewrite (rd_le_slice m (pos + 2) 2) by lia. replace (pos + 2 + 2) with (pos + 4) by lia.
      change 16383 with (Z.ones 14). rewrite Z.land_ones by lia. reflexivity.
    - unfold attr_plen. rewrite (rd_le_slice m pos 2) by lia. fold l. unfold u16. rewrite Z.mod_small by lia. reflexivity. }
  rewrite (Hcb pos t p s Hia Hok1). cbn [fold_attrs]. destruct (f t p s) as [r s'].
  destruct (r <=? CB_STOP); [reflexivity|]. rewrite align_up4. pose proof (up4_range l).
  apply IH; [lia|lia|exact Hok2].
Qed.

(** Reads inside the payload of an attribute. *)
Lemma payload_len : forall m stop pos t p, in_attr m stop pos t p -> attr_plen m pos = Some (len p) /\ attr_type m pos = Some t.
Proof.
  intros m stop pos t p (l & H1 & H2 & H3 & H4 & H5 & H6 & ->). rewrite len_slice by lia. split; [|exact H5]. rewrite H6. f_equal. lia.
Qed.
Lemma rd_payload : forall m stop pos t p k n, in_attr m stop pos t p -> 0 <= k -> 0 <= n -> k + n <= len p ->
  rd m (payload pos + k) n = Some (firstn (Z.to_nat n) (skipn (Z.to_nat k) p)).
Proof.
  intros m stop pos t p k n (l & H1 & H2 & H3 & H4 & H5 & H6 & ->) Hk Hn Hkn. rewrite len_slice in Hkn by lia. unfold payload.
  rewrite rd_slice by lia. f_equal. unfold slice at 2. rewrite skipn_firstn_comm, firstn_firstn, skipn_skipn_Z by lia.
  unfold slice. f_equal. lia.
Qed.
Lemma rd_payload_all : forall m stop pos t p n, in_attr m stop pos t p -> len p = n -> rd m (payload pos) n = Some p.
Proof.
  intros m stop pos t p n H <-. rewrite <- (Z.add_0_r (payload pos)). rewrite (rd_payload m stop pos t p 0 (len p) H) by (pose proof (len_nonneg p); lia).
  f_equal. unfold len. rewrite Nat2Z.id. cbn [Z.to_nat skipn]. apply firstn_all.
Qed.
Lemma rd_le_payload_all : forall m stop pos t p n, in_attr m stop pos t p -> len p = n -> rd_le m (payload pos) n = Some (le_val p).
Proof. intros. unfold rd_le. erewrite rd_payload_all by eassumption. reflexivity. Qed.
Lemma rd_le_payload : forall m stop pos t p k n, in_attr m stop pos t p -> 0 <= k -> 0 <= n -> k + n <= len p ->
  rd_le m (payload pos + k) n = Some (le_val (firstn (Z.to_nat n) (skipn (Z.to_nat k) p))).
Proof. intros. unfold rd_le. erewrite rd_payload by eassumption. reflexivity. Qed.

Lemma nested_spec : forall A m (cb : Z -> A -> option (Z * A)) (f : Z -> list Z -> A -> Z * A) (okp : Z -> list Z -> Prop) stop pos t p (s : A),
  Forall is_byte m -> len m < 2 ^ 30 ->
  (forall stop' pos' t' p' s', in_attr m stop' pos' t' p' -> okp t' p' -> cb pos' s' = Some (f t' p' s')) ->
  in_attr m stop pos t p -> Forall (fun a => okp (fst a) (snd a)) (attrs p) ->
  attr_parse_nested m pos cb s = Some (fold_attrs f (attrs p) CB_OK s).
Proof.
  intros A m cb f okp stop pos t p s Hb Hl Hcb Hia Hok. unfold attr_parse_nested.
  destruct (payload_len _ _ _ _ _ Hia) as [-> _]. destruct Hia as (l & H1 & H2 & H3 & H4 & H5 & H6 & Ep).
  assert (Lp : len p = l - 4) by (subst p; rewrite len_slice by lia; lia).
  assert (Ep2 : p = slice m (payload pos) (payload pos + len p)).
  { rewrite Lp. subst p. unfold payload. f_equal. lia. }
  rewrite Ep2 at 2. unfold payload in *.
  apply (attr_loop_spec A m cb f okp (pos + 4 + len p) Hb Hl ltac:(lia)).
  - intros pos' t' p' s'. apply Hcb.
  - lia.
  - unfold len in *. lia.
  - rewrite <- Ep2. exact Hok.
Qed.

(** ** The parsers on attributes *)
Definition okr {A} (errno : Z) (x : A) : Z * st A := (CB_OK, (errno, x)).

Definition f_allowedip (t : Z) (p : list Z) (s : st raw_aip) : Z * st raw_aip :=
  let '(errno, a) := s in let n := len p in
  if t =? 1 then (if n =? 2 then okr errno (mk_raw (le_val p) (ra_ip a) (ra_cidr a)) else okr ERANGE a)
  else if t =? 2 then
    (if n =? 4 then okr errno (mk_raw (ra_family a) (p ++ skipn 4 (ra_ip a)) (ra_cidr a))
     else if n =? 16 then okr errno (mk_raw (ra_family a) p (ra_cidr a)) else okr errno a)
  else if t =? 3 then (if n =? 1 then okr errno (mk_raw (ra_family a) (ra_ip a) (le_val p)) else okr ERANGE a)
  else okr errno a.

Lemma parse_allowedip_f : forall m stop pos t p s, in_attr m stop pos t p -> parse_allowedip m pos s = Some (f_allowedip t p s).
Proof.
  intros m stop pos t p [errno a] H. unfold parse_allowedip, f_allowedip. destruct (payload_len _ _ _ _ _ H) as [-> ->].
  unfold validate_len.
  destruct (t =? 1); [destruct (Z.eqb_spec (len p) 2) as [E|]; [erewrite rd_le_payload_all by eassumption|]; reflexivity|].
  destruct (t =? 2).
  { destruct (Z.eqb_spec (len p) 4) as [E|]; [erewrite rd_payload_all by eassumption; reflexivity|].
    destruct (Z.eqb_spec (len p) 16) as [E|]; [erewrite rd_payload_all by eassumption; reflexivity|]. reflexivity. }
  destruct (t =? 3); [destruct (Z.eqb_spec (len p) 1) as [E|]; [erewrite rd_le_payload_all by eassumption|]; reflexivity|].
  reflexivity.
Qed.

Definition f_allowedips (t : Z) (p : list Z) (s : st peer) : Z * st peer :=
  let '(errno, q) := s in
  let '(ret, (errno', a)) := fold_attrs f_allowedip (attrs p) CB_OK (errno, raw0) in
  let q' := set_aips (p_aips q ++ [aip_of a]) q in
  if ret =? 0 then (ret, (errno', q'))
  else if ((ra_family a =? AF_INET) && (ra_cidr a <=? 32)) || ((ra_family a =? AF_INET6) && (ra_cidr a <=? 128))
       then okr errno' q' else (CB_ERROR, (errno', q')).

Lemma Forall_true : forall A (l : list A), Forall (fun _ => True) l.
Proof. intros A l. apply Forall_forall. auto. Qed.

Lemma parse_allowedips_f : forall m stop pos t p s, Forall is_byte m -> len m < 2 ^ 30 ->
  in_attr m stop pos t p -> parse_allowedips m pos s = Some (f_allowedips t p s).
Proof.
  intros m stop pos t p [errno q] Hb Hl H. unfold parse_allowedips, f_allowedips.
  rewrite (nested_spec _ m (parse_allowedip m) f_allowedip (fun _ _ => True) stop pos t p (errno, raw0) Hb Hl);
    [|intros; eapply parse_allowedip_f; eassumption|exact H|apply Forall_true].
  destruct (fold_attrs f_allowedip (attrs p) CB_OK (errno, raw0)) as [ret [errno' a]].
  destruct (ret =? 0); [reflexivity|]. destruct (_ || _); reflexivity.
Qed.

Definition f_peer (t : Z) (p : list Z) (s : st peer) : Z * st peer :=
  let '(errno, q) := s in let n := len p in
  if t =? 1 then (if n =? 32 then okr errno (set_pub p q) else okr errno q)
  else if t =? 2 then (if n =? 32 then okr errno (put_psk_flag (negb (key_is_zero p)) p q) else okr errno q)
  else if t =? 4 then
    (if n <? 16 then okr errno q
     else if (le_val (firstn 2 p) =? AF_INET) && (n =? 16) then okr errno (set_endpoint (ep4_of p) q)
     else if (le_val (firstn 2 p) =? AF_INET6) && (n =? 28) then okr errno (set_endpoint (ep6_of p) q)
     else okr errno q)
  else if t =? 5 then (if n =? 2 then okr errno (put_ka_value (le_val p) q) else okr ERANGE q)
  else if t =? 6 then (if n =? 16 then okr errno (put_handshake (s64 (le_val (firstn 8 p))) (s64 (le_val (skipn 8 p))) q) else okr errno q)
  else if t =? 7 then (if n =? 8 then okr errno (put_rx (le_val p) q) else okr ERANGE q)
  else if t =? 8 then (if n =? 8 then okr errno (put_tx (le_val p) q) else okr ERANGE q)
  else if t =? 9 then fold_attrs f_allowedips (attrs p) CB_OK (errno, q)
  else okr errno q.

Lemma parse_peer_f : forall m stop pos t p s, Forall is_byte m -> len m < 2 ^ 30 ->
  in_attr m stop pos t p -> parse_peer m pos s = Some (f_peer t p s).
Proof.
  intros m stop pos t p [errno q] Hb Hl H. unfold parse_peer, f_peer. destruct (payload_len _ _ _ _ _ H) as [-> ->].
  unfold validate_len.
  destruct (t =? 1); [destruct (Z.eqb_spec (len p) 32) as [E|]; [erewrite rd_payload_all by eassumption|]; reflexivity|].
  destruct (t =? 2); [destruct (Z.eqb_spec (len p) 32) as [E|]; [erewrite rd_payload_all by eassumption|]; reflexivity|].
  destruct (t =? 4).
  { destruct (Z.ltb_spec (len p) 16) as [E|E]; [reflexivity|].
    replace (rd_le m (payload pos) 2) with (rd_le m (payload pos + 0) 2) by (f_equal; lia).
    rewrite (rd_le_payload m stop pos t p 0 2 H) by lia. change (Z.to_nat 2) with 2%nat. cbn [Z.to_nat skipn].
    destruct ((le_val (firstn 2 p) =? AF_INET) && (len p =? 16)) eqn:E1.
    { apply andb_true_iff in E1 as [_ E1]. apply Z.eqb_eq in E1. erewrite rd_payload_all by eassumption. reflexivity. }
    destruct ((le_val (firstn 2 p) =? AF_INET6) && (len p =? 28)) eqn:E2; [|reflexivity].
    apply andb_true_iff in E2 as [_ E2]. apply Z.eqb_eq in E2. erewrite rd_payload_all by eassumption. reflexivity. }
  destruct (t =? 5); [destruct (Z.eqb_spec (len p) 2) as [E|]; [erewrite rd_le_payload_all by eassumption|]; reflexivity|].
  destruct (t =? 6).
  { destruct (Z.eqb_spec (len p) 16) as [E|]; [|reflexivity].
    replace (rd_le m (payload pos) 8) with (rd_le m (payload pos + 0) 8) by (f_equal; lia).
    rewrite (rd_le_payload m stop pos t p 0 8 H) by lia. rewrite (rd_le_payload m stop pos t p 8 8 H) by lia.
    change (Z.to_nat 8) with 8%nat. cbn [Z.to_nat]. cbn [skipn]. fold (@skipn Z).
    rewrite (firstn_all2 (skipn 8 p)) by (rewrite skipn_length; unfold len in E; lia). reflexivity. }
  destruct (t =? 7); [destruct (Z.eqb_spec (len p) 8) as [E|]; [erewrite rd_le_payload_all by eassumption|]; reflexivity|].
  destruct (t =? 8); [destruct (Z.eqb_spec (len p) 8) as [E|]; [erewrite rd_le_payload_all by eassumption|]; reflexivity|].
  destruct (t =? 9); [|reflexivity].
  apply (nested_spec _ m (parse_allowedips m) f_allowedips (fun _ _ => True) stop pos t p (errno, q) Hb Hl); [|exact H|apply Forall_true].
  intros. eapply parse_allowedips_f; eassumption.
Qed.

Definition f_peers (t : Z) (p : list Z) (s : st device) : Z * st device :=
  let '(errno, d) := s in
  let '(ret, (errno', q)) := fold_attrs f_peer (attrs p) CB_OK (errno, peer0) in
  let d' := set_peers (d_peers d ++ [q]) d in
  if ret =? 0 then (ret, (errno', d'))
  else if negb (p_has_pub q) then (CB_ERROR, (errno', d')) else okr errno' d'.

Lemma parse_peers_f : forall m stop pos t p s, Forall is_byte m -> len m < 2 ^ 30 ->
  in_attr m stop pos t p -> parse_peers m pos s = Some (f_peers t p s).
Proof.
  intros m stop pos t p [errno d] Hb Hl H. unfold parse_peers, f_peers.
  rewrite (nested_spec _ m (parse_peer m) f_peer (fun _ _ => True) stop pos t p (errno, peer0) Hb Hl);
    [|intros; eapply parse_peer_f; eassumption|exact H|apply Forall_true].
  destruct (fold_attrs f_peer (attrs p) CB_OK (errno, peer0)) as [ret [errno' q]].
  destruct (ret =? 0); [reflexivity|]. destruct (negb (p_has_pub q)); reflexivity.
Qed.

Definition f_device (t : Z) (p : list Z) (s : st device) : Z * st device :=
  let '(errno, d) := s in let n := len p in
  if t =? 1 then (if n =? 4 then okr errno (put_ifindex (le_val p) d) else okr ERANGE d)
  else if t =? 2 then (if n =? 0 then okr ERANGE d else okr errno (set_name (until_nul (firstn 15 p)) d))
  else if t =? 3 then (if n =? 32 then okr errno (set_priv p d) else okr errno d)
  else if t =? 4 then (if n =? 32 then okr errno (put_pub p d) else okr errno d)
  else if t =? 6 then (if n =? 2 then okr errno (put_port_value (le_val p) d) else okr ERANGE d)
  else if t =? 7 then (if n =? 4 then okr errno (put_fwmark_value (le_val p) d) else okr ERANGE d)
  else if t =? 8 then fold_attrs f_peers (attrs p) CB_OK (errno, d)
  else okr errno d.

(** An interface name (attribute 2) that strncpy can read: terminated, or long enough. *)
Definition name_terminated (t : Z) (p : list Z) : Prop := t = 2 -> In 0 p \/ 15 <= len p \/ p = [].

Lemma strncpy_spec : forall m stop pos t p, in_attr m stop pos t p -> forall n k, 0 <= k <= len p ->
  (In 0 (skipn (Z.to_nat k) p) \/ k + Z.of_nat n <= len p) ->
  strncpy m (payload pos + k) n = Some (until_nul (firstn n (skipn (Z.to_nat k) p))).
Proof.
  intros m stop pos t p H. induction n as [|n IH]; intros k Hk Hn; [reflexivity|]. cbn [strncpy].
  assert (Hlt : k + 1 <= len p).
  { destruct Hn as [Hn|Hn]; [|lia]. destruct (Z_le_gt_dec (k + 1) (len p)); [assumption|].
    replace (Z.to_nat k) with (length p) in Hn by (unfold len in *; lia). rewrite skipn_all in Hn. contradiction. }
  rewrite (rd_le_payload m stop pos t p k 1 H) by lia.
  destruct (skipn (Z.to_nat k) p) as [|c r] eqn:E.
  { exfalso. assert (length (skipn (Z.to_nat k) p) = 0%nat) by (rewrite E; reflexivity). rewrite skipn_length in *. unfold len in *. lia. }
  change (Z.to_nat 1) with 1%nat. cbn [firstn le_val]. replace (c + 256 * 0) with c by lia. cbn [until_nul].
  destruct (Z.eqb_spec c 0); [reflexivity|].
  assert (Er : skipn (Z.to_nat (k + 1)) p = r) by (rewrite <- skipn_skipn_Z by lia; rewrite E; reflexivity).
  rewrite <- Z.add_assoc. rewrite IH; [rewrite Er; reflexivity|lia|]. rewrite Er.
  destruct Hn as [[Hn|Hn]|Hn]; [lia|left; exact Hn|right; lia].
Qed.

Lemma parse_device_f : forall m stop pos t p s, Forall is_byte m -> len m < 2 ^ 30 ->
  in_attr m stop pos t p -> name_terminated t p -> parse_device m pos s = Some (f_device t p s).
Proof.
  intros m stop pos t p [errno d] Hb Hl H Hn. unfold parse_device, f_device. destruct (payload_len _ _ _ _ _ H) as [-> ->].
  unfold validate_len, validate_string.
  destruct (t =? 1); [destruct (Z.eqb_spec (len p) 4) as [E|]; [erewrite rd_le_payload_all by eassumption|]; reflexivity|].
  destruct (Z.eqb_spec t 2) as [E2|_].
  { destruct (Z.eqb_spec (len p) 0) as [E|E]; [reflexivity|]. replace (payload pos) with (payload pos + 0) by lia.
    pose proof (len_nonneg p).
    rewrite (strncpy_spec m stop pos t p H 15 0); [reflexivity|lia|]. cbn [Z.to_nat skipn].
    destruct (Hn E2) as [Hn1|[Hn1|Hn1]]; [left; exact Hn1|right; lia|subst p; contradiction E; reflexivity]. }
  destruct (t =? 3); [destruct (Z.eqb_spec (len p) 32) as [E|]; [erewrite rd_payload_all by eassumption|]; reflexivity|].
  destruct (t =? 4); [destruct (Z.eqb_spec (len p) 32) as [E|]; [erewrite rd_payload_all by eassumption|]; reflexivity|].
  destruct (t =? 6); [destruct (Z.eqb_spec (len p) 2) as [E|]; [erewrite rd_le_payload_all by eassumption|]; reflexivity|].
  destruct (t =? 7); [destruct (Z.eqb_spec (len p) 4) as [E|]; [erewrite rd_le_payload_all by eassumption|]; reflexivity|].
  destruct (t =? 8); [|reflexivity].
  apply (nested_spec _ m (parse_peers m) f_peers (fun _ _ => True) stop pos t p (errno, d) Hb Hl); [|exact H|apply Forall_true].
  intros. eapply parse_peers_f; eassumption.
Qed.

(** A whole message at [nlh] of length [l]. *)
Lemma align32_up4 : forall l, 0 <= l < 2 ^ 31 -> align32 l = up4 l.
Proof.
  intros l H. unfold align32, u32. rewrite Z.mod_small by (change (2 ^ 32) with (2 * 2 ^ 31); lia).
  apply (align_up4 l).
Qed.

Lemma read_device_cb_f : forall m nlh l s, Forall is_byte m -> len m < 2 ^ 30 -> 0 <= nlh -> rd_le m nlh 4 = Some l -> 16 <= l < 2 ^ 31 ->
  nlh + up4 l <= len m ->
  Forall (fun a => name_terminated (fst a) (snd a)) (attrs (slice m (nlh + 20) (nlh + up4 l))) ->
  read_device_cb m nlh s = Some (fold_attrs f_device (attrs (slice m (nlh + 20) (nlh + up4 l))) CB_OK s).
Proof.
  intros m nlh l s Hb Hl Hn Hr H16 Hs Hok. unfold read_device_cb, attr_parse. rewrite Hr, align32_up4 by lia. change (align 4) with 4.
  replace (nlh + 16 + 4) with (nlh + 20) by lia. pose proof (up4_range l).
  apply (attr_loop_spec _ m (parse_device m) f_device name_terminated (nlh + up4 l) Hb Hl Hs).
  - intros. eapply parse_device_f; eassumption.
  - lia.
  - unfold len in *. lia.
  - exact Hok.
Qed.
