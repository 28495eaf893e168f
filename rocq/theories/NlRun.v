(** __mnl_cb_run (src/netlink.h:390-471) as a function on the messages of a datagram: the run never leaves the buffer. *)
From Coq Require Import ZArith List Bool Lia.
From Verif Require Import Base Types Encoding NlSpec NlGetSpec Nl NlSet NlGet NlProofs NlSetProofs4 NlGetProofs.
Import ListNotations.
Open Scope Z_scope.

(** The fields of a message (a list of at least 16 bytes). *)
Definition fld (a n : Z) (msg : list Z) : Z := le_val (slice msg a (a + n)).

Definition f_ctl {A} (msg : list Z) (st : Z * A) : Z * (Z * A) :=
  let type := fld 4 2 msg in let flags := fld 6 2 msg in let mlen := fld 0 4 msg in
  if type =? 2 then
    if mlen <? 36 then (CB_ERROR, (EBADMSG, snd st))
    else let e := s32 (fld 16 4 msg) in (if e =? 0 then CB_STOP else CB_ERROR, (ctl_errno e, snd st))
  else if type =? 3 then
    if Z.testbit flags 1 && (mlen =? 20) then let e := s32 (fld 16 4 msg) in (if e =? 0 then CB_STOP else CB_ERROR, (ctl_errno e, snd st))
    else (CB_STOP, st)
  else (CB_OK, st).

(** One message: [inl] the run ends, [inr] it goes on. *)
Definition f_msg {A} (seq portid : Z) (g : option (list Z -> Z * A -> Z * (Z * A))) (msg : list Z) (ret : Z) (st : Z * A)
  : (Z * (Z * A)) + (Z * (Z * A)) :=
  let type := fld 4 2 msg in let flags := fld 6 2 msg in let mseq := fld 8 4 msg in let mpid := fld 12 4 msg in
  if negb (mpid =? 0) && negb (portid =? 0) && negb (mpid =? portid) then inl (CB_ERROR, (ESRCH, snd st))
  else if negb (mseq =? 0) && negb (seq =? 0) && negb (mseq =? seq) then inl (CB_ERROR, (EPROTO, snd st))
  else if Z.testbit flags 4 then inl (CB_ERROR, (EINTR, snd st))
  else if 16 <=? type then
    match g with
    | Some h => let r := h msg st in if fst r <=? CB_STOP then inl r else inr r
    | None => inr (ret, st)
    end
  else if (1 <=? type) && (type <=? 4) then let r := f_ctl msg st in if fst r <=? CB_STOP then inl r else inr r
  else inr (ret, st).

Fixpoint f_run {A} seq portid (g : option (list Z -> Z * A -> Z * (Z * A))) (ms : list (list Z)) (ret : Z) (st : Z * A) : Z * (Z * A) :=
  match ms with
  | [] => (ret, st)
  | m :: ms' =>
      match f_msg seq portid g m ret st with
      | inl r => r
      | inr r => f_run seq portid g ms' (fst r) (snd r)
      end
  end.

Lemma slice_slice0 : forall m a b c, 0 <= a -> 0 <= b -> a + c <= len m -> b <= c -> slice (slice m a (a + c)) 0 b = slice m a (a + b).
Proof. intros. rewrite firstn_skipn_slice by lia. f_equal; lia. Qed.

Lemma fld_slice : forall m pos u a n, 0 <= pos -> 0 <= a -> 0 <= n -> a + n <= u -> pos + u <= len m ->
  rd_le m (pos + a) n = Some (fld a n (slice m pos (pos + u))).
Proof.
  intros m pos u a n H1 H2 H3 H4 H5. rewrite rd_le_slice by lia. unfold fld. rewrite firstn_skipn_slice by lia. do 2 f_equal. f_equal; lia.
Qed.

Lemma up4_le : forall a b, a <= b -> up4 a <= up4 b.
Proof. intros a b H. unfold up4. pose proof (Z.div_le_mono (a + 3) (b + 3) 4 ltac:(lia) ltac:(lia)). lia. Qed.

Lemma cb_run_f : forall A m seq portid (cb : option (Z -> Z * A -> option (Z * (Z * A)))) g (okm : list Z -> Prop),
  Forall is_byte m -> len m < 2 ^ 30 ->
  (match cb, g with
   | None, None => True
   | Some c, Some h => forall pos l st, 0 <= pos -> rd_le m pos 4 = Some l -> 16 <= l < 2 ^ 31 -> pos + up4 l <= len m ->
                        okm (slice m pos (pos + up4 l)) -> c pos st = Some (h (slice m pos (pos + up4 l)) st)
   | _, _ => False
   end) ->
  forall fuel pos n ret st, 0 <= pos -> n < 2 ^ 30 -> - 4 <= n -> pos + up4 n <= len m -> (Z.to_nat n < fuel)%nat ->
  sane fuel n (skipn (Z.to_nat pos) m) -> Forall okm (msgs fuel n (skipn (Z.to_nat pos) m)) ->
  cb_run m seq portid cb fuel pos n ret st = Some (f_run seq portid g (msgs fuel n (skipn (Z.to_nat pos) m)) ret st).
Proof.
  intros A m seq portid cb g okm Hb Hl Hcb. change (2 ^ 30) with 1073741824 in *. change (2 ^ 31) with 2147483648 in *.
  induction fuel as [|f IH]; intros pos n ret st Hp Hn Hn4 Hpn Hf Hs Hok; [lia|].
  pose proof (up4_range n) as Un.
  cbn [cb_run msgs sane] in *. unfold nlmsg_ok. destruct (Z.leb_spec 16 n) as [H16|H16]; [|reflexivity].
  rewrite (rd_le_slice m pos 4) by lia.
  assert (El : le_val (slice m pos (pos + 4)) = le_val (firstn 4 (skipn (Z.to_nat pos) m))).
  { unfold slice. replace (Z.to_nat (pos + 4 - pos)) with 4%nat by lia. reflexivity. }
  rewrite El. set (l := le_val (firstn 4 (skipn (Z.to_nat pos) m))) in *.
  specialize (Hs H16). destruct Hs as [Hs1 Hs2].
  change (2 ^ 31) with 2147483648 in Hs1.
  assert (Hl0 : 0 <= l).
  { rewrite <- El. apply le_val_bound. apply Forall_slice, Hb. }
  rewrite s32_small by (change (2 ^ 31) with 2147483648; lia).
  destruct (Z.leb_spec 16 l) as [Hl16|Hl16]; cbn [andb]; [|reflexivity].
  destruct (Z.leb_spec l n) as [Hln|Hln]; [|reflexivity].
  pose proof (up4_range l) as Ul. pose proof (up4_le l n Hln) as Uln.
  assert (Eu : firstn (Z.to_nat (up4 l)) (skipn (Z.to_nat pos) m) = slice m pos (pos + up4 l)).
  { unfold slice. f_equal. lia. }
  cbn [msgs] in Hok. destruct (Z.leb_spec 16 n) as [_|]; [|lia]. cbv zeta in Hok. fold l in Hok.
  destruct (Z.leb_spec 16 l) as [_|] in Hok; [|lia]. destruct (Z.leb_spec l n) as [_|] in Hok; [|lia]. cbn [andb] in Hok.
  rewrite Eu in *. inversion Hok as [|x y Hok1 Hok2]; subst.
  cbn [f_run]. set (msg := slice m pos (pos + up4 l)) in *.
  rewrite (fld_slice m pos (up4 l) 4 2), (fld_slice m pos (up4 l) 6 2), (fld_slice m pos (up4 l) 8 4), (fld_slice m pos (up4 l) 12 4) by lia.
  fold msg. unfold f_msg. cbv zeta.
  assert (E0 : fld 0 4 msg = l).
  { unfold fld, msg. rewrite firstn_skipn_slice by lia. rewrite <- El. do 2 f_equal; lia. }
  destruct (negb (fld 12 4 msg =? 0) && negb (portid =? 0) && negb (fld 12 4 msg =? portid)); [reflexivity|].
  destruct (negb (fld 8 4 msg =? 0) && negb (seq =? 0) && negb (fld 8 4 msg =? seq)); [reflexivity|].
  destruct (Z.testbit (fld 6 2 msg) 4); [reflexivity|].
  assert (Next : forall r st', cb_run m seq portid cb f (pos + align32 l) (s32 (n - align32 l)) r st' =
     Some (f_run seq portid g (msgs f (n - up4 l) (skipn (Z.to_nat (up4 l)) (skipn (Z.to_nat pos) m))) r st')).
  { intros r st'. rewrite align32_up4 by (change (2 ^ 31) with 2147483648; lia).
    assert (En : s32 (n - up4 l) = n - up4 l).
    { destruct (Z_le_gt_dec 0 (n - up4 l)).
      - apply s32_small. change (2 ^ 31) with 2147483648. lia.
      - rewrite <- (s32_id (n - up4 l)) at 2 by (change (2 ^ 31) with 2147483648; lia). unfold s32. rewrite Z.mod_mod by lia. reflexivity. }
    rewrite En. rewrite skipn_skipn_Z in * by lia.
    assert (U2 : up4 (n - up4 l) = up4 n - up4 l).
    { replace n with (up4 l + (n - up4 l)) at 2 by lia. rewrite (up4_add (up4 l)) by apply up4_mult. lia. }
    apply IH; try lia.
    - apply Hs2. lia.
    - exact Hok2. }
  destruct (Z.leb_spec 16 (fld 4 2 msg)) as [Ht|Ht].
  - destruct cb as [c|], g as [h|]; try contradiction.
    + rewrite (Hcb pos l st) by (try lia; try (rewrite (rd_le_slice m pos 4) by lia; rewrite El; reflexivity); exact Hok1).
      fold msg. destruct (h msg st) as [r st']. cbn [andb fst snd]. destruct (r <=? CB_STOP); [reflexivity|]. apply Next.
    + cbn [andb]. apply Next.
  - destruct ((1 <=? fld 4 2 msg) && (fld 4 2 msg <=? 4)) eqn:Ec.
    + assert (Ectl : run_ctl m pos (fld 4 2 msg) (fld 6 2 msg) l st = Some (f_ctl msg st)).
      { unfold run_ctl, f_ctl. cbv zeta. rewrite E0. unfold s32_at.
        destruct (fld 4 2 msg =? 2).
        - destruct (Z.ltb_spec l 36); [reflexivity|]. rewrite (fld_slice m pos (up4 l) 16 4) by lia. reflexivity.
        - destruct (fld 4 2 msg =? 3); [|reflexivity].
          destruct (Z.testbit (fld 6 2 msg) 1 && (l =? 20)) eqn:E20; [|reflexivity].
          apply andb_true_iff in E20 as [_ E20]. apply Z.eqb_eq in E20.
          rewrite (fld_slice m pos (up4 l) 16 4) by lia. reflexivity. }
      rewrite Ectl. destruct (f_ctl msg st) as [r st']. cbn [andb fst snd]. destruct (r <=? CB_STOP); [reflexivity|]. apply Next.
    + cbn [andb]. apply Next.
Qed.
