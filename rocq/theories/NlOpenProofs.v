(** Receiving with any callback, and the family lookup. *)
From Coq Require Import ZArith List Bool Lia.
From Verif Require Import Base Types Encoding NlSpec NlGetSpec Nl NlSet NlGet NlProofs NlSetProofs4 NlGetProofs NlRun NlGetProofs2 NlGetProofs3 NlOpen NlOpenSpec.
Import ListNotations.
Open Scope Z_scope.

(** The loop over attributes, when its state stands for another one. *)
Lemma attr_loop_sim : forall A B m (cb : Z -> A -> option (Z * A)) (f : Z -> list Z -> B -> Z * B) (R : A -> B -> Prop) stop,
  Forall is_byte m -> len m < 2 ^ 30 -> stop <= len m ->
  (forall pos t p s x, in_attr m stop pos t p -> 0 <= t < 2 ^ 14 -> R s x -> exists s', cb pos s = Some (fst (f t p x), s') /\ R s' (snd (f t p x))) ->
  forall fuel pos ret s x, 0 <= pos <= stop + 4 -> (Z.to_nat (stop + 4 - pos) < fuel)%nat -> R s x ->
  exists s', attr_loop m cb fuel pos stop ret s = Some (fst (fold_attrs f (attrs (slice m pos stop)) ret x), s')
    /\ R s' (snd (fold_attrs f (attrs (slice m pos stop)) ret x)).
Proof.
  intros A B m cb f R stop Hb Hl Hs Hcb. induction fuel as [|fu IH]; intros pos ret s x Hp Hf HR; [lia|].
  cbn [attr_loop]. rewrite attrs_region by lia. unfold attr_ok.
  pose proof (len_nonneg m) as Lm0.
  assert (Es : s32 (stop - pos) = stop - pos).
  { change (2 ^ 30) with 1073741824 in Hl. destruct (Z_le_gt_dec 0 (stop - pos)).
    - apply s32_small. change (2 ^ 31) with 2147483648. lia.
    - rewrite <- (s32_id (stop - pos)) at 2 by (change (2 ^ 31) with 2147483648; lia).
      unfold s32. rewrite Z.mod_mod by lia. reflexivity. }
  rewrite Es. destruct (Z.leb_spec 4 (stop - pos)) as [H4|H4]; [|exists s; split; [reflexivity|exact HR]].
  rewrite (rd_le_slice m pos 2) by lia. cbv zeta in *. set (l := le_val (slice m pos (pos + 2))) in *.
  assert (Hlb : 0 <= l < 65536).
  { pose proof (le_val_bound _ (Forall_slice _ m pos (pos + 2) Hb)) as B0. rewrite len_slice in B0 by lia.
    replace (pos + 2 - pos) with 2 in B0 by lia. exact B0. }
  destruct ((4 <=? l) && (l <=? stop - pos)) eqn:C; [|exists s; split; [reflexivity|exact HR]].
  apply andb_true_iff in C as [C1 C2]. apply Z.leb_le in C1. apply Z.leb_le in C2.
  set (t := le_val (slice m (pos + 2) (pos + 4)) mod 2 ^ 14) in *. set (p := slice m (pos + 4) (pos + l)) in *.
  assert (Hia : in_attr m stop pos t p).
  { exists l. repeat split; try lia.
    - unfold attr_type. rewrite (rd_le_slice m (pos + 2) 2) by lia. replace (pos + 2 + 2) with (pos + 4) by lia.
      change 16383 with (Z.ones 14). rewrite Z.land_ones by lia. reflexivity.
    - unfold attr_plen. rewrite (rd_le_slice m pos 2) by lia. fold l. unfold u16. rewrite Z.mod_small by lia. reflexivity. }
  destruct (Hcb pos t p s x Hia ltac:(unfold t; apply Z.mod_pos_bound; lia) HR) as (s' & E & HR'). rewrite E. cbn [fold_attrs]. destruct (f t p x) as [r x']. cbn [fst snd] in *.
  destruct (r <=? CB_STOP); [exists s'; split; [reflexivity|exact HR']|]. rewrite align_up4. pose proof (up4_range l).
  apply IH; [lia|lia|exact HR'].
Qed.

(** The family lookup's callback on the attributes: errno and the payload of attribute 1. *)
Definition f_family (cmax : Z) (t : Z) (p : list Z) (x : Z * option (list Z)) : Z * (Z * option (list Z)) :=
  let '(errno, o) := x in
  if cmax <? t then (CB_ERROR, (EOPNOTSUPP, o))
  else if t =? 1 then if len p =? 2 then (CB_OK, (errno, Some p)) else (CB_ERROR, (ERANGE, o))
  else (CB_OK, (errno, o)).
Definition g_family (cmax : Z) (msg : list Z) (s : Z * Z) : Z * (Z * Z) :=
  let '(errno, id) := s in
  let '(_, (errno', o)) := fold_attrs (f_family cmax) (attrs (skipn 20 msg)) CB_OK (errno, None) in
  match o with None => (CB_ERROR, (errno', id)) | Some p => (CB_OK, (errno', le_val p)) end.

Lemma store_spec : forall A i (x : A) l, (i < length l)%nat -> exists l', store i x l = Some l' /\ length l' = length l
  /\ forall j d, nth j l' d = if (j =? i)%nat then x else nth j l d.
Proof.
  intros A i. induction i as [|i IH]; intros x [|y l] H; cbn [length] in H; try lia.
  - exists (x :: l). repeat split. intros [|j] d; reflexivity.
  - destruct (IH x l ltac:(lia)) as (l' & E & L & N). cbn [store]. rewrite E. exists (y :: l'). split; [reflexivity|]. split; [cbn; congruence|].
    intros [|j] d; [reflexivity|]. cbn [nth]. rewrite N. reflexivity.
Qed.

Definition fam_rel (cmax : Z) (m : list Z) (s : Z * list (option Z)) (x : Z * option (list Z)) : Prop :=
  fst s = fst x /\ length (snd s) = Z.to_nat (cmax + 1)
  /\ match nth 1 (snd s) None, snd x with
     | None, None => True
     | Some pos, Some p => len p = 2 /\ rd_le m (payload pos) 2 = Some (le_val p)
     | _, _ => False
     end.

Lemma family_cb_f : forall cmax m nlh l s, 1 <= cmax -> Forall is_byte m -> len m < 2 ^ 30 -> 0 <= nlh -> rd_le m nlh 4 = Some l -> 16 <= l < 2 ^ 31 ->
  nlh + up4 l <= len m ->
  get_family_id_cb cmax m nlh s = Some (g_family cmax (slice m nlh (nlh + up4 l)) s).
Proof.
  intros cmax m nlh l [errno id] Hc Hb Hl Hn Hr H16 Hs. unfold get_family_id_cb, g_family, attr_parse. rewrite Hr, align32_up4 by lia. change (align 4) with 4.
  replace (nlh + 16 + 4) with (nlh + 20) by lia. pose proof (up4_range l).
  assert (E20 : skipn 20 (slice m nlh (nlh + up4 l)) = slice m (nlh + 20) (nlh + up4 l)).
  { change 20%nat with (Z.to_nat 20). apply skipn_slice; lia. }
  rewrite E20.
  destruct (attr_loop_sim _ _ m (get_family_id_attr_cb cmax m) (f_family cmax) (fam_rel cmax m) (nlh + up4 l) Hb Hl Hs) with (fuel := S (length m))
    (pos := nlh + 20) (ret := CB_OK) (s := (errno, repeat (@None Z) (Z.to_nat (cmax + 1)))) (x := (errno, @None (list Z))) as (s' & E & HR).
  - intros pos t p [e tb] [e' o] Hia Ht (R1 & R2 & R3). cbn [fst snd] in *. subst e'. unfold get_family_id_attr_cb, f_family.
    destruct (payload_len _ _ _ _ _ Hia) as [Ep Et]. rewrite Ep, Et.
    destruct (Z.ltb_spec cmax t) as [Hlt|Hge].
    { eexists. split; [reflexivity|]. repeat split; assumption. }
    destruct (store_spec _ (Z.to_nat t) (Some pos) tb ltac:(lia)) as (tb' & Es & Ls & Ns).
    destruct (Z.eqb_spec t 1) as [->|Ht1].
    + unfold validate_len. destruct (Z.eqb_spec (len p) 2) as [E2|E2].
      * rewrite Es. eexists. split; [reflexivity|]. split; [reflexivity|]. split; [cbn; congruence|]. cbn [fst snd]. rewrite Ns. change ((1 =? Z.to_nat 1)%nat) with true. cbv iota.
        split; [exact E2|]. erewrite rd_le_payload_all by eassumption. reflexivity.
      * eexists. split; [reflexivity|]. repeat split; assumption.
    + rewrite Es. eexists. split; [reflexivity|]. split; [reflexivity|]. split; [cbn; congruence|]. cbn [fst snd]. rewrite Ns.
      destruct (Nat.eqb_spec 1 (Z.to_nat t)); [lia|]. exact R3.
  - lia.
  - unfold len in *. lia.
  - split; [reflexivity|]. split; [apply repeat_length|]. cbn [fst snd]. rewrite nth_repeat. exact I.
  - rewrite E. destruct (fold_attrs (f_family cmax) (attrs (slice m (nlh + 20) (nlh + up4 l))) CB_OK (errno, None)) as [r [e' o]]. cbn [fst snd] in *.
    destruct s' as [e tb]. destruct HR as (R1 & R2 & R3). cbn [fst snd] in *. subst e'. destruct (nth 1 tb None) as [pos|], o as [p|]; try contradiction; [|reflexivity].
    destruct R3 as [_ ->]. reflexivity.
Qed.

(** Receiving datagrams, for any callback that acts on messages. *)
Section recv.
  Context {A : Type} (seq portid : Z) (cb : list Z -> Z -> Z * A -> option (Z * (Z * A))) (g : list Z -> Z * A -> Z * (Z * A)).
  Hypothesis Hcb : forall m nlh l s, Forall is_byte m -> len m < 2 ^ 30 -> 0 <= nlh -> rd_le m nlh 4 = Some l -> 16 <= l < 2 ^ 31 ->
    nlh + up4 l <= len m -> cb m nlh s = Some (g (slice m nlh (nlh + up4 l)) s).

  Lemma recv_any : forall buf d rs st, Forall is_byte buf -> Forall is_byte d -> len buf < 2 ^ 30 -> (4 | len buf) -> 0 < len d <= len buf ->
    let m := overwrite buf d in
    sane (S (length m)) (len d) m ->
    recv_run seq portid (Some cb) buf (Dgram d :: rs) st =
    let '(r, st') := f_run seq portid (Some g) (msgs (S (length m)) (len d) m) CB_OK st in
    if r <=? 0 then Some (r, st', m, rs) else recv_run seq portid (Some cb) m rs st'.
  Proof.
    intros buf d rs st Hb Hbd Hl H4 Hd m Hs.
    assert (Er : recv_run seq portid (Some cb) buf (Dgram d :: rs) st =
      match cb_run m seq portid (Some (cb m)) (S (length m)) 0 (len d) CB_OK st with
      | None => None
      | Some (r, st') => if r <=? 0 then Some (r, st', m, rs) else recv_run seq portid (Some cb) m rs st'
      end).
    { cbn [recv_run]. fold m. destruct d as [|d0 d1]; [rewrite len_nil in Hd; lia|reflexivity]. }
    rewrite Er. clear Er. pose proof (len_nonneg buf).
    assert (Lm : len m = len buf) by (apply overwrite_len; lia).
    assert (Hm : Forall is_byte m).
    { unfold m, overwrite. apply Forall_app. split; [exact Hbd|apply skipn_bytes, Hb]. }
    rewrite (cb_run_f _ m seq portid (Some (cb m)) (Some g) (fun _ => True) Hm); [| | |lia|lia|lia| | | |apply Forall_true].
    - cbn [Z.to_nat skipn]. destruct (f_run seq portid (Some g) (msgs (S (length m)) (len d) m) CB_OK st) as [r st']. reflexivity.
    - rewrite Lm. exact Hl.
    - intros. apply Hcb; try assumption. rewrite Lm. exact Hl.
    - rewrite Z.add_0_l, Lm. rewrite <- (up4_id (len buf) H4). apply up4_le. lia.
    - unfold len in *. lia.
    - cbn [Z.to_nat skipn]. exact Hs.
  Qed.

  (** Message by message, across datagrams. *)
  Fixpoint f_steps (ms : list (list Z)) (st : Z * A) : (Z * (Z * A)) + (Z * A) :=
    match ms with
    | [] => inr st
    | m :: ms' => match f_msg seq portid (Some g) m CB_OK st with inl r => inl r | inr r => f_steps ms' (snd r) end
    end.

  Lemma f_msg_ret : forall m ret st, 0 < ret ->
    match f_msg seq portid (Some g) m ret st, f_msg seq portid (Some g) m CB_OK st with
    | inl a, inl b => a = b /\ fst a <= 0
    | inr a, inr b => snd a = snd b /\ 0 < fst a
    | _, _ => False
    end.
  Proof.
    intros m ret st Hr. unfold f_msg. cbv zeta.
    destruct (negb (fld 12 4 m =? 0) && negb (portid =? 0) && negb (fld 12 4 m =? portid)); [split; [reflexivity|unfold CB_ERROR; cbn; lia]|].
    destruct (negb (fld 8 4 m =? 0) && negb (seq =? 0) && negb (fld 8 4 m =? seq)); [split; [reflexivity|unfold CB_ERROR; cbn; lia]|].
    destruct (Z.testbit (fld 6 2 m) 4); [split; [reflexivity|unfold CB_ERROR; cbn; lia]|].
    destruct (16 <=? fld 4 2 m).
    - destruct (g m st) as [r st']. cbn [fst snd]. unfold CB_STOP. destruct (Z.leb_spec r 0); split; cbn [fst snd]; auto; lia.
    - destruct ((1 <=? fld 4 2 m) && (fld 4 2 m <=? 4)).
      + destruct (f_ctl m st) as [r st']. cbn [fst snd]. unfold CB_STOP. destruct (Z.leb_spec r 0); split; cbn [fst snd]; auto; lia.
      + split; [reflexivity|exact Hr].
  Qed.

  Lemma f_run_steps : forall ms rest ret st, 0 < ret ->
    match f_steps ms st with
    | inl r => f_run seq portid (Some g) (ms ++ rest) ret st = r /\ fst r <= 0
    | inr st' => exists ret', 0 < ret' /\ f_run seq portid (Some g) (ms ++ rest) ret st = f_run seq portid (Some g) rest ret' st'
    end.
  Proof.
    induction ms as [|m ms IH]; intros rest ret st Hr; [exists ret; split; [exact Hr|reflexivity]|].
    cbn [f_steps app f_run]. pose proof (f_msg_ret m ret st Hr) as F.
    destruct (f_msg seq portid (Some g) m ret st) as [a|a], (f_msg seq portid (Some g) m CB_OK st) as [b|b]; try contradiction.
    - destruct F as [-> F]. split; [reflexivity|exact F].
    - destruct F as [E F]. rewrite E. apply IH. exact F.
  Qed.

  Lemma recv_messages : forall gs more buf st r, f_steps (concat gs) st = inl r -> Forall message (concat gs) -> Forall (fun x => x <> []) gs ->
    Forall is_byte buf -> len buf < 2 ^ 30 -> (4 | len buf) -> Forall (fun x => len (concat x) <= len buf) gs ->
    exists buf' g1 g2, gs = g1 ++ g2 /\ f_steps (concat g1) st = inl r
      /\ recv_run seq portid (Some cb) buf (map (fun x => Dgram (concat x)) gs ++ more) st = Some (fst r, snd r, buf', map (fun x => Dgram (concat x)) g2 ++ more)
      /\ len buf' = len buf /\ Forall is_byte buf'.
  Proof.
    induction gs as [|x gs IH]; intros more buf st r Hr Hm Hne Hb Hl H4 Hfit; [discriminate|].
    cbn [map concat app] in *. inversion Hne as [|? ? Hg Hgs]; subst. inversion Hfit as [|? ? Hf1 Hf2]; subst.
    apply Forall_app in Hm as [Hmg Hmgs].
    assert (Hgb : Forall is_byte (concat x)).
    { clear - Hmg. induction Hmg as [|m g' Hm Hg IHg]; [constructor|]. cbn [concat]. apply Forall_app. split; [apply Hm|exact IHg]. }
    assert (Hgp : 0 < len (concat x)).
    { destruct x as [|m x]; [congruence|]. inversion Hmg as [|? ? (_ & Hlm & _) _]; subst. cbn [concat]. rewrite len_app. pose proof (len_nonneg (concat x)). lia. }
    set (M := overwrite buf (concat x)).
    assert (LM : len M = len buf) by (apply overwrite_len; lia).
    assert (BM : Forall is_byte M) by (unfold M, overwrite; apply Forall_app; split; [exact Hgb|apply skipn_bytes, Hb]).
    destruct (msgs_concat x (skipn (length (concat x)) buf) Hmg (S (length M))) as [Em Es].
    { unfold len in *. lia. }
    assert (EM : M = concat x ++ skipn (length (concat x)) buf) by reflexivity.
    rewrite <- EM in *. rewrite recv_any; try assumption; try lia. fold M. rewrite Em.
    assert (Hsteps : forall a b st, f_steps (a ++ b) st = match f_steps a st with inl r => inl r | inr st' => f_steps b st' end).
    { induction a as [|y a IHa]; intros b s0; [reflexivity|]. cbn [app f_steps]. destruct (f_msg seq portid (Some g) y CB_OK s0); [reflexivity|apply IHa]. }
    rewrite Hsteps in Hr. pose proof (f_run_steps x [] CB_OK st ltac:(reflexivity)) as F. rewrite app_nil_r in F.
    destruct (f_steps x st) as [r1|st1] eqn:E1.
    - destruct F as [-> F]. injection Hr as <-. destruct r1 as [r1 st1]. cbn [fst snd] in *. destruct (Z.leb_spec r1 0); [|lia].
      exists M, [x], gs. split; [reflexivity|]. split; [cbn [concat]; rewrite app_nil_r; exact E1|]. split; [reflexivity|]. split; [exact LM|exact BM].
    - destruct F as (ret' & F1 & F2). rewrite F2. cbn [f_run]. destruct (Z.leb_spec ret' 0); [lia|].
      destruct (IH more M st1 r Hr Hmgs Hgs BM ltac:(lia) ltac:(rewrite LM; exact H4) ltac:(rewrite LM; exact Hf2)) as (b' & g1 & g2 & -> & E0 & E & L & B').
      exists b', (x :: g1), g2. split; [reflexivity|]. split; [cbn [concat]; rewrite Hsteps, E1; exact E0|]. split; [exact E|]. split; [lia|exact B'].
  Qed.
End recv.

(** Datagrams of messages none of which ends the run: the call waits. *)
Lemma recv_blocks : forall A seq portid cb (g : list Z -> Z * A -> Z * (Z * A)),
  (forall m nlh l s, Forall is_byte m -> len m < 2 ^ 30 -> 0 <= nlh -> rd_le m nlh 4 = Some l -> 16 <= l < 2 ^ 31 ->
    nlh + up4 l <= len m -> cb m nlh s = Some (g (slice m nlh (nlh + up4 l)) s)) ->
  forall gs buf st st', f_steps seq portid g (concat gs) st = inr st' -> Forall message (concat gs) -> Forall (fun x => x <> []) gs ->
  Forall is_byte buf -> len buf < 2 ^ 30 -> (4 | len buf) -> Forall (fun x => len (concat x) <= len buf) gs ->
  recv_run seq portid (Some cb) buf (map (fun x => Dgram (concat x)) gs) st = None.
Proof.
  intros A seq portid cb g Hcb. induction gs as [|x gs IH]; intros buf st st' Hr Hm Hne Hb Hl H4 Hfit; [reflexivity|].
  cbn [map concat app] in *. inversion Hne as [|? ? Hg Hgs]; subst. inversion Hfit as [|? ? Hf1 Hf2]; subst.
  apply Forall_app in Hm as [Hmg Hmgs].
  assert (Hgb : Forall is_byte (concat x)).
  { clear - Hmg. induction Hmg as [|m g' Hm Hg IHg]; [constructor|]. cbn [concat]. apply Forall_app. split; [apply Hm|exact IHg]. }
  assert (Hgp : 0 < len (concat x)).
  { destruct x as [|m x]; [congruence|]. inversion Hmg as [|? ? (_ & Hlm & _) _]; subst. cbn [concat]. rewrite len_app. pose proof (len_nonneg (concat x)). lia. }
  set (M := overwrite buf (concat x)).
  assert (LM : len M = len buf) by (apply overwrite_len; lia).
  assert (BM : Forall is_byte M) by (unfold M, overwrite; apply Forall_app; split; [exact Hgb|apply skipn_bytes, Hb]).
  destruct (msgs_concat x (skipn (length (concat x)) buf) Hmg (S (length M))) as [Em Es].
  { unfold len in *. lia. }
  assert (EM : M = concat x ++ skipn (length (concat x)) buf) by reflexivity.
  rewrite <- EM in *. rewrite (recv_any seq portid cb g Hcb); try assumption; try lia. fold M. rewrite Em.
  assert (Hsteps : forall a b st, f_steps seq portid g (a ++ b) st = match f_steps seq portid g a st with inl r => inl r | inr st' => f_steps seq portid g b st' end).
  { induction a as [|y a IHa]; intros b s0; [reflexivity|]. cbn [app f_steps]. destruct (f_msg seq portid (Some g) y CB_OK s0); [reflexivity|apply IHa]. }
  rewrite Hsteps in Hr. pose proof (f_run_steps seq portid cb g Hcb x [] CB_OK st ltac:(reflexivity)) as F. rewrite app_nil_r in F.
  destruct (f_steps seq portid g x st) as [r1|st1] eqn:E1; [discriminate|].
  destruct F as (ret' & F1 & F2). rewrite F2. cbn [f_run]. destruct (Z.leb_spec ret' 0); [lia|].
  apply (IH M st1 st' Hr Hmgs Hgs BM ltac:(lia) ltac:(rewrite LM; exact H4) ltac:(rewrite LM; exact Hf2)).
Qed.

(** errno never becomes negative while receiving. *)
Definition nonneg_cb {A} (cb : list Z -> Z -> Z * A -> option (Z * (Z * A))) : Prop :=
  forall m pos s r s', 0 <= fst s -> cb m pos s = Some (r, s') -> 0 <= fst s'.
Lemma ctl_errno_nonneg : forall e, 0 <= ctl_errno e.
Proof. intro e. unfold ctl_errno. destruct (Z.ltb_spec e 0); lia. Qed.
Lemma run_ctl_nonneg : forall A m nlh type flags l (st : Z * A) r st', 0 <= fst st -> run_ctl m nlh type flags l st = Some (r, st') -> 0 <= fst st'.
Proof.
  intros A m nlh type flags l st r st' H E. unfold run_ctl in E. unfold EBADMSG in E.
  repeat match type of E with
    | (if ?c then _ else _) = _ => destruct c
    | match ?x with Some _ => _ | None => _ end = _ => destruct x; [|discriminate]
    end; injection E as <- <-; cbn [fst]; try assumption; try apply ctl_errno_nonneg; lia.
Qed.
Lemma cb_run_nonneg : forall A m seq portid (cb : option (Z -> Z * A -> option (Z * (Z * A)))),
  (match cb with Some c => forall pos s r s', 0 <= fst s -> c pos s = Some (r, s') -> 0 <= fst s' | None => True end) ->
  forall fuel pos n ret st r st', 0 <= fst st -> cb_run m seq portid cb fuel pos n ret st = Some (r, st') -> 0 <= fst st'.
Proof.
  intros A m seq portid cb Hcb. induction fuel as [|f IH]; intros pos n ret st r st' H E; [discriminate|]. cbn [cb_run] in E.
  destruct (nlmsg_ok m pos n) as [[]|]; [|injection E as <- <-; exact H|discriminate].
  destruct (rd_le m pos 4) as [l|]; [|discriminate]. destruct (rd_le m (pos + 4) 2) as [type|]; [|discriminate]. destruct (rd_le m (pos + 6) 2) as [flags|]; [|discriminate].
  destruct (rd_le m (pos + 8) 4) as [mseq|]; [|discriminate]. destruct (rd_le m (pos + 12) 4) as [mpid|]; [|discriminate].
  match type of E with (if ?c then _ else _) = _ => destruct c end; [injection E as <- <-; cbn; unfold ESRCH; lia|].
  match type of E with (if ?c then _ else _) = _ => destruct c end; [injection E as <- <-; cbn; unfold EPROTO; lia|].
  match type of E with (if ?c then _ else _) = _ => destruct c end; [injection E as <- <-; cbn; unfold EINTR; lia|].
  match type of E with match ?x with Some _ => _ | None => _ end = _ => destruct x as [[r1 st1]|] eqn:E1; [|discriminate] end.
  assert (H1 : 0 <= fst st1).
  { destruct (16 <=? type).
    - destruct cb as [c|]; [exact (Hcb _ _ _ _ H E1)|injection E1 as <- <-; exact H].
    - destruct ((1 <=? type) && (type <=? 4)); [exact (run_ctl_nonneg _ _ _ _ _ _ _ _ _ H E1)|injection E1 as <- <-; exact H]. }
  match type of E with (if ?c then _ else _) = _ => destruct c end; [injection E as <- <-; exact H1|exact (IH _ _ _ _ _ _ H1 E)].
Qed.
Lemma recv_run_nonneg : forall A seq portid (cb : list Z -> Z -> Z * A -> option (Z * (Z * A))), nonneg_cb cb ->
  forall rs buf st r st' b' rs', Forall (fun r => match r with RecvErr e => 0 < e | _ => True end) rs -> 0 <= fst st ->
  recv_run seq portid (Some cb) buf rs st = Some (r, st', b', rs') -> 0 <= fst st'.
Proof.
  intros A seq portid cb Hcb. induction rs as [|x rs IH]; intros buf st r st' b' rs' Hp H E; [discriminate|].
  inversion Hp as [|? ? Hx Hrs]; subst. cbn [recv_run] in E. destruct x as [d|e].
  - destruct d as [|c d]; [injection E as <- <- <- <-; exact H|].
    match type of E with match ?x with Some _ => _ | None => _ end = _ => destruct x as [[r1 st1]|] eqn:E1; [|discriminate] end.
    assert (H1 : 0 <= fst st1) by (eapply cb_run_nonneg; [|exact H|exact E1]; cbn beta iota; intros; eapply Hcb; eassumption).
    destruct (r1 <=? 0); [injection E as <- <- <- <-; exact H1|]. exact (IH _ _ _ _ _ _ Hrs H1 E).
  - injection E as <- <- <- <-. cbn. lia.
Qed.
Lemma attr_loop_inv : forall A (P : A -> Prop) m cb, (forall pos s r s', P s -> cb pos s = Some (r, s') -> P s') ->
  forall fuel pos stop ret s r s', P s -> attr_loop m cb fuel pos stop ret s = Some (r, s') -> P s'.
Proof.
  intros A P m cb Hcb. induction fuel as [|f IH]; intros pos stop ret s r s' H E; [discriminate|]. cbn [attr_loop] in E.
  destruct (attr_ok m pos (s32 (stop - pos))) as [[]|]; [|injection E as <- <-; exact H|discriminate].
  destruct (cb pos s) as [[r1 s1]|] eqn:E1; [|discriminate]. pose proof (Hcb _ _ _ _ H E1) as H1.
  destruct (r1 <=? CB_STOP); [injection E as <- <-; exact H1|]. destruct (rd_le m pos 2); [|discriminate]. exact (IH _ _ _ _ _ _ H1 E).
Qed.
Lemma family_nonneg : forall cmax, nonneg_cb (get_family_id_cb cmax).
Proof.
  intros cmax m pos [e id] r s' H E. unfold get_family_id_cb, attr_parse in E. destruct (rd_le m pos 4) as [l|]; [|discriminate].
  match type of E with match ?x with Some _ => _ | None => _ end = _ => destruct x as [[r1 [e1 tb]]|] eqn:E1; [|discriminate] end.
  assert (H1 : 0 <= fst (e1, tb)).
  { revert E1. apply (attr_loop_inv _ (fun s => 0 <= fst s)); [|exact H]. clear. intros pos [e tb] r s' H E. unfold get_family_id_attr_cb in E.
    destruct (attr_type m pos) as [t|]; [|discriminate]. destruct (attr_plen m pos) as [n|]; [|discriminate].
    destruct (cmax <? t); [injection E as <- <-; cbn; unfold EOPNOTSUPP; lia|]. unfold validate_len, ERANGE in E. cbn [fst] in H.
    destruct (t =? 1); [destruct (n =? 2)|]; cbv iota in E; try (destruct (store _ _ _); [|discriminate]); injection E as <- <-; cbn [fst]; try assumption; lia. }
  cbn [fst] in H1. destruct (nth 1 tb None); [destruct (rd_le _ _ 2); [|discriminate]|]; injection E as <- <-; exact H1.
Qed.

(** The request. *)
Lemma request_built : forall B seq name b1 b2, 0 <= B < 65532 -> 0 <= seq < 2 ^ 32 -> Forall is_byte name -> msg_prepare B 16 5 seq 3 1 = Some b1 -> attr_put_strz B b1 2 name = Some b2 ->
  lookup_request seq name (finish b2) /\ len (finish b2) <= B.
Proof.
  intros B seq name b1 b2 HB Hs Hn H1 H2. unfold msg_prepare, append in H1.
  match type of H1 with (if ?c then _ else _) = _ => destruct c; [|discriminate] end.
  set (h := le 4 20 ++ le 2 16 ++ le 2 5 ++ le 4 seq ++ le 4 0 ++ [3; 1; 0; 0]) in *. change ([] ++ h) with h in *.
  assert (Eb : b1 = h) by congruence. remember h as h0 eqn:Eh0. subst b1.
  assert (Lh : len h0 = 20) by (subst h0; unfold h; autorewrite with len; reflexivity).
  unfold attr_put_strz in H2. pose proof (len_nonneg name).
  assert (Ls : len (name ++ [0]) < 65532).
  { unfold attr_put, append in H2. match type of H2 with (if ?c then _ else _) = _ => destruct c eqn:C; [|discriminate] end.
    apply Z.leb_le in C. autorewrite with len in C. autorewrite with len. pose proof (len_nonneg h0). lia. }
  rewrite attr_put_enc in H2 by exact Ls. unfold append in H2. destruct (Z.leb_spec (len h0 + (len (enc 2 (name ++ [0])))) B) as [C|C]; [|discriminate]. assert (Eb : b2 = h0 ++ enc 2 (name ++ [0])) by congruence. subst b2.
  set (x := enc 2 (name ++ [0])) in *.
  assert (Lx : 0 <= len x) by apply len_nonneg.
  assert (Ef : finish (h0 ++ x) = le 4 (20 + len x) ++ le 2 16 ++ le 2 5 ++ le 4 seq ++ le 4 0 ++ [3; 1; 0; 0] ++ x).
  { unfold finish. rewrite len_app, Lh. subst h0. unfold h. rewrite <- !app_assoc. reflexivity. }
  rewrite Ef. split; [|autorewrite with len; lia]. unfold lookup_request.
  assert (Lf : len (le 4 (20 + len x) ++ le 2 16 ++ le 2 5 ++ le 4 seq ++ le 4 0 ++ [3; 1; 0; 0] ++ x) = 20 + len x) by (autorewrite with len; lia).
  rewrite Lf. repeat apply conj.
  - repeat (apply Forall_app; split); try apply le_bytes; try exact Hn; try (repeat constructor; lia).
    apply Forall_forall. intros y Hy. apply repeat_spec in Hy. subst. unfold is_byte. lia.
  - change 4%nat with (length (le 4 (20 + len x))) at 1. rewrite firstn_app_exact. apply le_val_le_id. change (256 ^ Z.of_nat 4) with 4294967296. lia.
  - reflexivity.
  - reflexivity.
  - unfold msg_seq. change (le_val (le 4 seq) = seq). apply le_val_le_id. exact Hs.
  - reflexivity.
  - reflexivity.
  - change (attrs x = [(2, name ++ [0])]). unfold x. rewrite attrs_enc1 by lia. reflexivity.
Qed.

Lemma msg_prepare_ok : forall B id flags seq cmd version, 20 <= B ->
  msg_prepare B id flags seq cmd version = Some (le 4 20 ++ le 2 id ++ le 2 flags ++ le 4 seq ++ le 4 0 ++ [cmd; version; 0; 0]).
Proof.
  intros. unfold msg_prepare, append. change ([] ++ ?x) with x.
  destruct (Z.leb_spec (len [] + len (le 4 20 ++ le 2 id ++ le 2 flags ++ le 4 seq ++ le 4 0 ++ [cmd; version; 0; 0])) B) as [C|C]; [reflexivity|].
  autorewrite with len in C. lia.
Qed.
Lemma attr_put_strz_ok : forall B b t s, len b + 4 + up4 (len s + 1) <= B -> B < 65532 -> attr_put_strz B b t s = Some (b ++ enc t (s ++ [0])).
Proof.
  intros B b t s H HB. unfold attr_put_strz. pose proof (up4_range (len s + 1)). pose proof (len_nonneg b).
  rewrite attr_put_enc by (autorewrite with len; lia). unfold append.
  destruct (Z.leb_spec (len b + len (enc t (s ++ [0]))) B) as [C|C]; [reflexivity|]. exfalso. rewrite len_enc in C. autorewrite with len in C. change (1 + 0) with 1 in C. lia.
Qed.

(** From the request on. *)
(** A run that ends at the last message leaves no datagram. *)
Lemma ends_at_last : forall A seq portid (g : list Z -> Z * A -> Z * (Z * A)) ms m g1 g2 st st' r, f_steps seq portid g ms st = inr st' ->
  concat g1 ++ concat g2 = ms ++ [m] -> Forall (fun x : list (list Z) => x <> []) g2 -> f_steps seq portid g (concat g1) st = inl r -> g2 = [].
Proof.
  intros A seq portid g ms m g1 g2 st st' r H1 Hc Hne H2. destruct g2 as [|x g2]; [reflexivity|]. exfalso.
  assert (Hpre : exists t, ms = concat g1 ++ t).
  { assert (E : ms = removelast (concat g1 ++ concat (x :: g2))) by (rewrite Hc, removelast_last; reflexivity).
    inversion Hne as [|? ? Hx _]; subst. rewrite removelast_app; [eexists; reflexivity|]. cbn [concat]. destruct x; [congruence|discriminate]. }
  destruct Hpre as (t & ->).
  assert (Hs : forall a b st, f_steps seq portid g (a ++ b) st = match f_steps seq portid g a st with inl r => inl r | inr st' => f_steps seq portid g b st' end).
  { induction a as [|y a IHa]; intros b s0; [reflexivity|]. cbn [app f_steps]. destruct (f_msg seq portid (Some g) y CB_OK s0); [reflexivity|apply IHa]. }
  rewrite Hs, H2 in H1. discriminate.
Qed.

Definition after_send (cmax : Z) (o : os) (fd portid version : Z) (buf msg : list Z) (log : list ev) : option (option handle * Z * list ev) :=
  match os_peer o msg with
  | inl errno => Some (None, errno, log ++ [EUse fd] ++ [EDrop (RFd fd); EDrop RSock; EDrop RBuf; EDrop RHandle])
  | inr rs =>
      match recv_run (u32 (os_now o)) portid (Some (get_family_id_cb cmax)) (overwrite buf msg) rs (0, 0) with
      | None => None
      | Some (r, (errno, id), buf', rs') =>
          if r <? 0 then Some (None, if errno =? 2 then 93 else if errno =? 0 then 38 else errno,
                               log ++ [ESent fd msg; EUse fd] ++ [EDrop (RFd fd); EDrop RSock; EDrop RBuf; EDrop RHandle])
          else Some (Some (mk_handle fd id version (u32 (os_now o)) portid buf' rs'), 0, log ++ [ESent fd msg; EUse fd])
      end
  end.
Definition opening (fd : Z) : list ev := [EGot RHandle; EGot RBuf; EGot RSock; EGot (RFd fd); EUse fd; EUse fd].
Lemma open_runs : forall cmax o name version fd portid buf, opens o fd portid buf -> len buf <= 8192 -> up4 (len name + 1) + 24 <= len buf -> Forall is_byte name ->
  exists msg, lookup_request (u32 (os_now o)) name msg /\ len msg <= len buf
    /\ mnlg_socket_open cmax o name version = after_send cmax o fd portid version buf msg (opening fd).
Proof.
  intros cmax o name version fd portid buf (H1 & H2 & H3 & H4 & H5 & H6) Hl Hfit Hn.
  pose proof (len_nonneg name). pose proof (up4_range (len name + 1)).
  pose proof (msg_prepare_ok (len buf) 16 5 (u32 (os_now o)) 3 1 ltac:(lia)) as E1. remember (le 4 20 ++ _) as b1 eqn:Eb1 in E1.
  assert (L1 : len b1 = 20) by (subst b1; autorewrite with len; reflexivity).
  pose proof (attr_put_strz_ok (len buf) b1 2 name ltac:(lia) ltac:(lia)) as E2. remember (b1 ++ _) as b2 eqn:Eb2 in E2.
  assert (Hu : 0 <= u32 (os_now o) < 2 ^ 32) by (unfold u32; apply Z.mod_pos_bound; lia).
  destruct (request_built (len buf) (u32 (os_now o)) name b1 b2 ltac:(lia) Hu Hn E1 E2) as [R L]. exists (finish b2). split; [exact R|]. split; [exact L|].
  unfold mnlg_socket_open, mnl_socket_open, mnl_socket_bind. rewrite H1, H2, H3, H4, H5, H6. cbn [negb Z.eqb Pos.eqb]. unfold AF_NETLINK. cbn [negb Z.eqb Pos.eqb].
  rewrite E1, E2. unfold after_send. generalize (finish b2). intro msg. destruct (os_peer o msg) as [e|rs].
  - unfold err_mnl_socket_bind, mnl_socket_close, err_mnl_socket_open, err_buf_alloc. rewrite Z.opp_involutive. reflexivity.
  - destruct (recv_run _ _ _ _ rs (0, 0)) as [[[[q [e id]] b'] rs']|]; [|reflexivity]. destruct (q <? 0); [|reflexivity].
    unfold err_mnl_socket_bind, mnl_socket_close, err_mnl_socket_open, err_buf_alloc, ENOENT, EPROTONOSUPPORT, ENOSYS.
    do 3 f_equal. destruct (Z.eqb_spec e 2); [reflexivity|]. destruct (Z.eqb_spec e 0); lia.
Qed.

(** What the messages do. *)
Lemma fold_family : forall cmax before p after e, Forall (fun a => fst a <= cmax) before -> ~ In 1 (map fst before) -> ~ In 1 (map fst after) -> 1 <= cmax -> len p = 2 ->
  exists r e', fold_attrs (f_family cmax) (before ++ (1, p) :: after) CB_OK (e, None) = (r, (e', Some p)).
Proof.
  intros cmax before p after e Hb Hn1 Hn2 Hc Hp.
  assert (A : forall l, ~ In 1 (map fst l) -> forall r e o, exists r' e', fold_attrs (f_family cmax) l r (e, o) = (r', (e', o))).
  { induction l as [|[t q] l IH]; intros Hn r0 e0 o; [do 2 eexists; reflexivity|]. cbn [map fst In] in Hn. cbn [fold_attrs f_family].
    destruct (cmax <? t); [do 2 eexists; reflexivity|]. destruct (Z.eqb_spec t 1); [tauto|]. change (CB_OK <=? CB_STOP) with false. cbv iota. apply IH. tauto. }
  assert (B : forall l, Forall (fun a => fst a <= cmax) l -> ~ In 1 (map fst l) -> forall r o rest, 0 < r -> exists r', 0 < r' /\
     fold_attrs (f_family cmax) (l ++ rest) r (e, o) = fold_attrs (f_family cmax) rest r' (e, o)).
  { induction l as [|[t q] l IH]; intros Hf Hn r0 o rest Hr; [exists r0; split; [exact Hr|reflexivity]|]. inversion Hf as [|? ? Hx Hl]; subst. cbn [map fst In] in *. cbn [app fold_attrs f_family].
    destruct (Z.ltb_spec cmax t); [lia|]. destruct (Z.eqb_spec t 1); [tauto|]. change (CB_OK <=? CB_STOP) with false. cbv iota. apply IH; [exact Hl|tauto|reflexivity]. }
  destruct (B before Hb Hn1 CB_OK None ((1, p) :: after) ltac:(reflexivity)) as (r & Hr & E). rewrite E. cbn [fold_attrs f_family].
  destruct (Z.ltb_spec cmax 1); [lia|]. rewrite Hp. cbn [Z.eqb Pos.eqb]. change (CB_OK <=? CB_STOP) with false. cbv iota.
  destruct (A after Hn2 CB_OK e (Some p)) as (r' & e' & E2). eauto.
Qed.

Lemma family_step : forall cmax seq portid id m e id0 ret, 1 <= cmax -> family_answer cmax seq portid id m ->
  exists e', f_msg seq portid (Some (g_family cmax)) m ret (e, id0) = inr (CB_OK, (e', id)).
Proof.
  intros cmax seq portid id m e id0 ret Hc (Ha & Ht & Hl & before & p & after & Ea & Ho & Hb & Hp & Hid).
  rewrite (answer_msg _ seq portid (Some (g_family cmax)) m ret (e, id0) Ha).
  assert (Ho2 := Ho). rewrite Ea in Ho2. unfold once in Ho2. rewrite map_app in Ho2. cbn [map fst] in Ho2. apply NoDup_remove in Ho2 as [_ Ho2].
  destruct (fold_family cmax before p after e Hb) as (r & e' & E); try assumption.
  { intro H. apply Ho2, in_or_app. left. exact H. }
  { intro H. apply Ho2, in_or_app. right. exact H. }
  rewrite <- Ea in E. exists e'. unfold g_family. destruct (Z.leb_spec 16 (msg_type m)); [|lia]. rewrite E, Hid. reflexivity.
Qed.

Lemma verdict_step : forall A (g : list Z -> Z * A -> Z * (Z * A)) seq portid e m st ret, verdict_message seq portid e m ->
  f_msg seq portid (Some g) m ret st = inl (if e =? 0 then 0 else -1, (Z.abs e, snd st)).
Proof.
  intros A g seq portid e m st ret (Ha & Ht & Hl & He). rewrite (answer_msg _ seq portid (Some g) m ret st Ha). rewrite Ht. cbn [Z.leb Z.compare Pos.compare Pos.compare_cont andb].
  destruct Ha as (Hm & _). destruct (msg_fields m Hm) as (F1 & F2 & F3 & F4 & F5). unfold f_ctl. cbv zeta. rewrite F1, F5, Ht.
  cbn [Z.eqb Pos.eqb]. destruct (Z.ltb_spec (len m) 36); [lia|].
  rewrite fld_msg by lia. change (Z.to_nat 4) with 4%nat. change (Z.to_nat 16) with 16%nat.
  set (v := le_val (firstn 4 (skipn 16 m))) in *.
  assert (Hv : 0 <= v < 2 ^ 32).
  { unfold v. pose proof (le_val_bound (firstn 4 (skipn 16 m))) as B. destruct Hm as (Hb & _).
    assert (L4 : len (firstn 4 (skipn 16 m)) = 4) by (unfold len in *; rewrite firstn_length, skipn_length; lia).
    rewrite L4 in B. apply B. apply Forall_forall. intros x Hx. apply in_firstn, in_skipn in Hx. rewrite Forall_forall in Hb. exact (Hb x Hx). }
  assert (Es : s32 v = e).
  { unfold s32. rewrite Z.mod_small by lia. unfold signed32 in He. destruct (Z.ltb_spec v (2 ^ 31)), (Z.leb_spec (2 ^ 31) v); lia. }
  rewrite Es. cbn [fst snd]. unfold ctl_errno, CB_STOP, CB_ERROR. destruct (Z.eqb_spec e 0) as [->|]; [reflexivity|].
  cbn [Z.leb Z.compare]. do 3 f_equal. destruct (Z.ltb_spec e 0); lia.
Qed.
