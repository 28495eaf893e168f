(** C54: opening the netlink socket. *)
From Coq Require Import ZArith List Bool Lia.
From Verif Require Import Base Types Encoding NlSpec NlGetSpec Nl NlSet NlGet NlProofs NlSetProofs4 NlGetProofs NlRun NlGetProofs2 NlGetProofs3 NlOpen NlOpenSpec NlOpenProofs.
Import ListNotations.
Open Scope Z_scope.

(** The buffer has the size mnl_ideal_socket_buffer_size() gives, at most 8192. *)
Definition buffer_small (o : os) : Prop := match os_buf o with Some b => len b <= 8192 | None => True end.

(** Whatever fails and wherever: NULL comes with a positive errno and everything acquired has been released, once, and not used afterwards.  Success comes
    with errno 0, holding exactly the four things that closing releases. *)
Theorem C54_nothing_leaks : forall cmax o name version r errno log, errno_pos o -> mnlg_socket_open cmax o name version = Some (r, errno, log) ->
  match r with
  | None => 0 < errno /\ held log [] = Some []
  | Some h => errno = 0 /\ h_version h = version /\ held log [] = Some [RFd (h_fd h); RSock; RBuf; RHandle] /\ held (log ++ mnlg_socket_close h) [] = Some []
  end.
Proof.
  intros cmax o name version r errno log (P1 & P2 & P3 & P4 & P5) H. unfold mnlg_socket_open in H.
  destruct (os_handle o); cbn [negb] in H; [|injection H as <- <- <-; split; [reflexivity|reflexivity]].
  destruct (os_buf o) as [buf|]; [|injection H as <- <- <-; split; reflexivity].
  unfold mnl_socket_open in H. destruct (os_sock o); [|injection H as <- <- <-; split; reflexivity].
  destruct (os_socket o) as [fd|e]; [|injection H as <- <- <-; rewrite Z.opp_involutive; split; [exact P1|reflexivity]].
  unfold mnl_socket_bind in H.
  destruct (os_bind o) as [e|].
  { injection H as <- <- <-. rewrite Z.opp_involutive. split; [exact P2|]. cbn. rewrite !Z.eqb_refl. reflexivity. }
  destruct (os_name o) as [[[al fam] pid]|e].
  2: { injection H as <- <- <-. rewrite Z.opp_involutive. split; [exact P3|]. cbn. rewrite !Z.eqb_refl. reflexivity. }
  destruct (al =? 12); cbn [negb] in H.
  2: { injection H as <- <- <-. split; [reflexivity|]. cbn. rewrite !Z.eqb_refl. reflexivity. }
  destruct (fam =? AF_NETLINK); cbn [negb] in H.
  2: { injection H as <- <- <-. split; [reflexivity|]. cbn. rewrite !Z.eqb_refl. reflexivity. }
  destruct (msg_prepare (len buf) 16 5 (u32 (os_now o)) 3 1) as [b1|]; [|discriminate].
  destruct (attr_put_strz (len buf) b1 2 name) as [b2|]; [|discriminate].
  specialize (P4 (finish b2)). destruct (os_peer o (finish b2)) as [e|rs].
  { injection H as <- <- <-. rewrite Z.opp_involutive. split; [exact P4|]. cbn. rewrite !Z.eqb_refl. reflexivity. }
  destruct (recv_run _ _ _ _ rs (0, 0)) as [[[[q [e id]] b'] rs']|] eqn:E; [|discriminate].
  pose proof (recv_run_nonneg _ _ _ _ (family_nonneg cmax) _ _ _ _ _ _ _ P4 (Z.le_refl 0 : 0 <= fst (0, 0)) E) as N. cbn [fst] in N.
  destruct (q <? 0).
  - injection H as <- <- <-. split.
    + unfold ENOENT, EPROTONOSUPPORT, ENOSYS. destruct (Z.eqb_spec e 2); [cbn; lia|]. destruct (Z.eqb_spec e 0); lia.
    + cbn. rewrite !Z.eqb_refl. reflexivity.
  - injection H as <- <- <-. repeat split; cbn; rewrite !Z.eqb_refl; reflexivity.
Qed.

(** What is asked: at most one message is sent, the lookup of the family's name; and one has been sent when the call succeeds. *)
Theorem C54_one_request : forall cmax o name version r errno log, buffer_small o -> Forall is_byte name ->
  mnlg_socket_open cmax o name version = Some (r, errno, log) ->
  match sends log with
  | [] => r = None
  | [m] => lookup_request (os_now o mod 2 ^ 32) name m /\ (forall h, r = Some h -> h_seq h = os_now o mod 2 ^ 32)
  | _ => False
  end.
Proof.
  intros cmax o name version r errno log P Hn H. unfold mnlg_socket_open in H. unfold buffer_small in P.
  destruct (os_handle o); cbn [negb] in H; [|injection H as <- <- <-; reflexivity].
  destruct (os_buf o) as [buf|]; [|injection H as <- <- <-; reflexivity].
  unfold mnl_socket_open in H. destruct (os_sock o); [|injection H as <- <- <-; reflexivity].
  destruct (os_socket o) as [fd|e]; [|injection H as <- <- <-; reflexivity].
  unfold mnl_socket_bind in H.
  destruct (os_bind o) as [e|]; [injection H as <- <- <-; reflexivity|].
  destruct (os_name o) as [[[al fam] pid]|e]; [|injection H as <- <- <-; reflexivity].
  destruct (al =? 12); cbn [negb] in H; [|injection H as <- <- <-; reflexivity].
  destruct (fam =? AF_NETLINK); cbn [negb] in H; [|injection H as <- <- <-; reflexivity].
  destruct (msg_prepare (len buf) 16 5 (u32 (os_now o)) 3 1) as [b1|] eqn:E1; [|discriminate].
  destruct (attr_put_strz (len buf) b1 2 name) as [b2|] eqn:E2; [|discriminate].
  pose proof (len_nonneg buf).
  assert (Hu : 0 <= u32 (os_now o) < 2 ^ 32) by (unfold u32; apply Z.mod_pos_bound; lia).
  destruct (request_built (len buf) (u32 (os_now o)) name b1 b2 ltac:(lia) Hu Hn E1 E2) as [R _]. set (msg := finish b2) in *. clearbody msg.
  destruct (os_peer o msg) as [e|rs]; [injection H as <- <- <-; reflexivity|].
  destruct (recv_run _ _ _ _ rs (0, 0)) as [[[[q [e id]] b'] rs']|]; [|discriminate].
  destruct (q <? 0); injection H as <- <- <-; cbn; (split; [exact R|]); intros h Eh; [discriminate|]. injection Eh as <-. reflexivity.
Qed.

(** The first call that fails decides errno, whatever close does to it on the way out. *)
Theorem C54_errno_is_the_cause : forall cmax o name version,
  (os_handle o = false \/ (os_handle o = true /\ os_buf o = None) \/ (os_handle o = true /\ os_buf o <> None /\ os_sock o = false) ->
     exists log, mnlg_socket_open cmax o name version = Some (None, 12, log))
  /\ (forall buf e, os_handle o = true -> os_buf o = Some buf -> os_sock o = true -> os_socket o = inr e ->
     exists log, mnlg_socket_open cmax o name version = Some (None, e, log))
  /\ (forall buf fd e, os_handle o = true -> os_buf o = Some buf -> os_sock o = true -> os_socket o = inl fd ->
     os_bind o = Some e \/ (os_bind o = None /\ os_name o = inr e)
     \/ (os_bind o = None /\ e = 22 /\ exists al fam port, os_name o = inl (al, fam, port) /\ (al <> 12 \/ fam <> 16)) ->
     exists log, mnlg_socket_open cmax o name version = Some (None, e, log))
  /\ (forall fd portid buf e, opens o fd portid buf -> len buf <= 8192 -> up4 (len name + 1) + 24 <= len buf -> Forall is_byte name ->
     (forall m, lookup_request (os_now o mod 2 ^ 32) name m -> os_peer o m = inl e) ->
     exists log, mnlg_socket_open cmax o name version = Some (None, e, log)).
Proof.
  intros cmax o name version. repeat apply conj.
  - intros H. unfold mnlg_socket_open, mnl_socket_open. destruct H as [H|[(H1 & H2)|(H1 & H2 & H3)]].
    + rewrite H. eexists. reflexivity.
    + rewrite H1, H2. eexists. reflexivity.
    + rewrite H1, H3. destruct (os_buf o); [|congruence]. eexists. reflexivity.
  - intros buf e H1 H2 H3 H4. unfold mnlg_socket_open, mnl_socket_open. rewrite H1, H2, H3, H4. cbn [negb]. eexists.
    unfold err_mnl_socket_open, err_buf_alloc. rewrite Z.opp_involutive. reflexivity.
  - intros buf fd e H1 H2 H3 H4 H5. unfold mnlg_socket_open, mnl_socket_open, mnl_socket_bind. rewrite H1, H2, H3, H4. cbn [negb].
    unfold err_mnl_socket_bind, err_mnl_socket_open, err_buf_alloc, mnl_socket_close.
    destruct H5 as [->|[(-> & ->)|(-> & -> & al & fam & port & -> & H5)]]; try (eexists; rewrite Z.opp_involutive; reflexivity).
    unfold AF_NETLINK. destruct (Z.eqb_spec al 12) as [->|]; cbn [negb]; [|eexists; reflexivity].
    destruct (Z.eqb_spec fam 16) as [->|]; cbn [negb]; [destruct H5; congruence|eexists; reflexivity].
  - intros fd portid buf e Ho Hl Hfit Hn Hp. destruct (open_runs cmax o name version fd portid buf Ho Hl Hfit Hn) as (msg & R & _ & E).
    rewrite E. unfold after_send. rewrite (Hp msg R). eexists. reflexivity.
Qed.

(** The buffer: bytes, a multiple of 4, at most 8192, and the request fits. *)
Definition buffer_fits (buf name : list Z) : Prop := Forall is_byte buf /\ (4 | len buf) /\ len buf <= 8192 /\ up4 (len name + 1) + 24 <= len buf.
(** The kernel answers the lookup with these messages, cut into datagrams of any number of whole messages that fit the buffer; nothing, or
    anything, comes after them. *)
Definition kernel_says (o : os) (name buf : list Z) (gs : list (list (list Z))) (more : list recv) : Prop :=
  (forall m, lookup_request (os_now o mod 2 ^ 32) name m -> os_peer o m = inr (map (fun g => Dgram (concat g)) gs ++ more))
  /\ Forall message (concat gs) /\ Forall (fun g => g <> [] /\ len (concat g) <= len buf) gs.

Lemma bytes_overwrite : forall buf d, Forall is_byte buf -> Forall is_byte d -> Forall is_byte (overwrite buf d).
Proof. intros. unfold overwrite. apply Forall_app. split; [assumption|apply skipn_bytes; assumption]. Qed.

Lemma open_steps : forall cmax o name version fd portid buf gs more, 1 <= cmax -> opens o fd portid buf -> buffer_fits buf name -> Forall is_byte name ->
  kernel_says o name buf gs more ->
  exists msg, lookup_request (u32 (os_now o)) name msg /\
  match f_steps (u32 (os_now o)) portid (g_family cmax) (concat gs) (0, 0) with
  | inl (r, (e, id)) =>
      exists buf' g1 g2, gs = g1 ++ g2 /\ f_steps (u32 (os_now o)) portid (g_family cmax) (concat g1) (0, 0) = inl (r, (e, id)) /\ len buf' = len buf /\ Forall is_byte buf' /\
      mnlg_socket_open cmax o name version =
      if r <? 0 then Some (None, if e =? 2 then 93 else if e =? 0 then 38 else e,
                           opening fd ++ [ESent fd msg; EUse fd] ++ [EDrop (RFd fd); EDrop RSock; EDrop RBuf; EDrop RHandle])
      else Some (Some (mk_handle fd id version (u32 (os_now o)) portid buf' (map (fun g => Dgram (concat g)) g2 ++ more)), 0, opening fd ++ [ESent fd msg; EUse fd])
  | inr _ => more = [] -> mnlg_socket_open cmax o name version = None
  end.
Proof.
  intros cmax o name version fd portid buf gs more Hc Ho (Hb & H4 & Hl & Hfit) Hn (Hk & Hm & Hg).
  destruct (open_runs cmax o name version fd portid buf Ho Hl Hfit Hn) as (msg & R & L & E). exists msg. split; [exact R|]. rewrite E. unfold after_send. rewrite (Hk msg R).
  assert (Hg1 : Forall (fun g : list (list Z) => g <> []) gs) by (revert Hg; apply Forall_impl; tauto).
  pose proof (overwrite_len buf msg L) as LO.
  assert (Hg2 : Forall (fun g : list (list Z) => len (concat g) <= len (overwrite buf msg)) gs) by (rewrite LO; revert Hg; apply Forall_impl; tauto).
  assert (BO : Forall is_byte (overwrite buf msg)) by (apply bytes_overwrite; [exact Hb|apply R]).
  assert (L30 : len (overwrite buf msg) < 2 ^ 30) by (rewrite LO; change (2 ^ 30) with 1073741824; lia).
  assert (Hcb : forall m nlh l s, Forall is_byte m -> len m < 2 ^ 30 -> 0 <= nlh -> rd_le m nlh 4 = Some l -> 16 <= l < 2 ^ 31 ->
    nlh + up4 l <= len m -> get_family_id_cb cmax m nlh s = Some (g_family cmax (slice m nlh (nlh + up4 l)) s)) by (intros; apply family_cb_f; assumption).
  destruct (f_steps (u32 (os_now o)) portid (g_family cmax) (concat gs) (0, 0)) as [r|st'] eqn:Es.
  - destruct (recv_messages (u32 (os_now o)) portid _ _ Hcb gs more (overwrite buf msg) (0, 0) r Es Hm Hg1 BO L30 ltac:(rewrite LO; exact H4) Hg2) as (b' & g1 & g2 & -> & Ef & Er & Lb & Bb).
    rewrite Er. destruct r as [r [e id]]. cbn [fst snd]. exists b', g1, g2. rewrite Lb, LO. split; [reflexivity|]. split; [exact Ef|]. split; [reflexivity|]. split; [exact Bb|]. destruct (r <? 0); reflexivity.
  - intros ->. rewrite app_nil_r. rewrite (recv_blocks _ _ _ _ _ Hcb gs (overwrite buf msg) (0, 0) st' Es Hm Hg1 BO L30 ltac:(rewrite LO; exact H4) Hg2). reflexivity.
Qed.

(** A kernel that knows the family and says so is understood: the socket gets the family's number, whatever other attributes the answer has, in
    whatever order (those before the number among the ones known), however the answer and the acknowledgement are cut into datagrams, and whatever follows. *)
Theorem C54_family_found : forall cmax o name version fd portid buf gs ans okm rest more id,
  1 <= cmax -> opens o fd portid buf -> buffer_fits buf name -> Forall is_byte name -> kernel_says o name buf gs more ->
  concat gs = ans :: okm :: rest ->
  family_answer cmax (os_now o mod 2 ^ 32) portid id ans -> verdict_message (os_now o mod 2 ^ 32) portid 0 okm ->
  exists h log, mnlg_socket_open cmax o name version = Some (Some h, 0, log)
    /\ h_id h = id /\ h_version h = version /\ h_portid h = portid /\ h_fd h = fd
    /\ (rest = [] -> h_queue h = more) /\ len (h_buf h) = len buf /\ Forall is_byte (h_buf h).
Proof.
  intros cmax o name version fd portid buf gs ans okm rest more id Hc Ho Hbf Hn Hk Ec Ha Hv.
  destruct (open_steps cmax o name version fd portid buf gs more Hc Ho Hbf Hn Hk) as (msg & R & S).
  fold (u32 (os_now o)) in Ha, Hv. rewrite Ec in S. cbn [f_steps] in S.
  destruct (family_step cmax _ portid id ans 0 0 CB_OK Hc Ha) as (e' & E1). rewrite E1 in S. cbn [snd] in S.
  rewrite (verdict_step _ _ _ _ _ _ _ _ Hv) in S. cbn [snd Z.eqb Z.abs Z.ltb Z.compare] in S. destruct S as (b' & g1 & g2 & Eg & Ef & Lb & Bb & S). rewrite S.
  do 2 eexists. split; [reflexivity|]. cbn [h_id h_version h_portid h_fd h_queue h_buf]. repeat (split; [first [reflexivity|assumption|idtac]|]); try assumption.
  intros ->. replace g2 with (@nil (list (list Z))); [reflexivity|]. symmetry.
  apply (ends_at_last _ (u32 (os_now o)) portid (g_family cmax) [ans] okm g1 g2 (0, 0) (e', id) (0, (0, id))).
  - cbn [f_steps]. rewrite E1. reflexivity.
  - rewrite <- concat_app, <- Eg. exact Ec.
  - destruct Hk as (_ & _ & Hg). rewrite Eg in Hg. apply Forall_app in Hg as [_ Hg]. revert Hg. apply Forall_impl. tauto.
  - exact Ef.
Qed.

(** A kernel that refuses is reported: ENOENT (no such family: the module is not there) as EPROTONOSUPPORT (93), any other error as it is. *)
Theorem C54_refusal_reported : forall cmax o name version fd portid buf gs bad rest more e,
  1 <= cmax -> opens o fd portid buf -> buffer_fits buf name -> Forall is_byte name -> kernel_says o name buf gs more ->
  concat gs = bad :: rest -> 0 < e -> verdict_message (os_now o mod 2 ^ 32) portid (- e) bad ->
  exists log, mnlg_socket_open cmax o name version = Some (None, if e =? 2 then 93 else e, log).
Proof.
  intros cmax o name version fd portid buf gs bad rest more e Hc Ho Hbf Hn Hk Ec He Hv.
  destruct (open_steps cmax o name version fd portid buf gs more Hc Ho Hbf Hn Hk) as (msg & R & S).
  fold (u32 (os_now o)) in Hv. rewrite Ec in S. cbn [f_steps] in S. rewrite (verdict_step _ _ _ _ _ _ _ _ Hv) in S. cbn [snd] in S.
  destruct (Z.eqb_spec (- e) 0); [lia|]. change (-1 <? 0) with true in S. cbv iota in S. destruct S as (b' & g1 & g2 & Eg & Ef & Lb & Bb & S). rewrite S.
  rewrite Z.abs_opp, Z.abs_eq by lia. destruct (Z.eqb_spec e 0); [lia|]. eexists. reflexivity.
Qed.

(** Messages never make it read or write outside its memory, nor wait for nothing: once one of them is a verdict on the request the call returns. *)
Theorem C54_returns : forall cmax o name version fd portid buf gs more m e,
  1 <= cmax -> opens o fd portid buf -> buffer_fits buf name -> Forall is_byte name -> kernel_says o name buf gs more ->
  In m (concat gs) -> verdict_message (os_now o mod 2 ^ 32) portid e m -> mnlg_socket_open cmax o name version <> None.
Proof.
  intros cmax o name version fd portid buf gs more m e Hc Ho Hbf Hn Hk Hin Hv.
  destruct (open_steps cmax o name version fd portid buf gs more Hc Ho Hbf Hn Hk) as (msg & R & S). fold (u32 (os_now o)) in Hv.
  assert (F : forall ms st, In m ms -> exists r, f_steps (u32 (os_now o)) portid (g_family cmax) ms st = inl r).
  { induction ms as [|x ms IH]; [intros st []|]. intros st [->|Hm]; cbn [f_steps].
    - rewrite (verdict_step _ _ _ _ _ _ _ _ Hv). eauto.
    - destruct (f_msg (u32 (os_now o)) portid (Some (g_family cmax)) x CB_OK st); [eauto|apply IH, Hm]. }
  destruct (F (concat gs) (0, 0) Hin) as ([r [e' id]] & E). rewrite E in S. destruct S as (b' & g1 & g2 & Eg & Ef & Lb & Bb & S). rewrite S. destruct (r <? 0); discriminate.
Qed.

(** The number is the kernel's: unless it is 0, it was in attribute 1 of one of the messages received. *)
Theorem C54_number_is_the_kernels : forall cmax o name version fd portid buf gs h errno log,
  1 <= cmax -> opens o fd portid buf -> buffer_fits buf name -> Forall is_byte name -> kernel_says o name buf gs [] ->
  mnlg_socket_open cmax o name version = Some (Some h, errno, log) ->
  h_id h = 0 \/ exists m p, In m (concat gs) /\ 16 <= msg_type m /\ In (1, p) (attrs (skipn 20 m)) /\ len p = 2 /\ h_id h = le_val p.
Proof.
  intros cmax o name version fd portid buf gs h errno log Hc Ho Hbf Hn Hk H.
  destruct (open_steps cmax o name version fd portid buf gs [] Hc Ho Hbf Hn Hk) as (msg & R & S). destruct Hk as (_ & Hm & _).
  assert (A : forall l r e o r' e' o', fold_attrs (f_family cmax) l r (e, o) = (r', (e', o')) -> o' = o \/ exists p, In (1, p) l /\ len p = 2 /\ o' = Some p).
  { induction l as [|[t q] l IH]; intros r e oo r' e' o' E; cbn [fold_attrs f_family] in E.
    - injection E as <- <- <-. left. reflexivity.
    - destruct (cmax <? t); [cbn in E; injection E as <- <- <-; left; reflexivity|]. destruct (Z.eqb_spec t 1) as [->|].
      + destruct (Z.eqb_spec (len q) 2) as [Eq|]; [|cbn in E; injection E as <- <- <-; left; reflexivity].
        change (CB_OK <=? CB_STOP) with false in E. cbv iota in E. destruct (IH _ _ _ _ _ _ E) as [->|(p & I1 & I2 & I3)].
        * right. exists q. repeat split; [left; reflexivity|exact Eq].
        * right. exists p. repeat split; [right|..]; assumption.
      + change (CB_OK <=? CB_STOP) with false in E. cbv iota in E. destruct (IH _ _ _ _ _ _ E) as [->|(p & I1 & I2 & I3)]; [left; reflexivity|].
        right. exists p. repeat split; [right|..]; assumption. }
  assert (F : forall ms st r e id, Forall message ms -> f_steps (u32 (os_now o)) portid (g_family cmax) ms st = inl (r, (e, id)) ->
    id = snd st \/ exists m p, In m ms /\ 16 <= msg_type m /\ In (1, p) (attrs (skipn 20 m)) /\ len p = 2 /\ id = le_val p).
  { induction ms as [|x ms IH]; intros st r e id HF E; [discriminate|]. inversion HF as [|? ? Hx HFs]; subst. cbn [f_steps] in E.
    assert (G : let s := match f_msg (u32 (os_now o)) portid (Some (g_family cmax)) x CB_OK st with inl r => snd r | inr r => snd r end in
       snd s = snd st \/ exists p, 16 <= msg_type x /\ In (1, p) (attrs (skipn 20 x)) /\ len p = 2 /\ snd s = le_val p).
    { destruct (msg_fields x Hx) as (F1 & F2 & F3 & F4 & F5). unfold f_msg. cbv zeta.
      repeat match goal with |- context [if ?c then inl (?a, (?b, snd st)) else _] => destruct c; [left; reflexivity|] end.
      destruct (Z.leb_spec 16 (fld 4 2 x)) as [Ht|Ht].
      - destruct st as [e0 i0]. unfold g_family. destruct (fold_attrs (f_family cmax) (attrs (skipn 20 x)) CB_OK (e0, None)) as [r1 [e1 o1]] eqn:Ef.
        destruct (A _ _ _ _ _ _ _ Ef) as [->|(p & I1 & I2 & ->)]; [left; reflexivity|]. right. exists p. rewrite F1 in Ht. repeat split; assumption.
      - destruct ((1 <=? fld 4 2 x) && (fld 4 2 x <=? 4)); [|left; reflexivity]. left. unfold f_ctl. cbv zeta.
        repeat match goal with |- context [if ?c then _ else _] => destruct c end; reflexivity. }
    destruct (f_msg (u32 (os_now o)) portid (Some (g_family cmax)) x CB_OK st) as [r1|r1]; cbv zeta in G.
    - injection E as ->. cbn [snd] in G. destruct G as [G|(p & I1 & I2 & I3 & I4)]; [left; exact G|]. right. exists x, p. repeat split; try assumption. left. reflexivity.
    - destruct (IH _ _ _ _ HFs E) as [G2|(m & p & I0 & I)]; [|right; exists m, p; split; [right; exact I0|exact I]].
      rewrite G2. destruct G as [G|(p & I1 & I2 & I3 & I4)]; [left; exact G|]. right. exists x, p. repeat split; try assumption. left. reflexivity. }
  destruct (f_steps (u32 (os_now o)) portid (g_family cmax) (concat gs) (0, 0)) as [[r [e id]]|st'] eqn:Es.
  - destruct S as (b' & g1 & g2 & Eg & Ef & Lb & Bb & S). rewrite H in S. destruct (r <? 0); [discriminate|]. injection S as -> _ _. cbn [h_id]. apply (F _ _ _ _ _ Hm Es).
  - rewrite (S eq_refl) in H. discriminate.
Qed.

(** Not so: an acknowledgement alone, without an answer, counts as success, with number 0. *)
Theorem C54_ack_without_answer_refuted : forall cmax o name version fd portid buf gs okm rest more,
  1 <= cmax -> opens o fd portid buf -> buffer_fits buf name -> Forall is_byte name -> kernel_says o name buf gs more ->
  concat gs = okm :: rest -> verdict_message (os_now o mod 2 ^ 32) portid 0 okm ->
  exists h log, mnlg_socket_open cmax o name version = Some (Some h, 0, log) /\ h_id h = 0.
Proof.
  intros cmax o name version fd portid buf gs okm rest more Hc Ho Hbf Hn Hk Ec Hv.
  destruct (open_steps cmax o name version fd portid buf gs more Hc Ho Hbf Hn Hk) as (msg & R & S).
  fold (u32 (os_now o)) in Hv. rewrite Ec in S. cbn [f_steps] in S.
  rewrite (verdict_step _ _ _ _ _ _ _ _ Hv) in S. cbn [snd Z.eqb Z.abs Z.ltb Z.compare] in S. destruct S as (b' & g1 & g2 & Eg & Ef & Lb & Bb & S). rewrite S.
  do 2 eexists. split; reflexivity.
Qed.

(** Not so: that attributes a newer kernel may have added do no harm anywhere in the answer: one in front of the number makes the lookup fail with EOPNOTSUPP (95). *)
Theorem C54_new_attribute_first_refuted : forall cmax o name version fd portid buf gs ans rest more t q after,
  1 <= cmax -> opens o fd portid buf -> buffer_fits buf name -> Forall is_byte name -> kernel_says o name buf gs more ->
  concat gs = ans :: rest -> answer (os_now o mod 2 ^ 32) portid ans -> 16 <= msg_type ans ->
  attrs (skipn 20 ans) = (t, q) :: after -> cmax < t ->
  exists log, mnlg_socket_open cmax o name version = Some (None, 95, log).
Proof.
  intros cmax o name version fd portid buf gs ans rest more t q after Hc Ho Hbf Hn Hk Ec Ha Ht Et Hlt.
  destruct (open_steps cmax o name version fd portid buf gs more Hc Ho Hbf Hn Hk) as (msg & R & S).
  fold (u32 (os_now o)) in Ha. rewrite Ec in S. cbn [f_steps] in S. rewrite (answer_msg _ _ _ _ _ _ _ Ha) in S.
  destruct (Z.leb_spec 16 (msg_type ans)); [|lia]. unfold g_family in S. rewrite Et in S. cbn [fold_attrs f_family] in S.
  destruct (Z.ltb_spec cmax t); [|lia]. cbn in S. destruct S as (b' & g1 & g2 & Eg & Ef & Lb & Bb & S). rewrite S. eexists. reflexivity.
Qed.

(** * A concrete lookup of "wireguard": the kernel's answer as Linux gives it (name, number, version, header size, number of attributes, operations), and the
    acknowledgement in a second datagram; and the answer of a kernel without the module. *)
Definition xname : list Z := [119; 105; 114; 101; 103; 117; 97; 114; 100].
Definition xm (type flags : Z) (body : list Z) : list Z := le 4 (16 + len body) ++ le 2 type ++ le 2 flags ++ le 4 1700000000 ++ le 4 4242 ++ body.
Definition xanswer : list Z := xm 16 0 ([1; 2; 0; 0] ++ enc 2 (xname ++ [0]) ++ enc 1 (le 2 33) ++ enc 3 (le 4 1) ++ enc 4 (le 4 0) ++ enc 5 (le 4 8)
  ++ enc (Z.lor (2 ^ 15) 6) (enc (Z.lor (2 ^ 15) 1) (enc 1 (le 4 0) ++ enc 2 (le 4 28)))).
Definition xack (e : Z) : list Z := xm 2 256 (le 4 (e mod 2 ^ 32) ++ repeat 0 16).
Definition xos (rs : list recv) : os := mk_os true (Some (repeat 7 4096)) true (inl 3) None (inl (12, 16, 4242)) 1700000000 (fun _ => inr rs) (Some 4).

Lemma all_bytes : forall l, forallb is_byteb l = true -> Forall is_byte l.
Proof.
  intros l H. rewrite forallb_forall in H. apply Forall_forall. intros x Hx. apply H in Hx. unfold is_byteb in Hx. unfold is_byte.
  apply andb_true_iff in Hx as [H1 H2]. apply Z.leb_le in H1. apply Z.ltb_lt in H2. lia.
Qed.
Ltac xmessage := split; [apply all_bytes; vm_compute; reflexivity|]; split; [split; vm_compute; congruence|]; split; [|vm_compute; reflexivity];
  match goal with |- (4 | len ?m) => exists (len m / 4); vm_compute; reflexivity end.
Lemma xmessages : message xanswer /\ message (xack 0) /\ message (xack (-2)).
Proof. repeat split; try xmessage; try (apply all_bytes; vm_compute; reflexivity); try (vm_compute; congruence); match goal with |- (4 | len ?m) => exists (len m / 4); vm_compute; reflexivity end. Qed.
Lemma xanswered : forall m, message m -> msg_seq m = 1700000000 -> msg_port m = 4242 -> Z.testbit (msg_flags m) 4 = false -> answer (1700000000 mod 2 ^ 32) 4242 m.
Proof. intros m H1 H2 H3 H4. split; [exact H1|]. split; [left; exact H2|]. split; [left; exact H3|exact H4]. Qed.
Lemma xopens : forall rs, opens (xos rs) 3 4242 (repeat 7 4096) /\ buffer_fits (repeat 7 4096) xname.
Proof.
  intro rs. split; [repeat split|]. unfold buffer_fits. rewrite len_repeat. split.
  - apply Forall_forall. intros x Hx. apply repeat_spec in Hx. subst. unfold is_byte. lia.
  - split; [exists 1024; reflexivity|]. split; [lia|vm_compute; congruence].
Qed.

Example C54_example_found : exists h log, mnlg_socket_open 10 (xos [Dgram xanswer; Dgram (xack 0)]) xname 1 = Some (Some h, 0, log) /\ h_id h = 33 /\ h_portid h = 4242.
Proof.
  destruct (xopens [Dgram xanswer; Dgram (xack 0)]) as [O B]. destruct xmessages as (M1 & M2 & _).
  destruct (C54_family_found 10 (xos [Dgram xanswer; Dgram (xack 0)]) xname 1 3 4242 (repeat 7 4096) [[xanswer]; [xack 0]] xanswer (xack 0) [] [] 33) as (h & log & E & H1 & H2 & H3 & H4 & _);
    try assumption; try reflexivity.
  - lia.
  - apply all_bytes. vm_compute. reflexivity.
  - split; [intros m _; cbn [concat map app xos os_peer]; rewrite !app_nil_r; reflexivity|]. split; [apply Forall_cons; [exact M1|apply Forall_cons; [exact M2|apply Forall_nil]]|].
    rewrite len_repeat. repeat apply Forall_cons; try apply Forall_nil; (split; [discriminate|vm_compute; congruence]).
  - split; [apply xanswered; try exact M1; vm_compute; reflexivity|]. split; [vm_compute; congruence|]. split; [vm_compute; congruence|].
    exists [(2, xname ++ [0])], [33; 0], [(3, le 4 1); (4, le 4 0); (5, le 4 8); (6, enc (Z.lor (2 ^ 15) 1) (enc 1 (le 4 0) ++ enc 2 (le 4 28)))].
    split; [vm_compute; reflexivity|]. split; [vm_compute; repeat constructor; cbn; intuition congruence|]. split; [repeat constructor; cbn; lia|]. split; reflexivity.
  - split; [apply xanswered; try exact M2; vm_compute; reflexivity|]. split; [vm_compute; reflexivity|]. split; [vm_compute; congruence|vm_compute; reflexivity].
  - exists h, log. repeat split; assumption.
Qed.
Example C54_example_no_module : exists log, mnlg_socket_open 10 (xos [Dgram (xack (-2))]) xname 1 = Some (None, 93, log) /\ held log [] = Some [].
Proof.
  destruct (xopens [Dgram (xack (-2))]) as [O B]. destruct xmessages as (_ & _ & M).
  destruct (C54_refusal_reported 10 (xos [Dgram (xack (-2))]) xname 1 3 4242 (repeat 7 4096) [[xack (-2)]] (xack (-2)) [] [] 2) as (log & E); try assumption; try reflexivity.
  - lia.
  - apply all_bytes. vm_compute. reflexivity.
  - split; [intros m _; cbn [concat map app xos os_peer]; rewrite !app_nil_r; reflexivity|]. split; [apply Forall_cons; [exact M|apply Forall_nil]|].
    rewrite len_repeat. repeat apply Forall_cons; try apply Forall_nil; (split; [discriminate|vm_compute; congruence]).
  - split; [apply xanswered; try exact M; vm_compute; reflexivity|]. split; [vm_compute; reflexivity|]. split; [vm_compute; congruence|vm_compute; reflexivity].
  - exists log. split; [exact E|]. apply C54_nothing_leaks in E; [apply E|]. repeat split; cbn; try lia. intros. repeat constructor.
Qed.

Print Assumptions C54_nothing_leaks.
Print Assumptions C54_one_request.
Print Assumptions C54_errno_is_the_cause.
Print Assumptions C54_family_found.
Print Assumptions C54_refusal_reported.
Print Assumptions C54_returns.
Print Assumptions C54_number_is_the_kernels.
Print Assumptions C54_ack_without_answer_refuted.
Print Assumptions C54_new_attribute_first_refuted.
