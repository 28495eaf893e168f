(** The dialogue of kernel_set_device with the receiver of its requests. *)
From Coq Require Import ZArith List Bool Lia.
From Verif Require Import Base Types NlSpec KernelSpec Nl NlSet NlProofs NlSetProofs NlSetProofs2 NlSetProofs3.
Import ListNotations.
Open Scope Z_scope.

Lemma rd_in : forall a b c, rd (a ++ b ++ c) (len a) (len b) = Some b.
Proof.
  intros a b c. unfold rd. pose proof (len_nonneg a). pose proof (len_nonneg b). pose proof (len_nonneg c).
  rewrite !len_app.
  destruct (Z.leb_spec 0 (len a)); [|lia]. destruct (Z.leb_spec 0 (len b)); [|lia].
  destruct (Z.leb_spec (len a + len b) (len a + (len b + len c))); [|lia]. cbn [andb].
  unfold len. rewrite !Nat2Z.id, skipn_app_exact, firstn_app_exact. reflexivity.
Qed.
Lemma rd_le_in : forall a n v c off sz, off = len a -> sz = Z.of_nat n -> 0 <= v < 256 ^ Z.of_nat n ->
  rd_le (a ++ le n v ++ c) off sz = Some v.
Proof.
  intros a n v c off sz -> -> H. unfold rd_le. replace (Z.of_nat n) with (len (le n v)) by apply len_le.
  rewrite rd_in, le_val_le_id by exact H. reflexivity.
Qed.

Lemma s32_id : forall v, - 2 ^ 31 <= v < 2 ^ 31 -> s32 (v mod 2 ^ 32) = v.
Proof.
  intros v H. unfold s32. rewrite Z.mod_mod by lia. change (2 ^ 32) with 4294967296 in *. change (2 ^ 31) with 2147483648 in *.
  destruct (Z.leb_spec 2147483648 (v mod 4294967296)); Z.to_euclidean_division_equations; lia.
Qed.
Lemma s32_small : forall v, 0 <= v < 2 ^ 31 -> s32 v = v.
Proof.
  intros v H. unfold s32. rewrite Z.mod_small by (change (2 ^ 32) with (2 * 2 ^ 31); lia).
  destruct (Z.leb_spec (2 ^ 31) v); [lia|reflexivity].
Qed.

Lemma recv_ack : forall seq portid flags e x buf rs,
  0 <= seq < 2 ^ 32 -> 0 <= portid < 2 ^ 32 -> 0 <= flags < 65536 -> Z.testbit flags 4 = false ->
  - 2 ^ 31 < e <= 0 -> 16 <= len x < 2 ^ 30 ->
  recv_run (A := unit) seq portid None buf (Dgram (ack seq portid flags e x) :: rs) (0, tt)
  = Some (if e =? 0 then 0 else -1, (- e, tt), overwrite buf (ack seq portid flags e x), rs).
Proof.
  intros seq portid flags e x buf rs Hs Hp Hf Hi He Hx. cbn [recv_run].
  destruct (ack seq portid flags e x) as [|c0 t0] eqn:Ea.
  { exfalso. apply (f_equal len) in Ea. unfold ack in Ea. autorewrite with len in Ea. lia. }
  rewrite <- Ea. set (m := overwrite buf (ack seq portid flags e x)).
  set (tlb := skipn (length (ack seq portid flags e x)) buf).
  assert (Em : m = le 4 (20 + len x) ++ le 2 2 ++ le 2 flags ++ le 4 seq ++ le 4 portid ++ le 4 (e mod 2 ^ 32) ++ (x ++ tlb)).
  { unfold m, overwrite, ack. rewrite <- !app_assoc. reflexivity. }
  assert (Ll : len (ack seq portid flags e x) = 20 + len x) by (unfold ack; autorewrite with len; lia).
  assert (R0 : rd_le m 0 4 = Some (20 + len x)).
  { rewrite Em. apply (rd_le_in [] 4); [reflexivity|reflexivity|]. change (2 ^ 30) with 1073741824 in Hx. change (256 ^ Z.of_nat 4) with 4294967296. lia. }
  assert (R1 : rd_le m (0 + 4) 2 = Some 2).
  { rewrite Em. apply (rd_le_in (le 4 (20 + len x)) 2); [rewrite len_le; reflexivity|reflexivity|]. cbn. lia. }
  assert (R2 : rd_le m (0 + 6) 2 = Some flags).
  { rewrite Em. rewrite (app_assoc (le 4 _)). apply (rd_le_in _ 2); [rewrite len_app, !len_le; reflexivity|reflexivity|]. cbn. lia. }
  assert (R3 : rd_le m (0 + 8) 4 = Some seq).
  { rewrite Em. rewrite 2 (app_assoc (le 4 _)). rewrite !(app_assoc (le 4 _ ++ _)). rewrite app_assoc. 
    rewrite <- !app_assoc. rewrite (app_assoc (le 4 (20 + len x))), (app_assoc (le 4 (20 + len x) ++ le 2 2)).
    apply (rd_le_in _ 4); [rewrite !len_app, !len_le; reflexivity|reflexivity|]. exact Hs. }
  assert (R4 : rd_le m (0 + 12) 4 = Some portid).
  { rewrite Em. rewrite (app_assoc (le 4 (20 + len x))), (app_assoc (le 4 (20 + len x) ++ le 2 2)), (app_assoc ((le 4 (20 + len x) ++ le 2 2) ++ _)).
    apply (rd_le_in _ 4); [rewrite !len_app, !len_le; reflexivity|reflexivity|]. exact Hp. }
  assert (R5 : rd_le m (0 + 16) 4 = Some (e mod 2 ^ 32)).
  { rewrite Em. rewrite (app_assoc (le 4 (20 + len x))), (app_assoc (le 4 (20 + len x) ++ le 2 2)), (app_assoc ((le 4 (20 + len x) ++ le 2 2) ++ _)),
      (app_assoc (((le 4 (20 + len x) ++ le 2 2) ++ _) ++ _)).
    apply (rd_le_in _ 4); [rewrite !len_app, !len_le; reflexivity|reflexivity|]. apply Z.mod_pos_bound. lia. }
  assert (Rc : cb_run m seq portid None (S (length m)) 0 (len (ack seq portid flags e x)) CB_OK (0, tt)
    = Some (if e =? 0 then 0 else -1, (- e, tt))).
  { cbn [cb_run]. unfold nlmsg_ok. rewrite Ll. destruct (Z.leb_spec 16 (20 + len x)); [|lia].
    rewrite R0. rewrite s32_small by (change (2 ^ 31) with (2 * 2 ^ 30); lia).
    destruct (Z.leb_spec 16 (20 + len x)); [|lia]. destruct (Z.leb_spec (20 + len x) (20 + len x)); [|lia]. cbn [andb].
    rewrite R1, R2, R3, R4. rewrite !Z.eqb_refl. cbn [negb]. rewrite !andb_false_r. rewrite Hi.
    change (16 <=? 2) with false. change ((1 <=? 2) && (2 <=? 4)) with true. cbn [andb].
    unfold run_ctl. change (2 =? 2) with true. cbv iota. destruct (Z.ltb_spec (20 + len x) 36); [lia|].
    unfold s32_at. rewrite R5. rewrite s32_id by lia. cbn [snd]. unfold ctl_errno.
    destruct (Z.eqb_spec e 0) as [->|Hne]; [reflexivity|]. destruct (Z.ltb_spec e 0); [reflexivity|lia]. }
  rewrite Rc. destruct (Z.eqb_spec e 0); reflexivity.
Qed.

(** A kernel that answers by [r]. *)
Definition answers {K} (r : K -> list Z -> verdict * K) (portid : Z) (quote : K -> list Z -> list Z) (flags : K -> list Z -> Z) (k : K) (m : list Z) : sent K :=
  match r k m with
  | (Refused e, _) => SendErr e
  | (Answer e, k') => Sent k' [Dgram (ack (msg_seq m) portid (flags k m) e (quote k m))]
  end.

Definition fair {K} (r : K -> list Z -> verdict * K) (portid : Z) (quote : K -> list Z -> list Z) (flags : K -> list Z -> Z) : Prop :=
  0 <= portid < 2 ^ 32 /\ (forall k m, 16 <= len (quote k m) < 2 ^ 30) /\ (forall k m, 0 <= flags k m < 65536 /\ Z.testbit (flags k m) 4 = false)
  /\ forall k m, match fst (r k m) with Refused e => 0 < e | Answer e => - 2 ^ 31 < e <= 0 end.

Lemma skipn_skipn_add : forall A n m (l : list A), skipn n (skipn m l) = skipn (m + n) l.
Proof. intros A n m. induction m as [|m IH]; intros [|x l]; try reflexivity; try apply skipn_nil. cbn [Nat.add skipn]. apply IH. Qed.

(** The headers of the messages. *)
Lemma messages_headers : forall B id now d, 272 <= B <= 8192 -> wf_device d -> wf_name (d_name d) -> 0 <= id < 65536 -> (forall i, 0 <= now i < 2 ^ 32) ->
  forall fuel i at_ ms, ok_at d at_ -> messages B id now fuel i d at_ = Some ms -> Forall (set_header id now) ms.
Proof.
  intros B id now d HB Hw Hn Hid Hnow. induction fuel as [|f IH]; intros i at_ ms Hat Hm; [discriminate|].
  pose proof (build_spec B id (now i) d at_ HB Hw Hn Hat) as Hb. cbn [messages] in Hm.
  destruct (state_of d at_) as [ps al]. destruct Hb as (msg & secs & ps' & al' & E1 & _ & _ & _ & _ & _ & E7 & E8). rewrite E1 in Hm.
  assert (P : set_header id now msg).
  { assert (G : forall a b c, c = (4 + a)%nat -> (a + b <= 16)%nat -> firstn b (skipn c msg) = firstn b (skipn a (le 2 id ++ le 2 5 ++ le 4 (now i) ++ le 4 0 ++ [1; 1; 0; 0]))).
    { intros a b c -> Hab. rewrite <- E8. rewrite skipn_firstn_comm, firstn_firstn, skipn_skipn_add. f_equal. lia. }
    split; [|split; [|split; [|split]]].
    - rewrite (G 0%nat 2%nat 4%nat) by lia. change (le_val (le 2 id) = id). apply le_val_le_id. exact Hid.
    - rewrite (G 2%nat 2%nat 6%nat) by lia. reflexivity.
    - exists i. rewrite (G 4%nat 4%nat 8%nat) by lia. change (le_val (le 4 (now i)) = now i). apply le_val_le_id, Hnow.
    - rewrite (G 8%nat 4%nat 12%nat) by lia. reflexivity.
    - rewrite (G 12%nat 4%nat 16%nat) by lia. reflexivity. }
  destruct ps' as [|p' ps']; [injection Hm as <-; constructor; [exact P|constructor]|].
  destruct (messages B id now f (S i) d (Some (p' :: ps', al'))) as [l|] eqn:El; [|discriminate]. injection Hm as <-. constructor; [exact P|].
  apply (IH (S i) (Some (p' :: ps', al')) l); [apply E7; discriminate|exact El].
Qed.

Lemma set_loop_spec : forall K (r : K -> list Z -> verdict * K) portid quote flags B id now d,
  272 <= B <= 8192 -> wf_device d -> wf_name (d_name d) -> fair r portid quote flags -> (forall i, 0 <= now i < 2 ^ 32) ->
  forall fuel i at_ ms buf k log, ok_at d at_ -> messages B id now fuel i d at_ = Some ms ->
  exists ret k' done, delivers r ms k ret k' done
    /\ set_loop (answers r portid quote flags) B id portid now fuel i d at_ buf [] k log = Some (ret, k', rev done ++ log).
Proof.
  intros K r portid quote flags B id now d HB Hw Hn (Hp & Hq & Hfl & Hr) Hnow.
  induction fuel as [|f IH]; intros i at_ ms buf k log Hat Hm; [discriminate|].
  pose proof (build_spec B id (now i) d at_ HB Hw Hn Hat) as Hb. cbn [messages set_loop] in *.
  destruct (state_of d at_) as [ps al]. destruct Hb as (msg & secs & ps' & al' & E1 & _ & _ & _ & _ & _ & E7 & E8). rewrite E1 in *.
  assert (Es : msg_seq msg = now i).
  { unfold msg_seq. replace (firstn 4 (skipn 8 msg)) with (firstn 4 (skipn 4 (firstn 16 (skipn 4 msg)))).
    - rewrite E8. change (le_val (le 4 (now i)) = now i). apply le_val_le_id, Hnow.
    - rewrite skipn_firstn_comm, firstn_firstn, skipn_skipn_add. reflexivity. }
  specialize (Hr k msg). destruct (r k msg) as [v k1] eqn:Er. cbn [fst] in Hr.
  assert (Ean : answers r portid quote flags k msg = match v with Refused e => SendErr e
     | Answer e => Sent k1 [Dgram (ack (msg_seq msg) portid (flags k msg) e (quote k msg))] end) by (unfold answers; rewrite Er; reflexivity).
  rewrite Ean.
  assert (Hms : exists tl, ms = msg :: tl /\ (ps' = [] -> tl = []) /\ (ps' <> [] -> messages B id now f (S i) d (Some (ps', al')) = Some tl)).
  { destruct ps' as [|p' ps']; [injection Hm as <-; exists []; repeat split; congruence|].
    destruct (messages B id now f (S i) d (Some (p' :: ps', al'))) as [l|]; [|discriminate]. injection Hm as <-. exists l. repeat split; congruence. }
  destruct Hms as (tl & -> & Ht1 & Ht2).
  destruct v as [e|e].
  - exists (- e), k, []. split; [eapply D_refused; exact Er|reflexivity].
  - rewrite Es. rewrite app_nil_l. destruct (Hfl k msg) as [Hf1 Hf2]. rewrite recv_ack by (auto; apply Hnow).
    destruct (Z.eqb_spec e 0) as [->|Hne].
    + cbn [Z.ltb Z.compare]. destruct ps' as [|p' ps'].
      * rewrite (Ht1 eq_refl). exists 0, k1, [msg]. split; [eapply D_accepted; [exact Er|constructor]|reflexivity].
      * destruct (IH (S i) (Some (p' :: ps', al')) tl (overwrite (overwrite buf msg) (ack (now i) portid (flags k msg) 0 (quote k msg))) k1 (msg :: log)) as (ret & k' & done & D1 & D2).
        { apply E7. discriminate. } { apply Ht2. discriminate. }
        exists ret, k', (msg :: done). split; [eapply D_accepted; eassumption|].
        rewrite D2. cbn [rev]. rewrite <- app_assoc. reflexivity.
    + change (-1 <? 0) with true. cbv iota. destruct (Z.eqb_spec (- e) 0); [lia|]. rewrite Z.opp_involutive.
      exists e, k1, [msg]. split; [eapply D_rejected; [exact Er|lia]|reflexivity].
Qed.
