(** C18-C20: updates over netlink. *)
From Coq Require Import ZArith List Bool Lia.
From Verif Require Import Base Types NlSpec KernelSpec Nl NlSet NlProofs NlSetProofs NlSetProofs2 NlSetProofs3 NlSetProofs4.
Import ListNotations.
Open Scope Z_scope.

(** Number of allowed IPs of a device. *)
Definition total_aips (d : device) : nat := length (flat_map p_aips (d_peers d)).

(** What a section of a request is worth: the beginning of a peer of the update with all of its settings and the first
    of its allowed IPs, or further allowed IPs of a peer. *)
Definition starts_peer (d : device) (r : rq_peer) : Prop :=
  exists p rest, In p (d_peers d) /\ p_aips p = rp_aips r ++ rest
    /\ r = mk_rq_peer (p_pub p) (p_remove p) (p_replace_aips p) (opt (p_has_psk p) (p_psk p))
             (match p_endpoint p with EpNone => None | e => Some e end) (opt (p_has_ka p) (p_ka p)) (rp_aips r).
Definition carries_something (d : device) (q : request) : Prop :=
  d_peers d <> [] -> rq_peers q <> [] /\ Forall (fun r => starts_peer d r \/ rp_aips r <> []) (rq_peers q).

Lemma taken_progress : forall d ps al secs ps' al', taken ps al secs ps' al' -> (exists x, d_peers d = x ++ ps) ->
  (ps <> [] -> (mes ps' al' < mes ps al)%nat) ->
  (ps <> [] -> map rq_sec secs <> []) /\ Forall (fun r => starts_peer d r \/ rp_aips r <> []) (map rq_sec secs).
Proof.
  intros d.
  assert (Start : forall p nest take rest, In p (d_peers d) -> p_aips p = take ++ rest -> starts_peer d (rq_sec (mk_sec p false nest take))).
  { intros p nest take rest Hin E. exists p, rest. split; [exact Hin|]. split; [exact E|]. reflexivity. }
  (* continuing sections of a whole run; the strict decrease is needed only for a part *)
  assert (G : forall ps al secs ps' al', taken ps al secs ps' al' -> (exists x, d_peers d = x ++ ps) ->
     (secs <> [] -> (exists s, secs = [s] /\ s_cont s = true /\ s_take s = []) \/ Forall (fun r => starts_peer d r \/ rp_aips r <> []) (map rq_sec secs))).
  { induction 1 as [|p ps al|p ps al secs ps' al' H IH|p ps al nest take rest E Hr Hn]; intros (x & Hx) Hne; try contradiction.
    - assert (Hin : In p (d_peers d)) by (rewrite Hx; apply in_or_app; right; left; reflexivity).
      right. cbn [map]. constructor.
      + destruct al as [|a al]; [left|right; discriminate]. apply (Start p _ _ []); [exact Hin|rewrite app_nil_r; reflexivity].
      + destruct secs as [|s0 secs]; [constructor|].
        destruct IH as [(s & Es & Ec & _)|IH]; [exists (x ++ [p]); rewrite <- app_assoc; exact Hx|discriminate| |exact IH].
        injection Es as <- ->. inversion H; subst; discriminate.
    - assert (Hin : In p (d_peers d)) by (rewrite Hx; apply in_or_app; right; left; reflexivity).
      destruct al as [|a al].
      + right. cbn [map nonempty]. constructor; [|constructor]. left. apply (Start p nest take rest); [exact Hin|exact E].
      + destruct take as [|t take]; [left; eexists; split; [reflexivity|split; reflexivity]|].
        right. constructor; [|constructor]. right. discriminate. }
  intros ps al secs ps' al' H Hx Hm. specialize (G _ _ _ _ _ H Hx). split.
  - intros Hne E. apply map_eq_nil in E. subst secs. inversion H; subst; [congruence|]. specialize (Hm Hne). lia.
  - destruct secs as [|s0 secs]; [constructor|]. destruct G as [(s & Es & Ec & Et)|G]; [discriminate| |exact G].
    exfalso. injection Es as -> ->. assert (Hne : ps <> []) by (intros ->; inversion H). specialize (Hm Hne).
    inversion H; subst; cbn [s_cont s_take] in *.
    + destruct al as [|a al]; [discriminate|]. discriminate.
    + destruct al as [|a al]; [discriminate|]. match goal with X : todo _ _ = _ |- _ => cbn [todo] in X; rewrite ?Et in X; cbn [app] in X; rewrite X in Hm end. lia.
Qed.

Lemma frags_progress : forall d at_ rs, frags d at_ rs -> (exists x, d_peers d = x ++ fst (state_of d at_)) -> (is_first at_ = false -> fst (state_of d at_) <> []) ->
  (snd (state_of d at_) = [] \/ fst (state_of d at_) <> []) ->
  Forall (carries_something d) rs.
Proof.
  induction 1 as [at_ secs H|at_ secs ps' al' rs H Hne Hm Hf IH]; intros Hx Hfi Hok.
  - constructor; [|constructor]. intro Hp. cbn [rq_dev rq_peers].
    assert (Hps : fst (state_of d at_) <> []).
    { destruct at_ as [[ps al]|]; [apply Hfi; reflexivity|exact Hp]. }
    assert (Hm0 : fst (state_of d at_) <> [] -> (mes [] [] < mes (fst (state_of d at_)) (snd (state_of d at_)))%nat).
    { intros _. destruct (fst (state_of d at_)) as [|p ps]; [congruence|]. unfold mes at 1. cbn [peers_work fold_right].
      unfold mes. destruct (snd (state_of d at_)); cbn [peers_work fold_right length tl]; lia. }
    destruct (taken_progress d _ _ _ _ _ H Hx Hm0) as [P1 P2]. split; [apply P1, Hps|exact P2].
  - constructor.
    + intro Hp. cbn [rq_dev rq_peers]. assert (Hps : fst (state_of d at_) <> []).
      { destruct at_ as [[ps al]|]; [apply Hfi; reflexivity|exact Hp]. }
      destruct (taken_progress d _ _ _ _ _ H Hx (fun _ => Hm)) as [P1 P2]. split; [apply P1, Hps|exact P2].
    + apply IH; cbn [state_of fst snd]; [|intros _; exact Hne|right; exact Hne].
      destruct (taken_suffix _ _ _ _ _ H) as (y & Hy). destruct Hx as (x & Hx). exists (x ++ y). rewrite Hx, Hy, app_assoc. reflexivity.
Qed.

Lemma mes_total : forall d, mes (d_peers d) [] = (length (d_peers d) + total_aips d)%nat.
Proof.
  intro d. unfold mes, total_aips. induction (d_peers d) as [|p ps IH]; [reflexivity|].
  cbn [peers_work fold_right flat_map length]. fold (peers_work ps). rewrite app_length. lia.
Qed.

Lemma delivers_prefix : forall K (r : K -> list Z -> verdict * K) ms k ret k' done, delivers r ms k ret k' done -> exists rest, ms = done ++ rest.
Proof.
  induction 1 as [k|m ms k e k' H|m ms k e k' H He|m ms k k1 ret k' done H Hd IH].
  - exists []. reflexivity.
  - exists (m :: ms). reflexivity.
  - exists ms. reflexivity.
  - destruct IH as (rest & ->). exists rest. reflexivity.
Qed.

(** Everything about the messages of an update at once. *)
Lemma set_device_master : forall B id now d, 272 <= B <= 8192 -> wf_device d -> wf_name (d_name d) -> (forall i, 0 <= now i < 2 ^ 32) ->
  exists ms rs, Forall (fun m => len m <= B) ms /\ Forall2 (fun m q => read_request m = Some q) ms rs /\ frags d None rs
    /\ forall K (r : K -> list Z -> verdict * K) portid quote flags buf k, fair r portid quote flags ->
       exists ret k' done, delivers r ms k ret k' done
         /\ kernel_set_device (answers r portid quote flags) B id portid now d buf k = Some (ret, k', rev done).
Proof.
  intros B id now d HB Hw Hn Hnow.
  destruct (messages_spec B id now d HB Hw Hn (work d) 0 None I) as (ms & rs & E1 & E2 & E3 & E4).
  { cbn [state_of fst snd]. apply work_enough. }
  exists ms, rs. split; [exact E2|]. split; [exact E3|]. split; [exact E4|].
  intros K r portid quote flags buf k Hf.
  destruct (set_loop_spec K r portid quote flags B id now d HB Hw Hn Hf Hnow (work d) 0 None ms buf k [] I E1) as (ret & k' & done & D1 & D2).
  exists ret, k', done. split; [exact D1|]. unfold kernel_set_device. rewrite D2, app_nil_r. reflexivity.
Qed.

(** C18.  Every message is a "set device" request to the family the socket was opened for, asking for an acknowledgement. *)
Theorem C18_requests_addressed : forall B id now d K (r : K -> list Z -> verdict * K) portid quote flags buf k ret k' log,
  272 <= B <= 8192 -> wf_device d -> wf_name (d_name d) -> 0 <= id < 65536 -> (forall i, 0 <= now i < 2 ^ 32) -> fair r portid quote flags ->
  kernel_set_device (answers r portid quote flags) B id portid now d buf k = Some (ret, k', log) -> Forall (set_header id now) log.
Proof.
  intros B id now d K r portid quote flags buf k ret k' log HB Hw Hn Hid Hnow Hf H.
  destruct (messages_spec B id now d HB Hw Hn (work d) 0 None I) as (ms & rs & E1 & _).
  { cbn [state_of fst snd]. apply work_enough. }
  destruct (set_loop_spec K r portid quote flags B id now d HB Hw Hn Hf Hnow (work d) 0 None ms buf k [] I E1) as (ret' & k1 & done & D1 & D2).
  unfold kernel_set_device in H. rewrite D2, app_nil_r in H. injection H as <- <- <-.
  destruct (delivers_prefix _ _ _ _ _ _ _ D1) as (rest & Ep). pose proof (messages_headers B id now d HB Hw Hn Hid Hnow (work d) 0%nat None ms I E1) as M.
  rewrite Ep in M. apply Forall_app in M as [M _]. apply Forall_rev, M.
Qed.

(** C18.  Whatever the receiver does, the call ends without writing outside its buffer ([Some]); every request fits the buffer, is well
    formed, starts a new peer or carries further allowed IPs, and there are at most 1 + peers + allowed IPs of them. *)
Theorem C18_updates_fit_and_progress : forall B id now d K (r : K -> list Z -> verdict * K) portid quote flags buf k,
  272 <= B <= 8192 -> wf_device d -> wf_name (d_name d) -> (forall i, 0 <= now i < 2 ^ 32) -> fair r portid quote flags ->
  exists ret k' log, kernel_set_device (answers r portid quote flags) B id portid now d buf k = Some (ret, k', log)
    /\ Forall (fun m => len m <= B /\ exists q, read_request m = Some q /\ carries_something d q) log
    /\ (length log <= 1 + length (d_peers d) + total_aips d)%nat.
Proof.
  intros B id now d K r portid quote flags buf k HB Hw Hn Hnow Hf.
  destruct (set_device_master B id now d HB Hw Hn Hnow) as (ms & rs & H1 & H2 & H3 & H4).
  destruct (H4 K r portid quote flags buf k Hf) as (ret & k' & done & D1 & D2).
  exists ret, k', (rev done). split; [exact D2|]. destruct (delivers_prefix _ _ _ _ _ _ _ D1) as (rest & Ep).
  assert (P : Forall (carries_something d) rs).
  { apply (frags_progress d None rs H3); cbn [state_of fst snd is_first]; [exists []; reflexivity|discriminate|left; reflexivity]. }
  assert (G : Forall (fun m => len m <= B /\ exists q, read_request m = Some q /\ carries_something d q) ms).
  { clear - H1 H2 P. revert H1 P. induction H2 as [|m q ms rs E H IH]; intros H1 P; [constructor|].
    inversion H1; inversion P; subst. constructor; [|apply IH; assumption]. split; [assumption|]. exists q. split; assumption. }
  split.
  - apply Forall_rev. rewrite Ep in G. apply Forall_app in G. tauto.
  - rewrite rev_length. pose proof (frags_count d None rs H3) as C. cbn [state_of fst snd] in C. rewrite mes_total in C.
    assert (length ms = length rs) by (clear - H2; induction H2; cbn; congruence).
    rewrite Ep, app_length in *. lia.
Qed.

(** The receiver of the specification: reads each request and applies it. *)
Definition interface (pubkey : list Z -> list Z) (s : iface) (m : list Z) : verdict * iface :=
  match read_request m with
  | Some q => (Answer 0, apply_request pubkey s q)
  | None => (Answer (- 22), s)
  end.

Lemma interface_delivers : forall pubkey ms rs, Forall2 (fun m q => read_request m = Some q) ms rs ->
  forall s ret s' done, delivers (interface pubkey) ms s ret s' done -> ret = 0 /\ s' = fold_left (apply_request pubkey) rs s /\ done = ms.
Proof.
  induction 1 as [|m q ms rs E H IH]; intros s ret s' done D; inversion D; subst; unfold interface in *; rewrite ?E in *.
  - auto.
  - discriminate.
  - match goal with X : (_, _) = (_, _) |- _ => injection X; intros; subst end. lia.
  - match goal with X : (_, _) = (_, _) |- _ => injection X; intros; subst end.
    match goal with X : delivers _ ms _ _ _ _ |- _ => destruct (IH _ _ _ _ X) as (-> & -> & ->) end. auto.
Qed.

(** Settings carried by a section, with the peer they are for. *)
Definition of_psk (r : rq_peer) := match rp_psk r with Some k => [(rp_pub r, k)] | None => [] end.
Definition of_endpoint (r : rq_peer) := match rp_endpoint r with Some e => [(rp_pub r, e)] | None => [] end.
Definition of_ka (r : rq_peer) := match rp_ka r with Some n => [(rp_pub r, n)] | None => [] end.
Definition of_replace (r : rq_peer) := if rp_replace r then [rp_pub r] else [].
Definition of_aips (r : rq_peer) := map (fun a => (rp_pub r, a)) (rp_aips r).

(** C19.  Sent to an interface, the update succeeds and leaves it in the state one unfragmented request would have; device
    fields and the replace-peers flag are in the first request only; each preshared key, endpoint, keepalive, replace flag and
    allowed IP is sent once, in order. *)
Theorem C19_fragmentation_invisible : forall B id now d pubkey portid quote flags buf s,
  272 <= B <= 8192 -> wf_device d -> wf_name (d_name d) -> (forall i, 0 <= now i < 2 ^ 32) -> fair (interface pubkey) portid quote flags ->
  exists log qs,
    kernel_set_device (answers (interface pubkey) portid quote flags) B id portid now d buf s
      = Some (0, apply_request pubkey s (request_of d), log)
    /\ map read_request (rev log) = map Some qs
    /\ (exists q0 later, qs = q0 :: later
         /\ rq_name q0 = d_name d /\ rq_priv q0 = rq_priv (request_of d) /\ rq_port q0 = rq_port (request_of d)
         /\ rq_fwmark q0 = rq_fwmark (request_of d) /\ rq_replace q0 = d_replace_peers d
         /\ Forall (fun q => rq_name q = d_name d /\ rq_priv q = None /\ rq_port q = None /\ rq_fwmark q = None /\ rq_replace q = false) later)
    /\ (let sections := flat_map rq_peers qs in
        flat_map of_psk sections = flat_map of_psk (rq_peers (request_of d))
        /\ flat_map of_endpoint sections = flat_map of_endpoint (rq_peers (request_of d))
        /\ flat_map of_ka sections = flat_map of_ka (rq_peers (request_of d))
        /\ flat_map of_replace sections = flat_map of_replace (rq_peers (request_of d))
        /\ flat_map of_aips sections = flat_map of_aips (rq_peers (request_of d))).
Proof.
  intros B id now d pubkey portid quote flags buf s HB Hw Hn Hnow Hf.
  destruct (set_device_master B id now d HB Hw Hn Hnow) as (ms & rs & H1 & H2 & H3 & H4).
  destruct (H4 iface (interface pubkey) portid quote flags buf s Hf) as (ret & s' & done & D1 & D2).
  destruct (interface_delivers pubkey ms rs H2 _ _ _ _ D1) as (-> & -> & ->).
  rewrite (frags_effect pubkey d rs H3) in D2. exists (rev ms), rs. split; [exact D2|].
  rewrite rev_involutive. split; [clear - H2; induction H2; cbn; congruence|]. split.
  - inversion H3 as [at_ secs Ht|at_ secs ps' al' rs' Ht Hne Hm Hfr]; subst.
    + exists (rq_dev d true (map rq_sec secs)), []. repeat split; constructor.
    + exists (rq_dev d true (map rq_sec secs)), rs'. repeat split.
      pose proof (frags_head d _ _ Hfr eq_refl) as Hh. revert Hh. apply Forall_impl. intros q ->. repeat split.
  - assert (Ep : pending (d_peers d) [] = rq_peers (request_of d)) by apply pending_fresh.
    pose proof (fun X f Hf => frags_flat X f Hf d None rs H3) as F. cbn [state_of fst snd] in F. rewrite Ep in F.
    cbv zeta. repeat split; apply F; intros p cont a b; unfold of_psk, of_endpoint, of_ka, of_replace, of_aips, part, rq_sec;
      cbn [s_peer s_cont s_take rp_pub rp_psk rp_endpoint rp_ka rp_replace rp_aips negb andb opt]; rewrite ?app_nil_r; try reflexivity.
    apply map_app.
Qed.

(** C20.  The requests of an update do not depend on the answers; they are sent in order, up to the first one that is refused or
    answered by an error, which is what the call returns; it returns 0 iff all of them were acknowledged.  The final state of the
    receiver is the one after the delivered requests. *)
Theorem C20_failed_update_is_reported : forall B id now d,
  272 <= B <= 8192 -> wf_device d -> wf_name (d_name d) -> (forall i, 0 <= now i < 2 ^ 32) ->
  exists ms, forall K (r : K -> list Z -> verdict * K) portid quote flags buf k, fair r portid quote flags ->
    exists ret k' done, delivers r ms k ret k' done
      /\ kernel_set_device (answers r portid quote flags) B id portid now d buf k = Some (ret, k', rev done).
Proof.
  intros B id now d HB Hw Hn Hnow. destruct (set_device_master B id now d HB Hw Hn Hnow) as (ms & rs & _ & _ & _ & H).
  exists ms. exact H.
Qed.

Theorem C20_success_means_all_acknowledged : forall K (r : K -> list Z -> verdict * K) portid quote flags, fair r portid quote flags ->
  forall ms k ret k' done, delivers r ms k ret k' done ->
  ret <= 0 /\ (ret = 0 <-> done = ms /\ fold_left (fun x m => match x with Some k => match r k m with (Answer 0, k1) => Some k1 | _ => None end | None => None end) ms (Some k) = Some k').
Proof.
  intros K r portid quote flags (_ & _ & _ & Hr). induction 1 as [k|m ms k e k' H|m ms k e k' H He|m ms k k1 ret k' done H Hd IH].
  - split; [lia|]. split; auto.
  - specialize (Hr k m). rewrite H in Hr. cbn in Hr. split; [lia|]. split; [lia|]. intros [E _]. discriminate.
  - split; [lia|]. split; [lia|]. intros [_ E]. cbn [fold_left] in E. rewrite H in E. exfalso.
    assert (N : forall l, fold_left (fun x m => match x with Some k => match r k m with (Answer 0, k1) => Some k1 | _ => None end | None => None end) l (@None K) = None).
    { induction l as [|a l IHl]; [reflexivity|exact IHl]. }
    destruct e; try lia. rewrite N in E. discriminate.
  - destruct IH as [IH1 IH2]. split; [exact IH1|]. cbn [fold_left]. rewrite H. rewrite IH2. split; intros [E1 E2]; split; congruence.
Qed.

(** The hypotheses are met by a device whose update takes several messages with the smallest buffer. *)
Definition ex_aip (i : Z) : allowedip := mk_aip AF_INET [10; 0; i; 0] 24.
Definition ex_peer : peer :=
  set_aips (map ex_aip [1; 2; 3; 4; 5; 6; 7; 8; 9; 10]) (set_ka 25 (set_endpoint (Ep4 [192; 0; 2; 1] 51820) (set_psk (repeat 9 32) (set_pub (repeat 7 32) (set_replace_aips true peer0))))).
Definition ex_dev : device :=
  set_peers [ex_peer; set_pub (repeat 8 32) (set_remove peer0)] (set_replace_peers true (set_port 1234 (set_priv (repeat 5 32) (set_name [119; 103; 48] device0)))).
Definition ex_quote {K} (_ : K) (m : list Z) : list Z := firstn 16 (m ++ repeat 0 16).

Example ex_dev_ok : wf_device ex_dev /\ wf_name (d_name ex_dev) /\ (exists ms, messages 272 30 (fun i => Z.of_nat i) (work ex_dev) 0 ex_dev None = Some ms /\ (3 <= length ms)%nat).
Proof.
  assert (K : forall b n, 0 <= b < 256 -> Forall is_byte (repeat b n)).
  { intros b n Hb. apply Forall_forall. intros x Hx. apply repeat_spec in Hx. subst. exact Hb. }
  split; [|split].
  - repeat split; try (apply K; lia); try (cbn; lia). repeat constructor; try (apply K; lia); cbn; try lia;
      repeat constructor; try (left; repeat split; cbn; try lia; repeat constructor; unfold is_byte; lia); unfold is_byte; lia.
  - split; [repeat constructor; unfold is_char; lia|cbn; lia].
  - eexists. split; [vm_compute; reflexivity|]. cbn. lia.
Qed.
Example ex_fair : fair (interface (fun k => k)) 77 ex_quote (fun _ _ => 0).
Proof.
  split; [lia|]. split.
  - intros k m. unfold ex_quote. assert (E : length (firstn 16 (m ++ repeat 0 16)) = 16%nat) by (rewrite firstn_length, app_length, repeat_length; lia).
    unfold len. rewrite E. cbn. lia.
  - split; [intros; split; [lia|reflexivity]|]. intros k m. unfold interface. destruct (read_request m); cbn; lia.
Qed.
