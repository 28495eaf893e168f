(** Proofs about the messages kernel_set_device builds. *)
From Coq Require Import ZArith List Bool Lia.
From Verif Require Import Base Types NlSpec KernelSpec Nl NlSet NlProofs.
Import ListNotations.
Open Scope Z_scope.

Lemma writes_bind : forall B w1 w2 c1 c2, writes B w1 c1 -> writes B w2 c2 -> writes B (fun b => bind_wr (w1 b) w2) (c1 ++ c2).
Proof.
  intros B w1 w2 c1 c2 H1 H2 b Hb. specialize (H1 b Hb). pose proof (len_nonneg c2).
  rewrite len_app. destruct (Z.leb_spec (len b + len c1) B) as [Hc|Hc].
  - rewrite H1. cbn [bind_wr]. specialize (H2 (b ++ c1)). rewrite len_app in H2. specialize (H2 ltac:(lia)).
    rewrite <- Z.add_assoc in H2. destruct (Z.leb_spec (len b + (len c1 + len c2)) B) as [Hd|Hd].
    + rewrite H2, app_assoc. reflexivity.
    + destruct H2 as (x & ->). exists (c1 ++ x). rewrite app_assoc. reflexivity.
  - destruct (Z.leb_spec (len b + (len c1 + len c2)) B); [lia|]. destruct H1 as (x & ->). exists x. reflexivity.
Qed.

(** ** Allowed IPs *)
Definition aip_body (a : allowedip) : list Z := enc 1 (le 2 (a_family a)) ++ enc 2 (a_ip a) ++ enc 3 (le 1 (a_cidr a)).
Definition enc_aip (a : allowedip) : list Z := enc (Z.lor (2 ^ 15) 0) (aip_body a).

Lemma aip_body_len : forall a, wf_aip a -> len (aip_body a) = 20 + len (a_ip a) /\ (len (a_ip a) = 4 \/ len (a_ip a) = 16).
Proof.
  intros a H. unfold aip_body. autorewrite with len.
  destruct H as [(_ & Hl & _)|(_ & Hl & _)]; unfold len; rewrite Hl; cbn; lia.
Qed.
Lemma aip_body_4 : forall a, (4 | len (aip_body a)).
Proof. intro a. unfold aip_body. rewrite !len_app. repeat apply Z.divide_add_r; apply enc_mult. Qed.
Lemma enc_aip_len : forall a, wf_aip a -> len (enc_aip a) <= 40.
Proof.
  intros a H. unfold enc_aip. rewrite len_enc, up4_id by apply aip_body_4.
  destruct (aip_body_len a H) as [-> [-> | ->]]; lia.
Qed.
Lemma enc_aip_split : forall a, len (enc_aip a) = 4 + len (aip_body a).
Proof. intro a. unfold enc_aip. rewrite len_enc, up4_id by apply aip_body_4. reflexivity. Qed.

Lemma put_aip_writes : forall B a, wf_aip a -> writes B (fun b => put_aip_body B b a) (aip_body a).
Proof.
  intros B a H. unfold put_aip_body, aip_body.
  assert (Hl : len (a_ip a) < 65532) by (destruct (aip_body_len a H); lia).
  apply (writes_bind B (fun b => attr_put_u16_check B b 1 (a_family a))).
  { apply writes_put. rewrite len_le. lia. }
  apply (writes_bind B (fun b => if a_family a =? AF_INET then attr_put_check B b 2 (a_ip a)
            else if a_family a =? AF_INET6 then attr_put_check B b 2 (a_ip a) else Some (Fit b))).
  { destruct H as [(-> & _)|(-> & _)]; cbn; apply writes_put; exact Hl. }
  apply writes_put. rewrite len_le. lia.
Qed.

Definition enc_aips (l : list allowedip) : list Z := concat (map enc_aip l).
Lemma enc_aips_4 : forall l, (4 | len (enc_aips l)).
Proof.
  induction l as [|a l IH]; [exists 0; reflexivity|]. unfold enc_aips in *. cbn [map concat]. rewrite len_app.
  apply Z.divide_add_r; [apply enc_mult|exact IH].
Qed.

Lemma put_aips_spec : forall B l b, len b <= B -> B < 65532 -> Forall wf_aip l ->
  exists take rest, l = take ++ rest /\ put_aips B b l = Some (b ++ enc_aips take, rest)
    /\ len b + len (enc_aips take) <= B
    /\ (rest = [] \/ exists a r, rest = a :: r /\ B < len b + len (enc_aips take) + len (enc_aip a)).
Proof.
  intros B. induction l as [|a l IH]; intros b Hb HB Hw.
  - exists [], []. unfold enc_aips. cbn [map concat app put_aips]. rewrite app_nil_r, len_nil. repeat split; auto; lia.
  - inversion Hw as [|? ? Ha Hl]; subst. cbn [put_aips]. rewrite nest_start_check_spec by exact Hb.
    pose proof (enc_aip_split a) as Es. pose proof (len_nonneg (aip_body a)). pose proof (len_nonneg b).
    destruct (Z.leb_spec (len b + 4) B) as [H4|H4].
    + pose proof (put_aip_writes B a Ha (b ++ nest_hdr 0)) as Hp.
      assert (El : len (b ++ nest_hdr 0) = len b + 4) by (unfold nest_hdr; autorewrite with len; lia).
      rewrite El in Hp. specialize (Hp H4).
      destruct (Z.leb_spec (len b + 4 + len (aip_body a)) B) as [Hf|Hf].
      * rewrite Hp. rewrite <- app_assoc. rewrite nest_end_app; [|apply aip_body_4|lia].
        fold (enc_aip a). destruct (IH (b ++ enc_aip a)) as (take & rest & E1 & E2 & E3 & E4).
        { rewrite len_app. lia. } { exact HB. } { exact Hl. }
        exists (a :: take), rest. rewrite E2. unfold enc_aips in *. cbn [map concat app]. rewrite len_app in *.
        split; [congruence|]. split; [rewrite app_assoc; reflexivity|]. split; [lia|].
        destruct E4 as [E4|(a' & r & E4 & E5)]; [left; exact E4|right; exists a', r; split; [exact E4|lia]].
      * destruct Hp as (x & ->). rewrite <- app_assoc, nest_cancel_app.
        exists [], (a :: l). unfold enc_aips. cbn [map concat app]. rewrite app_nil_r, len_nil. split; [reflexivity|]. split; [reflexivity|]. split; [lia|]. right. exists a, l. split; [reflexivity|lia].
    + exists [], (a :: l). unfold enc_aips. cbn [map concat app]. rewrite app_nil_r, len_nil. split; [reflexivity|]. split; [reflexivity|]. split; [lia|]. right. exists a, l. split; [reflexivity|lia].
Qed.

(** ** Peers *)
Definition pflags (p : peer) (cont : bool) : Z :=
  Z.lor (if p_remove p then 1 else 0) (if negb cont && p_replace_aips p then 2 else 0).
Definition head (p : peer) (cont : bool) : list Z :=
  enc 1 (p_pub p)
  ++ (if cont then []
      else (if p_has_psk p then enc 2 (p_psk p) else [])
           ++ (match p_endpoint p with EpNone => [] | e => enc 4 (sockaddr e) end)
           ++ (if p_has_ka p then enc 5 (le 2 (p_ka p)) else []))
  ++ (if negb (pflags p cont =? 0) then enc 3 (le 4 (pflags p cont)) else []).

Lemma sockaddr_len : forall e, wf_endpoint e -> len (sockaddr e) <= 28.
Proof.
  intros [|a q|a q f s] H; cbn [sockaddr wf_endpoint] in *.
  - cbn. lia.
  - destruct H as (Ha & _). unfold be16. autorewrite with len. unfold len at 1. rewrite Ha. cbn. lia.
  - destruct H as (Ha & _). unfold be16. autorewrite with len. unfold len at 1. rewrite Ha. cbn. lia.
Qed.

Lemma key_len : forall k, wf_key k -> len k = 32.
Proof. intros k (H & _). unfold len. rewrite H. reflexivity. Qed.

Lemma head_len : forall p c, wf_peer p -> len (head p c) <= 120.
Proof.
  intros p c (Hp & Hk & He & _). unfold head. apply key_len in Hp. apply key_len in Hk. apply sockaddr_len in He.
  rewrite !len_app, len_enc, Hp.
  assert (X : forall b : bool, len (if b then enc 3 (le 4 (pflags p c)) else []) <= 8) by (intros []; autorewrite with len; cbn; lia).
  specialize (X (negb (pflags p c =? 0))).
  assert (Y : len (if p_has_psk p then enc 2 (p_psk p) else []) <= 36) by (destruct (p_has_psk p); autorewrite with len; rewrite ?Hk; cbn; lia).
  assert (Z0 : len (if p_has_ka p then enc 5 (le 2 (p_ka p)) else []) <= 8) by (destruct (p_has_ka p); autorewrite with len; cbn; lia).
  assert (W : len (match p_endpoint p with EpNone => [] | e => enc 4 (sockaddr e) end) <= 32).
  { destruct (p_endpoint p) as [|x y|x y z t]; [cbn; lia| |]; rewrite len_enc;
    match type of He with ?n <= 28 => assert (U : up4 n <= up4 28)
      by (unfold up4; apply Z.mul_le_mono_nonneg_r; [lia|]; apply Z.div_le_mono; lia) end;
    change (up4 28) with 28 in U; lia. }
  change (up4 32) with 32. destruct c; [rewrite len_nil; lia|]. rewrite !len_app. lia.
Qed.
Lemma head_4 : forall p c, (4 | len (head p c)).
Proof.
  intros p c. assert (N : (4 | len [])) by (exists 0; reflexivity). unfold head. rewrite !len_app.
  repeat apply Z.divide_add_r; try apply enc_mult.
  - destruct c; [exact N|]. rewrite !len_app. repeat apply Z.divide_add_r.
    + destruct (p_has_psk p); [apply enc_mult|exact N].
    + destruct (p_endpoint p); [exact N|apply enc_mult|apply enc_mult].
    + destruct (p_has_ka p); [apply enc_mult|exact N].
  - destruct (negb (pflags p c =? 0)); [apply enc_mult|exact N].
Qed.

Lemma writes_ext : forall B w1 w2 c, (forall b, w1 b = w2 b) -> writes B w1 c -> writes B w2 c.
Proof. intros B w1 w2 c E H b Hb. rewrite <- E. apply H, Hb. Qed.

Lemma put_head_writes : forall B p c, wf_peer p -> writes B (fun b => put_peer_head B b p c) (head p c).
Proof.
  intros B p c (Hp & Hk & He & _). apply key_len in Hp. apply key_len in Hk. apply sockaddr_len in He.
  unfold put_peer_head, head.
  apply (writes_bind B (fun b => attr_put_check B b 1 (p_pub p))). { apply writes_put. lia. }
  apply (writes_bind B (fun b => if c then Some (Fit b) else bind_wr (when (p_has_psk p) (attr_put_check B b 2 (p_psk p)) b)
      (fun b => bind_wr (match p_endpoint p with EpNone => Some (Fit b) | e => attr_put_check B b 4 (sockaddr e) end)
      (fun b => when (p_has_ka p) (attr_put_u16_check B b 5 (p_ka p)) b)))).
  - destruct c; [apply writes_nil|].
    apply (writes_bind B (fun b => when (p_has_psk p) (attr_put_check B b 2 (p_psk p)) b)).
    { unfold when. destruct (p_has_psk p); [apply writes_put; lia|apply writes_nil]. }
    apply (writes_bind B (fun b => match p_endpoint p with EpNone => Some (Fit b) | e => attr_put_check B b 4 (sockaddr e) end)).
    { destruct (p_endpoint p); [apply writes_nil|apply writes_put; lia|apply writes_put; lia]. }
    unfold when. destruct (p_has_ka p); [apply writes_put; rewrite len_le; lia|apply writes_nil].
  - fold (pflags p c). unfold when. destruct (negb (pflags p c =? 0)); [apply writes_put; rewrite len_le; lia|apply writes_nil].
Qed.

(** What one message carries of a peer: the whole rest of it or a part. *)
Record section := mk_sec { s_peer : peer; s_cont : bool; s_nest : bool; s_take : list allowedip }.
Definition sec_body (s : section) : list Z :=
  head (s_peer s) (s_cont s) ++ (if s_nest s then enc (Z.lor (2 ^ 15) 9) (enc_aips (s_take s)) else []).
Definition enc_sec (s : section) : list Z := enc (Z.lor (2 ^ 15) 0) (sec_body s).
Definition enc_secs (l : list section) : list Z := concat (map enc_sec l).

Definition nonempty {A} (l : list A) : bool := match l with [] => false | _ => true end.
Definition todo (p : peer) (al : list allowedip) : list allowedip := match al with [] => p_aips p | _ => al end.

Inductive taken : list peer -> list allowedip -> list section -> list peer -> list allowedip -> Prop :=
| T_end : taken [] [] [] [] []
| T_stop : forall p ps al, taken (p :: ps) al [] (p :: ps) al
| T_peer : forall p ps al secs ps' al', taken ps [] secs ps' al' ->
    taken (p :: ps) al (mk_sec p (nonempty al) (nonempty (p_aips p)) (todo p al) :: secs) ps' al'
| T_part : forall p ps al nest take rest, todo p al = take ++ rest -> rest <> [] -> (nest = false -> take = []) ->
    taken (p :: ps) al [mk_sec p (nonempty al) nest take] (p :: ps) rest.

Definition ok_state (ps : list peer) (al : list allowedip) : Prop :=
  match al with
  | [] => True
  | _ => match ps with [] => False | p :: _ => exists x, p_aips p = x ++ al end
  end.

Definition peers_work (ps : list peer) : nat := fold_right (fun p n => S (length (p_aips p)) + n)%nat 0%nat ps.
Definition mes (ps : list peer) (al : list allowedip) : nat :=
  match al with [] => peers_work ps | _ => length al + peers_work (tl ps) end.

Lemma sec_body_4 : forall s, (4 | len (sec_body s)).
Proof.
  intro s. unfold sec_body. rewrite len_app. apply Z.divide_add_r; [apply head_4|].
  destruct (s_nest s); [apply enc_mult|exists 0; reflexivity].
Qed.
Lemma enc_secs_4 : forall l, (4 | len (enc_secs l)).
Proof.
  induction l as [|a l IH]; [exists 0; reflexivity|]. unfold enc_secs in *. cbn [map concat]. rewrite len_app.
  apply Z.divide_add_r; [apply enc_mult|exact IH].
Qed.
Lemma enc_secs_cons : forall s l, enc_secs (s :: l) = enc_sec s ++ enc_secs l.
Proof. reflexivity. Qed.

Lemma todo_wf : forall p al, wf_peer p -> ok_state [p] al -> Forall wf_aip (todo p al).
Proof.
  intros p al (_ & _ & _ & _ & Ha & _) H. destruct al as [|a al]; [exact Ha|].
  destruct H as (x & E). cbn [todo]. rewrite E in Ha. apply Forall_app in Ha. tauto.
Qed.
Lemma todo_nil : forall p al, ok_state [p] al -> p_aips p = [] -> al = [].
Proof.
  intros p al H E. destruct al as [|a al]; [reflexivity|]. destruct H as (x & F). rewrite E in F. destruct x; discriminate.
Qed.

Lemma taken_mes : forall ps al secs ps' al', taken ps al secs ps' al' -> ok_state ps al -> (mes ps' al' <= mes ps al)%nat.
Proof.
  induction 1 as [|p ps al|p ps al secs ps' al' H IH|p ps al nest take rest E Hr Hn]; intro Hok; try lia.
  - specialize (IH I). cbn [mes] in IH. unfold mes at 2. destruct al; cbn [tl peers_work fold_right] in *; fold (peers_work ps) in *; lia.
  - destruct rest as [|r rest]; [contradiction|]. assert (L : (length (r :: rest) <= length (todo p al))%nat) by (rewrite E, app_length; lia).
    unfold mes. destruct al; cbn [tl peers_work fold_right todo] in *; fold (peers_work ps); lia.
Qed.

Definition peer_room : Z := 168.

Lemma enc_sec_len : forall s, len (enc_sec s) = 4 + len (sec_body s).
Proof. intro s. unfold enc_sec. rewrite len_enc, up4_id by apply sec_body_4. reflexivity. Qed.

Lemma put_peers_spec : forall B ps al b, len b <= B -> B < 65532 -> Forall wf_peer ps -> ok_state ps al ->
  exists secs ps' al', put_peers B b ps al = Some (b ++ enc_secs secs, ps', al')
    /\ taken ps al secs ps' al' /\ ok_state ps' al' /\ len b + len (enc_secs secs) <= B
    /\ (ps <> [] -> len b + peer_room <= B -> (mes ps' al' < mes ps al)%nat).
Proof.
  intros B. induction ps as [|p ps IH]; intros al b Hb HB Hw Hok.
  { exists [], [], []. cbn. rewrite app_nil_r. destruct al as [|a al]; [|contradiction].
    repeat split; [constructor|lia|congruence]. }
  inversion Hw as [|? ? Hp Hps]; subst.
  assert (Hok1 : ok_state [p] al) by (destruct al; exact Hok).
  assert (Stop : put_peers B b (p :: ps) al = Some (b, p :: ps, al) -> (len b + 4 > B \/ len b + 4 + len (head p (nonempty al)) > B) ->
     exists secs ps' al', put_peers B b (p :: ps) al = Some (b ++ enc_secs secs, ps', al')
    /\ taken (p :: ps) al secs ps' al' /\ ok_state ps' al' /\ len b + len (enc_secs secs) <= B
    /\ (p :: ps <> [] -> len b + peer_room <= B -> (mes ps' al' < mes (p :: ps) al)%nat)).
  { intros E F. exists [], (p :: ps), al. rewrite app_nil_r. unfold enc_secs. cbn [map concat]. rewrite len_nil. split; [exact E|]. split; [constructor|].
    split; [exact Hok|]. split; [lia|]. intros _ Hr. unfold peer_room in Hr. pose proof (head_len p (nonempty al) Hp). lia. }
  cbn [put_peers] in *. rewrite nest_start_check_spec in * by exact Hb.
  destruct (Z.leb_spec (len b + 4) B) as [H4|H4]; [|apply Stop; [reflexivity|lia]].
  change (match al with [] => false | _ => true end) with (nonempty al) in *.
  pose proof (put_head_writes B p (nonempty al) Hp (b ++ nest_hdr 0)) as Hh.
  assert (El : len (b ++ nest_hdr 0) = len b + 4) by (unfold nest_hdr; autorewrite with len; lia).
  rewrite El in Hh. specialize (Hh H4).
  destruct (Z.leb_spec (len b + 4 + len (head p (nonempty al))) B) as [Hf|Hf].
  2:{ destruct Hh as (x & Hx). rewrite Hx in *. rewrite <- app_assoc, nest_cancel_app in *. apply Stop; [reflexivity|lia]. }
  rewrite Hh in *. clear Stop.
  set (b2 := (b ++ nest_hdr 0) ++ head p (nonempty al)) in *.
  assert (Eb2 : len b2 = len b + 4 + len (head p (nonempty al))) by (unfold b2; rewrite len_app, El; reflexivity).
  (* closing the peer and going on *)
  assert (Next : forall sec, sec_body sec = head p (nonempty al) ++ skipn (length (head p (nonempty al))) (sec_body sec) ->
    sec = mk_sec p (nonempty al) (nonempty (p_aips p)) (todo p al) -> len b + len (enc_sec sec) <= B ->
    exists secs ps' al', put_peers B (b ++ enc_sec sec) ps [] = Some (b ++ enc_secs secs, ps', al')
    /\ taken (p :: ps) al secs ps' al' /\ ok_state ps' al' /\ len b + len (enc_secs secs) <= B
    /\ (p :: ps <> [] -> len b + peer_room <= B -> (mes ps' al' < mes (p :: ps) al)%nat)).
  { intros sec _ Esec Hl. destruct (IH [] (b ++ enc_sec sec)) as (secs & ps' & al' & E1 & E2 & E3 & E4 & E5).
    { rewrite len_app. lia. } { exact HB. } { exact Hps. } { exact I. }
    exists (sec :: secs), ps', al'. rewrite E1, enc_secs_cons, app_assoc. split; [reflexivity|].
    split; [rewrite Esec; apply T_peer; exact E2|]. split; [exact E3|]. rewrite !len_app in *. split; [lia|].
    intros _ _. pose proof (taken_mes _ _ _ _ _ E2 I) as Hm. cbn [mes] in Hm.
    assert (mes (p :: ps) al > peers_work ps)%nat; [|lia].
    unfold mes. destruct al; cbn [tl peers_work fold_right length]; fold (peers_work ps); lia. }
  destruct (p_aips p) as [|a0 aips0] eqn:Ea.
  - (* no allowed IPs *)
    pose proof (todo_nil _ _ Hok1 Ea) as ->.
    set (sec := mk_sec p (nonempty (@nil allowedip)) (nonempty (@nil allowedip)) (todo p [])).
    assert (Eb : sec_body sec = head p false) by (unfold sec_body, sec; cbn [s_peer s_cont s_nest nonempty]; apply app_nil_r).
    assert (En : nest_end b2 (length b) = b ++ enc_sec sec).
    { unfold b2, enc_sec. rewrite Eb, <- app_assoc. apply nest_end_app; [apply head_4|pose proof (head_len p false Hp); lia]. }
    rewrite En. apply Next; [rewrite Eb; cbn [nonempty]; rewrite skipn_all, app_nil_r; reflexivity|reflexivity|].
    rewrite enc_sec_len, Eb. cbn [nonempty] in Hf. lia.
  - rewrite nest_start_check_spec by lia.
    change (match al with [] => a0 :: aips0 | _ => al end) with (match al with [] => a0 :: aips0 | _ :: _ => al end).
    rewrite <- Ea. fold (todo p al). pose proof (todo_wf p al Hp Hok1) as Hwt.
    assert (Htne : todo p al <> []) by (destruct al; [cbn; congruence|discriminate]).
    destruct (Z.leb_spec (len b2 + 4) B) as [Hn|Hn].
    + destruct (put_aips_spec B (todo p al) (b2 ++ nest_hdr 9)) as (take & rest & E1 & E2 & E3 & E4).
      { rewrite len_app. unfold nest_hdr. autorewrite with len. lia. } { exact HB. } { exact Hwt. }
      rewrite len_app in E3, E4. assert (E9 : len (nest_hdr 9) = 4) by reflexivity. rewrite E9 in E3, E4.
      rewrite E2. rewrite <- app_assoc.
      set (sec := mk_sec p (nonempty al) true take).
      pose proof (len_nonneg (enc_aips take)). pose proof (len_nonneg b). pose proof (len_nonneg (head p (nonempty al))).
      assert (En : nest_end (nest_end (b2 ++ nest_hdr 9 ++ enc_aips take) (length b2)) (length b) = b ++ enc_sec sec).
      { rewrite nest_end_app; [|apply enc_aips_4|lia].
        unfold b2, enc_sec. rewrite <- !app_assoc. apply (nest_end_app b 0 (sec_body sec)); [apply sec_body_4|].
        unfold sec_body, sec. cbn [s_peer s_cont s_nest s_take]. rewrite len_app, len_enc, up4_id by apply enc_aips_4. lia. }
      assert (Lsec : len b + len (enc_sec sec) <= B).
      { rewrite enc_sec_len. unfold sec_body, sec. cbn [s_peer s_cont s_nest s_take]. rewrite len_app, len_enc, up4_id by apply enc_aips_4. lia. }
      destruct rest as [|r rest].
      * rewrite app_nil_r in E1. rewrite En. apply Next.
        -- unfold sec_body. cbn [s_peer s_cont s_nest s_take sec]. rewrite skipn_app_exact. reflexivity.
        -- unfold sec. rewrite <- E1, ?Ea. reflexivity.
        -- exact Lsec.
      * rewrite En. exists [sec], (p :: ps), (r :: rest). rewrite enc_secs_cons. unfold enc_secs at 1. cbn [map concat]. rewrite app_nil_r.
        split; [reflexivity|]. split; [apply T_part; [exact E1|discriminate|discriminate]|].
        split.
        { cbn [ok_state]. destruct al as [|x al]; [exists take; rewrite <- E1; reflexivity|].
          destruct Hok as (y & Hy). exists (y ++ take). rewrite Hy. cbn [todo] in E1. rewrite E1, app_assoc. reflexivity. }
        split.
        { unfold enc_secs. cbn [map concat]. rewrite app_nil_r. exact Lsec. }
        intros _ Hr. destruct E4 as [E4|(a' & r' & E4 & E5)]; [discriminate|]. injection E4 as <- <-.
        assert (Hwr : wf_aip r) by (rewrite E1 in Hwt; apply Forall_app in Hwt as [_ Hwt]; inversion Hwt; assumption).
        pose proof (enc_aip_len r Hwr). pose proof (head_len p (nonempty al) Hp). unfold peer_room in Hr.
        assert (Htk : take <> []). { intros ->. unfold enc_aips in E5. cbn [map concat] in E5. rewrite len_nil in E5. lia. }
        assert (Ll : (length (todo p al) = length take + length (r :: rest))%nat) by (rewrite E1, app_length; reflexivity).
        destruct take as [|t0 take]; [contradiction|]. cbn [length] in Ll.
        unfold mes. destruct al; cbn [tl peers_work fold_right todo length] in *; fold (peers_work ps); lia.
    + set (sec := mk_sec p (nonempty al) false []).
      assert (Eb : sec_body sec = head p (nonempty al)) by (unfold sec_body, sec; cbn [s_peer s_cont s_nest]; apply app_nil_r).
      assert (En : nest_end b2 (length b) = b ++ enc_sec sec).
      { unfold b2, enc_sec. rewrite Eb, <- app_assoc. apply nest_end_app; [apply head_4|pose proof (head_len p (nonempty al) Hp); lia]. }
      rewrite En. exists [sec], (p :: ps), (todo p al). rewrite enc_secs_cons. unfold enc_secs at 1. cbn [map concat]. rewrite app_nil_r.
      split; [reflexivity|]. split; [apply T_part; [reflexivity|exact Htne|reflexivity]|].
      split.
      { destruct al as [|x al]; [|exact Hok]. cbn [todo]. rewrite Ea. cbn [ok_state]. exists []. exact Ea. }
      split.
      { unfold enc_secs. cbn [map concat]. rewrite app_nil_r, enc_sec_len, Eb. lia. }
      intros _ Hr. unfold peer_room in Hr. pose proof (head_len p (nonempty al) Hp). lia.
Qed.
