(** The messages kernel_set_device builds, read back as requests, and their joint effect. *)
From Coq Require Import ZArith List Bool Lia.
From Verif Require Import Base Types NlSpec KernelSpec Nl NlSet NlProofs NlSetProofs.
Import ListNotations.
Open Scope Z_scope.

(** ** Reading back *)
Ltac small := (rewrite ?len_le; cbn; lia) || lia.

Lemma read_aip_body : forall a, wf_aip a -> read_aip (aip_body a) = Some a.
Proof.
  intros a H. unfold read_aip, aip_body.
  assert (Hl : len (a_ip a) < 65532) by (destruct (aip_body_len a H); lia).
  rewrite !attrs_enc by small. rewrite attrs_enc1 by small.
  change (1 mod 2 ^ 14) with 1. change (2 mod 2 ^ 14) with 2. change (3 mod 2 ^ 14) with 3.
  cbn [find_attr Z.eqb Pos.eqb]. rewrite !len_le. cbn [Z.of_nat Z.eqb Pos.of_succ_nat Pos.succ Pos.eqb andb].
  rewrite !le_val_le. destruct a as [fam ip c]. unfold wf_aip in H. cbn [a_family a_ip a_cidr] in *.
  destruct H as [(-> & E & Hb & Hc)|(-> & E & Hb & Hc)].
  - change (AF_INET mod 256 ^ Z.of_nat 2) with AF_INET. replace (c mod 256 ^ Z.of_nat 1) with c by (symmetry; apply Z.mod_small; cbn; lia).
    unfold len. rewrite E. cbn [Z.of_nat]. destruct (Z.leb_spec c 32); [|lia]. reflexivity.
  - change (AF_INET6 mod 256 ^ Z.of_nat 2) with AF_INET6. replace (c mod 256 ^ Z.of_nat 1) with c by (symmetry; apply Z.mod_small; cbn; lia).
    unfold len. rewrite E. cbn [Z.of_nat]. destruct (Z.leb_spec c 128); [|lia]. reflexivity.
Qed.

Lemma read_aips : forall l, Forall wf_aip l -> all_some (fun a => read_aip (snd a)) (attrs (enc_aips l)) = Some l.
Proof.
  induction 1 as [|a l Ha Hl IH]; [reflexivity|]. unfold enc_aips. cbn [map concat]. fold (enc_aips l).
  unfold enc_aip. rewrite attrs_enc.
  - cbn [all_some snd]. rewrite read_aip_body by exact Ha. fold (@all_some (Z * list Z) allowedip). rewrite IH. reflexivity.
  - apply nested_type. lia.
  - destruct (aip_body_len a Ha). lia.
Qed.

Lemma firstn_len : forall (a b : list Z) n, length a = n -> firstn n (a ++ b) = a.
Proof. intros a b n <-. apply firstn_app_exact. Qed.
Lemma skipn_len : forall (a b : list Z) n, length a = n -> skipn n (a ++ b) = b.
Proof. intros a b n <-. apply skipn_app_exact. Qed.

Lemma read_sockaddr : forall e, wf_endpoint e -> e <> EpNone -> read_endpoint (sockaddr e) = Some e.
Proof.
  intros [|a q|a q f s] H Hn; [contradiction| |]; cbn [sockaddr wf_endpoint] in *.
  - destruct H as (Ha & _ & Hq). unfold be16. change (le 2 AF_INET) with [2; 0]. cbn [app]. unfold read_endpoint.
    change (2 + 256 * 0 =? AF_INET) with true. cbn [andb].
    replace (len (2 :: 0 :: q / 256 :: q mod 256 :: a ++ repeat 0 8)) with 16
      by (autorewrite with len; unfold len; rewrite Ha; reflexivity).
    cbn [Z.eqb Pos.eqb]. rewrite firstn_len by exact Ha. rewrite <- (Z.div_mod q 256) by lia. reflexivity.
  - destruct H as (Ha & _ & Hq & Hf & Hs). unfold be16. change (le 2 AF_INET6) with [10; 0]. cbn [app]. unfold read_endpoint.
    change (10 + 256 * 0 =? AF_INET) with false. change (10 + 256 * 0 =? AF_INET6) with true. cbn [andb].
    assert (E : len (10 :: 0 :: q / 256 :: q mod 256 :: le 4 f ++ a ++ le 4 s) = 28)
      by (autorewrite with len; unfold len; rewrite Ha; reflexivity).
    rewrite E. cbn [Z.eqb Pos.eqb]. rewrite (firstn_len (le 4 f)) by apply le_length. rewrite (skipn_len (le 4 f)) by apply le_length.
    rewrite firstn_len by exact Ha. rewrite app_assoc. rewrite skipn_len by (rewrite app_length, le_length, Ha; reflexivity).
    rewrite !le_val_le_id by (cbn; lia). rewrite <- (Z.div_mod q 256) by lia. reflexivity.
Qed.

(** The request section a message carries. *)
Definition rq_sec (s : section) : rq_peer :=
  let p := s_peer s in
  mk_rq_peer (p_pub p) (p_remove p) (negb (s_cont s) && p_replace_aips p)
    (opt (negb (s_cont s) && p_has_psk p) (p_psk p))
    (if s_cont s then None else match p_endpoint p with EpNone => None | e => Some e end)
    (opt (negb (s_cont s) && p_has_ka p) (p_ka p)) (s_take s).

Definition ok_sec (s : section) : Prop :=
  wf_peer (s_peer s) /\ Forall wf_aip (s_take s) /\ (s_nest s = false -> s_take s = []) /\ len (enc_aips (s_take s)) < 65532.

Lemma attrs_opt : forall (b : bool) t d rest, (b = true -> 0 <= t < 65536 /\ len d < 65532) ->
  attrs ((if b then enc t d else []) ++ rest) = (if b then [(t mod 2 ^ 14, d)] else []) ++ attrs rest.
Proof. intros [] t d rest H; [|reflexivity]. destruct (H eq_refl). rewrite attrs_enc by assumption. reflexivity. Qed.

Lemma find_app : forall t a b, find_attr t (a ++ b) = match find_attr t b with Some q => Some q | None => find_attr t a end.
Proof.
  intros t a b. induction a as [|[t' p] a IH]; cbn [app find_attr].
  - destruct (find_attr t b); reflexivity.
  - rewrite IH. destruct (find_attr t b); reflexivity.
Qed.
Lemma find_opt : forall (c : bool) t t' d, find_attr t (if c then [(t', d)] else []) = if c && (t' =? t) then Some d else None.
Proof. intros [] t t' d; reflexivity. Qed.

Lemma read_sec : forall s, ok_sec s -> read_peer (sec_body s) = Some (rq_sec s).
Proof.
  intros [p cont nest take] ((Hp & Hk & He & Hka & Ha & _) & Ht & Hn & Hl). cbn [s_peer s_take s_nest] in *.
  pose proof (key_len _ Hp) as Lp. pose proof (key_len _ Hk) as Lk. pose proof (sockaddr_len _ He) as Le.
  set (ep := negb cont && match p_endpoint p with EpNone => false | _ => true end).
  set (fl := negb (pflags p cont =? 0)).
  assert (EA : attrs (sec_body (mk_sec p cont nest take)) =
    [(1, p_pub p)] ++ (if negb cont && p_has_psk p then [(2, p_psk p)] else [])
    ++ (if ep then [(4, sockaddr (p_endpoint p))] else []) ++ (if negb cont && p_has_ka p then [(5, le 2 (p_ka p))] else [])
    ++ (if fl then [(3, le 4 (pflags p cont))] else []) ++ (if nest then [(9, enc_aips take)] else [])).
  { unfold sec_body, head. cbn [s_peer s_cont s_nest s_take]. rewrite <- !app_assoc. rewrite attrs_enc by small.
    cbn [app]. f_equal.
    assert (E1 : (if cont then [] else (if p_has_psk p then enc 2 (p_psk p) else [])
         ++ match p_endpoint p with EpNone => [] | e => enc 4 (sockaddr e) end ++ (if p_has_ka p then enc 5 (le 2 (p_ka p)) else []))
      = (if negb cont && p_has_psk p then enc 2 (p_psk p) else []) ++ (if ep then enc 4 (sockaddr (p_endpoint p)) else [])
        ++ (if negb cont && p_has_ka p then enc 5 (le 2 (p_ka p)) else [])).
    { unfold ep. destruct cont; cbn [negb andb app]; [reflexivity|]. destruct (p_endpoint p); reflexivity. }
    rewrite E1. rewrite <- !app_assoc. rewrite !attrs_opt by (intro; split; small).
    fold fl.
    destruct nest.
    - rewrite attrs_enc1 by (try apply nested_type; lia). destruct (nested_type 9 ltac:(cbn; lia)) as [_ ->]. reflexivity.
    - rewrite attrs_nil. reflexivity. }
  unfold read_peer. rewrite EA. clear EA.
  assert (F : forall t, find_attr t
     ([(1, p_pub p)] ++ (if negb cont && p_has_psk p then [(2, p_psk p)] else [])
    ++ (if ep then [(4, sockaddr (p_endpoint p))] else []) ++ (if negb cont && p_has_ka p then [(5, le 2 (p_ka p))] else [])
    ++ (if fl then [(3, le 4 (pflags p cont))] else []) ++ (if nest then [(9, enc_aips take)] else [])) =
    if nest && (9 =? t) then Some (enc_aips take) else if fl && (3 =? t) then Some (le 4 (pflags p cont))
    else if negb cont && p_has_ka p && (5 =? t) then Some (le 2 (p_ka p)) else if ep && (4 =? t) then Some (sockaddr (p_endpoint p))
    else if negb cont && p_has_psk p && (2 =? t) then Some (p_psk p) else if 1 =? t then Some (p_pub p) else None).
  { intro t. rewrite !find_app, !find_opt. cbn [find_attr].
    repeat match goal with |- context [if ?c then _ else _] => destruct c end; reflexivity. }
  rewrite !F. clear F. cbn [Z.eqb Pos.eqb]. rewrite !andb_false_r, !andb_true_r. rewrite Lp. cbn [Z.eqb Pos.eqb].
  assert (Fl : flag_word (if fl then Some (le 4 (pflags p cont)) else None) = Some (pflags p cont)).
  { unfold flag_word, fl. destruct (pflags p cont =? 0) eqn:E; cbn [negb].
    - apply Z.eqb_eq in E. rewrite E. reflexivity.
    - rewrite len_le. cbn [Z.of_nat Pos.of_succ_nat Pos.succ Z.eqb Pos.eqb]. rewrite le_val_le_id; [reflexivity|].
      unfold pflags. destruct (p_remove p), (negb cont && p_replace_aips p); cbn; lia. }
  rewrite Fl.
  assert (Ps : sized 32 (fun k => k) (if negb cont && p_has_psk p then Some (p_psk p) else None) = Some (opt (negb cont && p_has_psk p) (p_psk p))).
  { unfold sized, opt. destruct (negb cont && p_has_psk p); [|reflexivity]. rewrite Lk. reflexivity. }
  rewrite Ps.
  assert (Ka : sized 2 le_val (if negb cont && p_has_ka p then Some (le 2 (p_ka p)) else None) = Some (opt (negb cont && p_has_ka p) (p_ka p))).
  { unfold sized, opt. destruct (negb cont && p_has_ka p); [|reflexivity]. rewrite len_le. cbn [Z.of_nat Pos.of_succ_nat Pos.succ Z.eqb Pos.eqb].
    rewrite le_val_le_id by (cbn; lia). reflexivity. }
  rewrite Ka.
  assert (Ai : read_nested read_aip (if nest then Some (enc_aips take) else None) = Some take).
  { unfold read_nested. destruct nest; [apply read_aips; exact Ht|]. rewrite (Hn eq_refl). reflexivity. }
  rewrite Ai.
  assert (Ep : match (if ep then Some (sockaddr (p_endpoint p)) else None) with
               | None => Some None
               | Some e => match read_endpoint e with Some x => Some (Some x) | None => None end
               end = Some (if cont then None else match p_endpoint p with EpNone => None | e => Some e end)).
  { unfold ep. destruct cont; cbn [negb andb]; [reflexivity|]. destruct (p_endpoint p) eqn:E; [reflexivity| |];
      rewrite read_sockaddr by (assumption || discriminate); reflexivity. }
  rewrite Ep. unfold rq_sec. cbn [s_peer s_cont s_take]. f_equal.
  unfold pflags. f_equal; destruct (p_remove p), (negb cont && p_replace_aips p); reflexivity.
Qed.

Lemma read_secs : forall l, Forall ok_sec l -> Forall (fun s => len (sec_body s) < 65532) l ->
  all_some (fun a => read_peer (snd a)) (attrs (enc_secs l)) = Some (map rq_sec l).
Proof.
  induction l as [|s l IH]; intros Ho Hl; [reflexivity|].
  inversion Ho; inversion Hl; subst. unfold enc_secs. cbn [map concat]. fold (enc_secs l).
  unfold enc_sec. rewrite attrs_enc; [|apply nested_type; lia|assumption].
  cbn [all_some snd]. rewrite read_sec by assumption. fold (@all_some (Z * list Z) rq_peer). rewrite IH by assumption. reflexivity.
Qed.

(** ** The device part of a message *)
Definition header (id seq : Z) : list Z := le 4 20 ++ le 2 id ++ le 2 5 ++ le 4 seq ++ le 4 0 ++ [1; 1; 0; 0].
Definition dev_part (d : device) (first : bool) : list Z :=
  enc 2 (d_name d ++ [0])
  ++ (if first && d_has_priv d then enc 3 (d_priv d) else [])
  ++ (if first && d_has_port d then enc 6 (le 2 (d_port d)) else [])
  ++ (if first && d_has_fwmark d then enc 7 (le 4 (d_fwmark d)) else [])
  ++ (if first && d_replace_peers d then enc 5 (le 4 1) else []).

Definition wf_name (n : list Z) : Prop := Forall is_char n /\ (length n <= 15)%nat.

Lemma header_len : forall id seq, len (header id seq) = 20.
Proof. reflexivity. Qed.

Lemma name_len : forall n, wf_name n -> len n <= 15.
Proof. intros n (_ & H). unfold len. lia. Qed.

Lemma len_if_enc : forall (b : bool) t d n, len d <= n -> (4 | n) -> 0 <= n -> len (if b then enc t d else []) <= 4 + n.
Proof.
  intros [] t d n H H4 H0; [|rewrite len_nil; lia]. rewrite len_enc.
  assert (up4 (len d) <= up4 n) by (unfold up4; apply Z.mul_le_mono_nonneg_r; [lia|]; apply Z.div_le_mono; lia).
  rewrite (up4_id n) in * by exact H4. lia.
Qed.

Lemma dev_part_len : forall d f, wf_device d -> wf_name (d_name d) -> len (dev_part d f) <= 80.
Proof.
  intros d f (_ & Hk & _) Hn. apply key_len in Hk. apply name_len in Hn. unfold dev_part. rewrite !len_app.
  pose proof (len_if_enc true 2 (d_name d ++ [0]) 16 ltac:(rewrite len_app; cbn; lia) ltac:(exists 4; reflexivity) ltac:(lia)) as A1.
  pose proof (len_if_enc (f && d_has_priv d) 3 (d_priv d) 32 ltac:(lia) ltac:(exists 8; reflexivity) ltac:(lia)).
  pose proof (len_if_enc (f && d_has_port d) 6 (le 2 (d_port d)) 4 ltac:(rewrite len_le; lia) ltac:(exists 1; reflexivity) ltac:(lia)).
  pose proof (len_if_enc (f && d_has_fwmark d) 7 (le 4 (d_fwmark d)) 4 ltac:(rewrite len_le; lia) ltac:(exists 1; reflexivity) ltac:(lia)).
  pose proof (len_if_enc (f && d_replace_peers d) 5 (le 4 1) 4 ltac:(rewrite len_le; lia) ltac:(exists 1; reflexivity) ltac:(lia)).
  cbv iota in A1. lia.
Qed.

Lemma dev_part_4 : forall d f, (4 | len (dev_part d f)).
Proof.
  intros d f. unfold dev_part. rewrite !len_app.
  assert (X : forall (b : bool) t x, (4 | len (if b then enc t x else []))) by (intros [] t x; [apply enc_mult|exists 0; reflexivity]).
  repeat apply Z.divide_add_r; try apply X. apply enc_mult.
Qed.

Lemma append_ok : forall B b x, len b + len x <= B -> append B b x = Some (b ++ x).
Proof. intros B b x H. unfold append. destruct (Z.leb_spec (len b + len x) B); [reflexivity|lia]. Qed.

Lemma when_put_app : forall B (c : bool) b t d, len d < 65532 -> len b + len (if c then enc t d else []) <= B ->
  when_put c (attr_put B b t d) b = Some (b ++ (if c then enc t d else [])).
Proof.
  intros B [] b t d Hd H; cbn [when_put].
  - rewrite attr_put_enc by exact Hd. apply append_ok. exact H.
  - rewrite app_nil_r. reflexivity.
Qed.

Lemma put_device_spec : forall B id seq d f, wf_device d -> wf_name (d_name d) -> 100 <= B ->
  put_device B id seq d f = Some (header id seq ++ dev_part d f).
Proof.
  intros B id seq d f Hw Hn HB. pose proof (dev_part_len d f Hw Hn) as L.
  destruct Hw as (_ & Hk & _). apply key_len in Hk. apply name_len in Hn.
  unfold put_device, dev_part in *. rewrite !len_app in L.
  assert (N : forall (b : bool) t x, 0 <= len (if b then enc t x else [])) by (intros; apply len_nonneg).
  pose proof (N (f && d_has_priv d) 3 (d_priv d)). pose proof (N (f && d_has_port d) 6 (le 2 (d_port d))).
  pose proof (N (f && d_has_fwmark d) 7 (le 4 (d_fwmark d))). pose proof (N (f && d_replace_peers d) 5 (le 4 1)).
  unfold msg_prepare. rewrite append_ok by (rewrite len_nil; change (0 + 20 <= B); lia).
  cbn [bind_put]. rewrite app_nil_l. fold (header id seq).
  unfold attr_put_strz. rewrite attr_put_enc by (rewrite len_app; cbn; lia).
  rewrite append_ok by (rewrite header_len; lia). cbn [bind_put].
  assert (HL : len (header id seq) = 20) by reflexivity.
  destruct f; cbn [andb] in *.
  - rewrite when_put_app by (rewrite ?len_app, ?HL; lia). cbn [bind_put].
    unfold attr_put_u16, attr_put_u32.
    rewrite when_put_app by (rewrite ?len_app, ?len_le, ?HL; lia). cbn [bind_put].
    rewrite when_put_app by (rewrite ?len_app, ?len_le, ?HL; lia). cbn [bind_put].
    rewrite when_put_app by (rewrite ?len_app, ?len_le, ?HL; lia).
    rewrite <- !app_assoc. reflexivity.
  - rewrite !app_nil_r. reflexivity.
Qed.

(** ** Whole messages *)
Definition rq_dev (d : device) (first : bool) (l : list rq_peer) : request :=
  mk_request (d_name d) (opt (first && d_has_priv d) (d_priv d)) (opt (first && d_has_port d) (d_port d))
    (opt (first && d_has_fwmark d) (d_fwmark d)) (first && d_replace_peers d) l.

Lemma until_nul_name : forall n, Forall is_char n -> until_nul (n ++ [0]) = n.
Proof.
  induction 1 as [|c n Hc Hn IH]; [reflexivity|]. cbn [app until_nul]. unfold is_char in Hc.
  destruct (Z.eqb_spec c 0); [lia|]. f_equal. exact IH.
Qed.

Lemma finish_header : forall id seq x, finish (header id seq ++ x) =
  le 4 (20 + len x) ++ le 2 id ++ le 2 5 ++ le 4 seq ++ le 4 0 ++ [1; 1; 0; 0] ++ x.
Proof.
  intros id seq x. unfold finish. rewrite len_app, header_len. unfold header. rewrite <- !app_assoc.
  rewrite (skipn_len (le 4 20)) by apply le_length. reflexivity.
Qed.

Lemma read_message : forall id seq d first nest secs, wf_device d -> wf_name (d_name d) ->
  Forall ok_sec secs -> Forall (fun s => len (sec_body s) < 65532) secs -> len (enc_secs secs) < 65000 -> (nest = false -> secs = []) ->
  read_request (finish ((header id seq ++ dev_part d first) ++ (if nest then enc (Z.lor (2 ^ 15) 8) (enc_secs secs) else [])))
  = Some (rq_dev d first (map rq_sec secs)).
Proof.
  intros id seq d first nest secs Hw Hn Ho Hb Hl Hne. pose proof (dev_part_len d first Hw Hn) as L.
  rewrite <- app_assoc, finish_header. set (x := dev_part d first ++ _).
  assert (Lx : 0 <= len x < 2 ^ 20).
  { split; [apply len_nonneg|]. unfold x. rewrite len_app. change (2 ^ 20) with 1048576.
    destruct nest; [rewrite len_enc, up4_id by apply enc_secs_4|rewrite len_nil]; lia. }
  unfold read_request.
  assert (Lm : len (le 4 (20 + len x) ++ le 2 id ++ le 2 5 ++ le 4 seq ++ le 4 0 ++ [1; 1; 0; 0] ++ x) = 20 + len x)
    by (autorewrite with len; lia).
  rewrite Lm. rewrite (firstn_len (le 4 (20 + len x))) by apply le_length.
  rewrite le_val_le_id by (change (256 ^ Z.of_nat 4) with 4294967296; change (2 ^ 20) with 1048576 in Lx; lia).
  destruct (Z.leb_spec 20 (20 + len x)); [|lia]. rewrite Z.eqb_refl.
  change (nth 16 (le 4 (20 + len x) ++ le 2 id ++ le 2 5 ++ le 4 seq ++ le 4 0 ++ [1; 1; 0; 0] ++ x) 0) with 1.
  change (skipn 20 (le 4 (20 + len x) ++ le 2 id ++ le 2 5 ++ le 4 seq ++ le 4 0 ++ [1; 1; 0; 0] ++ x)) with x.
  cbn [andb Z.eqb Pos.eqb].
  destruct Hw as (_ & Hk & Hf & Hp & _). apply key_len in Hk. pose proof (name_len _ Hn) as Nl.
  assert (EA : attrs x = [(2, d_name d ++ [0])] ++ (if first && d_has_priv d then [(3, d_priv d)] else [])
    ++ (if first && d_has_port d then [(6, le 2 (d_port d))] else []) ++ (if first && d_has_fwmark d then [(7, le 4 (d_fwmark d))] else [])
    ++ (if first && d_replace_peers d then [(5, le 4 1)] else []) ++ (if nest then [(8, enc_secs secs)] else [])).
  { unfold x, dev_part. rewrite <- !app_assoc. rewrite attrs_enc by (rewrite ?len_app; cbn; lia). cbn [app]. f_equal.
    rewrite !attrs_opt by (intro; split; small).
    destruct nest.
    - rewrite attrs_enc1 by (try apply nested_type; lia). destruct (nested_type 8 ltac:(cbn; lia)) as [_ ->]. reflexivity.
    - rewrite attrs_nil. reflexivity. }
  rewrite EA. clear EA.
  assert (F : forall t, find_attr t
     ([(2, d_name d ++ [0])] ++ (if first && d_has_priv d then [(3, d_priv d)] else [])
    ++ (if first && d_has_port d then [(6, le 2 (d_port d))] else []) ++ (if first && d_has_fwmark d then [(7, le 4 (d_fwmark d))] else [])
    ++ (if first && d_replace_peers d then [(5, le 4 1)] else []) ++ (if nest then [(8, enc_secs secs)] else [])) =
    if nest && (8 =? t) then Some (enc_secs secs) else if first && d_replace_peers d && (5 =? t) then Some (le 4 1)
    else if first && d_has_fwmark d && (7 =? t) then Some (le 4 (d_fwmark d)) else if first && d_has_port d && (6 =? t) then Some (le 2 (d_port d))
    else if first && d_has_priv d && (3 =? t) then Some (d_priv d) else if 2 =? t then Some (d_name d ++ [0]) else None).
  { intro t. rewrite !find_app, !find_opt. cbn [find_attr].
    repeat match goal with |- context [if ?c then _ else _] => destruct c end; reflexivity. }
  rewrite !F. clear F. cbn [Z.eqb Pos.eqb]. rewrite !andb_false_r, !andb_true_r.
  assert (Fl : flag_word (if first && d_replace_peers d then Some (le 4 1) else None) = Some (if first && d_replace_peers d then 1 else 0))
    by (destruct (first && d_replace_peers d); reflexivity).
  rewrite Fl.
  assert (P3 : sized 32 (fun k => k) (if first && d_has_priv d then Some (d_priv d) else None) = Some (opt (first && d_has_priv d) (d_priv d)))
    by (unfold sized, opt; destruct (first && d_has_priv d); [rewrite Hk|]; reflexivity).
  rewrite P3.
  assert (P6 : sized 2 le_val (if first && d_has_port d then Some (le 2 (d_port d)) else None) = Some (opt (first && d_has_port d) (d_port d))).
  { unfold sized, opt. destruct (first && d_has_port d); [|reflexivity]. rewrite len_le. cbn [Z.of_nat Pos.of_succ_nat Pos.succ Z.eqb Pos.eqb].
    rewrite le_val_le_id by (cbn; lia). reflexivity. }
  rewrite P6.
  assert (P7 : sized 4 le_val (if first && d_has_fwmark d then Some (le 4 (d_fwmark d)) else None) = Some (opt (first && d_has_fwmark d) (d_fwmark d))).
  { unfold sized, opt. destruct (first && d_has_fwmark d); [|reflexivity]. rewrite len_le. cbn [Z.of_nat Pos.of_succ_nat Pos.succ Z.eqb Pos.eqb].
    rewrite le_val_le_id by (cbn; lia). reflexivity. }
  rewrite P7.
  assert (P8 : read_nested read_peer (if nest then Some (enc_secs secs) else None) = Some (map rq_sec secs)).
  { unfold read_nested. destruct nest; [apply read_secs; assumption|]. rewrite (Hne eq_refl). reflexivity. }
  rewrite P8. rewrite until_nul_name by apply Hn. unfold rq_dev. do 2 f_equal.
  destruct (first && d_replace_peers d); reflexivity.
Qed.
