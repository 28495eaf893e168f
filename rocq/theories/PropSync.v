(** C26, C27: syncconf.  The interface is the one of KernelSpec; the device that is read back names its peers ([reports]). *)
From Coq Require Import String ZArith List Bool Lia Permutation Sorted.
From Verif Require Import Base Types EncodingSpec NlSpec KernelSpec ConfigSpec Config ConfigProofs4 ConfigProofs3 PropConfig Setconf SyncSpec SyncProofs SyncProofs2 SyncProofs3.
Import ListNotations.
Open Scope Z_scope.

(** An interface that can be read and that applies updates. *)
Definition live (pubkey : list Z -> list Z) (read : iface -> device) : backend iface :=
  mk_backend iface (fun _ s => (0, Some (read s), s)) (fun d s => (0, apply_request pubkey s (request_of d))).
(** The same, remembering every state it goes through. *)
Definition no_iface : iface := mk_iface (repeat 0 32) 0 0 [] [].
Definition recorded (pubkey : list Z -> list Z) (read : iface -> device) : backend (list iface) :=
  mk_backend (list iface) (fun _ h => (0, Some (read (last h no_iface)), h))
    (fun d h => (0, h ++ states pubkey (last h no_iface) (request_of d))).

(** [file_says d p]: [p] is a peer of the file, i.e. of the update [d]. *)
Definition file_has (d : device) (k : list Z) : Prop := In k (map p_pub (d_peers d)).

Lemma merge_peers : forall qsort file rt, exists ks,
  rq_peers (request_of (merge_runtime qsort file rt)) = map (fun k => mk_rq_peer k true false None None None []) ks ++ map rq_peer_of (d_peers file)
  /\ forall k, In k ks <-> In k (removals (qsort (map (fun k => (k, true)) (map p_pub (d_peers file)) ++ map (fun k => (k, false)) (map p_pub (d_peers rt))))).
Proof.
  intros qsort file rt. unfold merge_runtime. rewrite !map_map. set (rm := removals _). exists (rev rm). split; [|intro k; symmetry; apply in_rev].
  cbn [request_of rq_peers set_peers d_peers]. rewrite map_app. f_equal. rewrite <- map_rev, map_map. reflexivity.
Qed.

(** Facts about a device read from a file without "addconf". *)
Record from_file (d : device) : Prop := mk_from_file {
  ff_replace : d_replace_peers d = true;
  ff_priv : d_has_priv d = true;
  ff_port : d_has_port d = true;
  ff_mark : d_has_fwmark d = true;
  ff_peers : Forall (fun p => p_remove p = false /\ p_replace_aips p = true /\ length (p_pub p) = 32%nat) (d_peers d)
}.
Lemma from_file_read : forall e lines d, lp64 e -> text lines -> read_config e false lines = Some d -> from_file d.
Proof.
  intros e lines d He Hl H. destruct (C09_setconf_resets e lines d He Hl H) as (A & B & C & D & _).
  constructor; try assumption. apply Forall_forall. intros p Hp.
  destruct (C08_file_peers_have_keys e false lines d p He Hl H Hp) as (_ & [K _] & _).
  apply (read_config_iff e He) in H as (its & R & -> & P); [|exact Hl]. cbn [device_of d_peers] in Hp. apply in_map_iff in Hp as (ss & <- & _).
  cbn [peer_of p_remove p_replace_aips] in *. auto.
Qed.

Lemma prologue_keeps : forall pubkey s d, from_file d ->
  i_priv (prologue pubkey s (request_of d)) = d_priv d /\ i_port (prologue pubkey s (request_of d)) = d_port d
  /\ i_fwmark (prologue pubkey s (request_of d)) = d_fwmark d /\ i_peers (prologue pubkey s (request_of d)) = [] /\ i_aips (prologue pubkey s (request_of d)) = [].
Proof.
  intros pubkey s d [F1 F2 F3 F4 _]. unfold prologue, apply_request, settings_only, request_of. cbn [rq_port rq_fwmark rq_replace rq_priv rq_peers fold_left].
  rewrite F1, F2, F3, F4. cbn [opt or_else]. destruct (beq (d_priv d) zero_key); repeat split; reflexivity.
Qed.

Lemma prologue_sync : forall pubkey s d d', from_file d -> d_priv d' = d_priv d -> d_port d' = d_port d -> d_fwmark d' = d_fwmark d ->
  d_has_priv d' = true -> d_has_port d' = true -> d_has_fwmark d' = true -> d_replace_peers d' = false ->
  let s3 := prologue pubkey s (request_of d') in
  i_priv s3 = d_priv d /\ i_port s3 = d_port d /\ i_fwmark s3 = d_fwmark d /\
  (forall k, In k (keys s3) <-> In k (keys s) /\ ~ is_own pubkey (d_priv d) k) /\
  (forall k, ~ is_own pubkey (d_priv d) k -> peer_at k s3 = peer_at k s).
Proof.
  intros pubkey s d d' F E1 E2 E3 H1 H2 H3 H4 s3. unfold s3, prologue, apply_request, settings_only, request_of. cbn [rq_port rq_fwmark rq_replace rq_priv rq_peers fold_left].
  rewrite H1, H2, H3, H4, E1, E2, E3. cbn [opt or_else]. destruct (beq (d_priv d) zero_key) eqn:Z.
  - apply beq_eq in Z. repeat split; try reflexivity; cbn [keys i_peers] in *; try tauto. intros [A _]. apply A. exact Z.
  - apply beq_false in Z. split; [reflexivity|]. split; [reflexivity|]. split; [reflexivity|]. split.
    + intro k. set (s1 := mk_iface _ _ _ (i_peers s) (i_aips s)). change (In k (keys (drop_peer (pubkey (d_priv d)) s1)) <-> In k (keys s1) /\ ~ is_own pubkey (d_priv d) k).
      rewrite in_keys_drop. unfold is_own. split; intros [A B]; (split; [exact A|]); [intros [_ C]; congruence|].
      intros ->. apply B. split; [exact Z|reflexivity].
    + intros k Hk. unfold peer_at. cbn [i_peers drop_peer]. assert (N : k <> pubkey (d_priv d)) by (intros ->; apply Hk; split; [exact Z|reflexivity]).
      induction (i_peers s) as [|p l IH]; [reflexivity|]. cbn [filter find]. destruct (beq (k_pub p) (pubkey (d_priv d))) eqn:P; cbn [negb].
      * apply beq_eq in P. destruct (beq (k_pub p) k) eqn:Q; [apply beq_eq in Q; congruence|exact IH].
      * cbn [find]. destruct (beq (k_pub p) k); [reflexivity|exact IH].
Qed.

Lemma find_filter : forall (f g : kpeer -> bool) l, (forall x, f x = true -> g x = true) -> find f (filter g l) = find f l.
Proof.
  intros f g l H. induction l as [|x l IH]; [reflexivity|]. cbn [filter find]. destruct (g x) eqn:G; cbn [find].
  - destruct (f x); [reflexivity|exact IH].
  - destruct (f x) eqn:F; [rewrite (H x F) in G; discriminate|exact IH].
Qed.

(** What syncconf does, against what setconf does, with everything the theorems below need. *)
Lemma sync_master : forall pubkey qsort s rt d, sorts pubkey_cmp qsort -> iface_ok pubkey s -> Forall (fun k => length k = 32%nat) (keys s) ->
  map p_pub (d_peers rt) = keys s -> from_file d ->
  let d' := merge_runtime qsort d rt in
  let sS := apply_request pubkey s (request_of d') in
  let sC := apply_request pubkey s (request_of d) in
  (forall k, In k (keys sS) <-> file_has d k /\ ~ is_own pubkey (d_priv d) k) /\
  (forall k, In k (keys sC) <-> file_has d k /\ ~ is_own pubkey (d_priv d) k) /\
  i_priv sS = d_priv d /\ i_port sS = d_port d /\ i_fwmark sS = d_fwmark d /\
  i_priv sC = d_priv d /\ i_port sC = d_port d /\ i_fwmark sC = d_fwmark d /\
  i_aips sS = i_aips sC /\
  (forall k, file_has d k -> ~ is_own pubkey (d_priv d) k ->
     let l := filter (fun r => beq k (rp_pub r)) (map rq_peer_of (d_peers d)) in
     peer_at k sC = Some (fold_left upd l (new_kpeer k)) /\
     peer_at k sS = Some (fold_left upd l (match peer_at k s with Some p => p | None => new_kpeer k end))) /\
  (forall k, file_has d k -> In k (keys s) -> ~ is_own pubkey (d_priv d) k -> Forall (fun x => In k (keys x)) (states pubkey s (request_of d'))).
Proof.
  intros pubkey qsort s rt d Q OK L R F d' sS sC.
  destruct (merge_peers qsort d rt) as (ks & Ep & Ek). fold d' in Ep.
  assert (Hk : forall k, In k ks <-> In k (keys s) /\ ~ file_has d k).
  { intro k. rewrite Ek, R. apply merge_removals; [exact Q| |exact L|apply OK].
    apply Forall_forall. intros x Hx. apply in_map_iff in Hx as (p & <- & Hp). destruct F as [_ _ _ _ F]. rewrite Forall_forall in F. apply (F p Hp). }
  set (rs := map rq_peer_of (d_peers d)) in *.
  assert (Frs : Forall (fun r => rp_remove r = false /\ rp_replace r = true) rs).
  { apply Forall_forall. intros r Hr. apply in_map_iff in Hr as (p & <- & Hp). destruct F as [_ _ _ _ F]. rewrite Forall_forall in F. destruct (F p Hp) as (A & B & _). auto. }
  assert (Frm : Forall (fun r => rp_remove r = false) rs) by (eapply Forall_impl; [|exact Frs]; cbn; tauto).
  assert (Krs : map rp_pub rs = map p_pub (d_peers d)) by (unfold rs; rewrite map_map; reflexivity).
  pose proof F as [F1 F2 F3 F4 F5].
  assert (PS := prologue_sync pubkey s d d' F eq_refl eq_refl eq_refl F2 F3 F4 eq_refl). cbv zeta in PS.
  assert (PC := prologue_keeps pubkey s d F). set (s3 := prologue pubkey s (request_of d')) in *. set (c3 := prologue pubkey s (request_of d)) in *.
  destruct PS as (P1 & P2 & P3 & P4 & P5), PC as (C1 & C2 & C3 & C4 & C5).
  assert (OK3 : iface_ok pubkey s3) by (apply iface_ok_prologue, OK). assert (OKC : iface_ok pubkey c3) by (apply iface_ok_prologue, OK).
  pose proof (aps_remove pubkey ks s3 OK3) as RM. cbv zeta in RM.
  set (rms := map (fun k => mk_rq_peer k true false None None None []) ks) in *.
  set (s4 := fold_left (apply_peer pubkey) rms s3) in *. destruct RM as [M1 M2].
  assert (OK4 : iface_ok pubkey s4) by (apply iface_ok_aps, OK3).
  assert (Q4 : i_priv s4 = d_priv d /\ i_port s4 = d_port d /\ i_fwmark s4 = d_fwmark d).
  { destruct (aps_priv pubkey rms s3) as (A & B & C). unfold s4. rewrite A, B, C. auto. }
  assert (K4 : forall k, In k (keys s4) <-> In k (keys s) /\ file_has d k /\ ~ is_own pubkey (d_priv d) k).
  { intro k. unfold keys. rewrite M1, in_map_iff.
    assert (X : (exists x, k_pub x = k /\ In x (filter (fun p => negb (existsb (beq (k_pub p)) ks)) (i_peers s3))) <-> In k (keys s3) /\ ~ In k ks).
    { unfold keys. rewrite in_map_iff. split.
      - intros (x & <- & Hx). apply filter_In in Hx as [Hx N]. split; [exists x; auto|]. intro I. apply negb_true_iff in N.
        assert (Y : existsb (beq (k_pub x)) ks = true) by (apply existsb_exists; exists (k_pub x); split; [exact I|apply beq_true]). congruence.
      - intros [(x & <- & Hx) N]. exists x. split; [reflexivity|]. apply filter_In. split; [exact Hx|]. apply negb_true_iff.
        destruct (existsb (beq (k_pub x)) ks) eqn:Y; [|reflexivity]. apply existsb_exists in Y as (y & Hy & E). apply beq_eq in E. subst y. tauto. }
    rewrite X, P4, Hk. destruct (in_dec beq_dec k (map p_pub (d_peers d))) as [Hf|Hf]; unfold file_has in *; tauto. }
  assert (ES : sS = fold_left (apply_peer pubkey) rs s4).
  { unfold sS. rewrite apply_request_split, Ep, fold_left_app. reflexivity. }
  assert (EC : sC = fold_left (apply_peer pubkey) rs c3) by reflexivity.
  assert (Own4 : forall k, own_key pubkey s4 k = false <-> ~ is_own pubkey (d_priv d) k).
  { intro k. destruct Q4 as (<- & _). rewrite <- own_key_iff. destruct (own_key pubkey s4 k); split; intro H; congruence. }
  assert (OwnC : forall k, own_key pubkey c3 k = false <-> ~ is_own pubkey (d_priv d) k).
  { intro k. rewrite <- C1, <- own_key_iff. destruct (own_key pubkey c3 k); split; intro H; congruence. }
  split; [|split; [|split; [|split; [|split; [|split; [|split; [|split; [|split; [|split]]]]]]]]].
  - intro k. rewrite ES, (keys_aps pubkey rs s4 Frm), K4, Own4, Krs. unfold file_has. tauto.
  - intro k. rewrite EC, (keys_aps pubkey rs c3 Frm), OwnC, Krs. unfold keys. rewrite C4. unfold file_has. cbn [map In]. tauto.
  - rewrite ES. destruct (aps_priv pubkey rs s4) as (-> & _ & _). apply Q4.
  - rewrite ES. destruct (aps_priv pubkey rs s4) as (_ & -> & _). apply Q4.
  - rewrite ES. destruct (aps_priv pubkey rs s4) as (_ & _ & ->). apply Q4.
  - rewrite EC. destruct (aps_priv pubkey rs c3) as (-> & _ & _). exact C1.
  - rewrite EC. destruct (aps_priv pubkey rs c3) as (_ & -> & _). exact C2.
  - rewrite EC. destruct (aps_priv pubkey rs c3) as (_ & _ & ->). exact C3.
  - rewrite ES, EC. apply (tables pubkey rs s4 c3 (i_aips s4)); try assumption.
    + destruct Q4 as (-> & _). symmetry. exact C1.
    + unfold keys at 1. rewrite C4. intros x [].
    + rewrite C5, app_nil_r. reflexivity.
    + intros a o Ho. destruct OK4 as (_ & A & _). apply A, K4 in Ho. rewrite Krs. apply Ho.
  - intros k Hf Ho l.
    assert (NE : l <> []).
    { unfold file_has in Hf. rewrite <- Krs in Hf. apply in_map_iff in Hf as (r & Er & Hr). intro C.
      assert (X : In r l) by (apply filter_In; split; [exact Hr|rewrite Er; apply beq_true]). rewrite C in X. destruct X. }
    split.
    + rewrite EC, (peer_at_aps pubkey rs c3 k Frm). fold l. assert (X : peer_at k c3 = None) by (unfold peer_at; rewrite C4; reflexivity).
      rewrite X. apply OwnC in Ho. rewrite Ho. destruct l; [congruence|reflexivity].
    + rewrite ES, (peer_at_aps pubkey rs s4 k Frm). fold l.
      assert (X : peer_at k s4 = peer_at k s).
      { rewrite <- (P5 k Ho). unfold peer_at. rewrite M1. apply find_filter. intros x Hx. apply beq_eq in Hx. apply negb_true_iff.
        destruct (existsb (beq (k_pub x)) ks) eqn:Y; [|reflexivity]. apply existsb_exists in Y as (y & Hy & E). apply beq_eq in E. subst y. rewrite Hx in Hy.
        apply Hk in Hy. tauto. }
      rewrite X. apply Own4 in Ho. rewrite Ho. destruct (peer_at k s); [reflexivity|]. destruct l; [congruence|reflexivity].
  - intros k Hf Hs Ho. unfold states. change (apply_request pubkey s (settings_only (request_of d'))) with s3. rewrite Ep.
    assert (G : forall rs' x, Forall (fun r => rp_pub r = k -> rp_remove r = false) rs' -> In k (keys x) -> Forall (fun y => In k (keys y)) (peer_states pubkey rs' x)).
    { induction rs' as [|r rs' IH]; intros x Fr Hx; cbn [peer_states]; constructor; try exact Hx; [constructor|].
      inversion Fr as [|? ? Fr0 Frl]; subst. apply IH; [exact Frl|]. rewrite in_keys_ap. destruct (rp_remove r); [|left; exact Hx].
      split; [exact Hx|]. intro E. symmetry in E. specialize (Fr0 E). discriminate. }
    apply G; [|apply P4; tauto]. apply Forall_app. split.
    + apply Forall_forall. intros r Hr. apply in_map_iff in Hr as (x & <- & Hx). cbn [rp_pub]. intros ->. apply Hk in Hx. tauto.
    + eapply Forall_impl; [|exact Frm]. auto.
Qed.

(** ** The commands *)

Section Commands.
Variable e : env.
Variable pubkey : list Z -> list Z.
Variable read : iface -> device.
Variable qsort : list origin -> list origin.
Variable open_lines : list Z -> option (list (list Z)).
Hypothesis He : lp64 e.
Hypothesis Hread : reports read.
Hypothesis Hsort : sorts pubkey_cmp qsort.

Definition run (cmd : string) (name path : list Z) (s : iface) : Z * iface :=
  setconf_main iface e (live pubkey read) qsort open_lines [str cmd; name; path] s.
Definition run_recorded (cmd : string) (name path : list Z) (s : iface) : Z * list iface :=
  setconf_main (list iface) e (recorded pubkey read) qsort open_lines [str cmd; name; path] [s].

Lemma name_irrelevant : forall pk s n d, apply_request pk s (request_of (set_name n d)) = apply_request pk s (request_of d).
Proof. reflexivity. Qed.
Lemma from_file_name : forall n d, from_file d -> from_file (set_name n d).
Proof. intros n d [A B C D E]. constructor; assumption. Qed.

Lemma run_setconf : forall name path s lines d, open_lines path = Some lines -> read_config e false lines = Some d ->
  run "setconf" name path s = (0, apply_request pubkey s (request_of d)).
Proof.
  intros name path s lines d Ho Hr. unfold run, setconf_main. rewrite Ho. change (beq (str "setconf") (str "addconf")) with false. rewrite Hr.
  change (beq (str "setconf") (str "syncconf")) with false. reflexivity.
Qed.

(** The update syncconf sends. *)
Definition sync_update (s : iface) (d : device) : device :=
  match d_peers d, keys s with
  | [], _ => d
  | _, [] => d
  | _, _ => merge_runtime qsort d (read s)
  end.
Lemma keys_nil : forall s, keys s = [] <-> d_peers (read s) = [].
Proof. intro s. rewrite <- Hread. split; [apply map_eq_nil|intros ->; reflexivity]. Qed.
Lemma run_syncconf : forall name path s lines d, open_lines path = Some lines -> read_config e false lines = Some d ->
  run "syncconf" name path s = (0, apply_request pubkey s (request_of (sync_update s d))) /\
  run_recorded "syncconf" name path s = (0, s :: states pubkey s (request_of (sync_update s d))).
Proof.
  intros name path s lines d Ho Hr. unfold run, run_recorded, setconf_main. rewrite Ho. change (beq (str "syncconf") (str "addconf")) with false. rewrite Hr.
  change (beq (str "syncconf") (str "syncconf")) with true. unfold sync_conf, sync_update. cbn [d_peers set_name]. destruct (d_peers d) as [|p ps] eqn:Ed; [split; reflexivity|].
  cbn [live recorded b_get b_set last]. rewrite Z.eqb_refl. cbn [negb]. pose proof (keys_nil s) as K. destruct (keys s) as [|x xs] eqn:Ek.
  - destruct (d_peers (read s)) as [|q qs]; [|destruct K as [K _]; discriminate (K eq_refl)]. split; reflexivity.
  - destruct (d_peers (read s)) as [|q qs] eqn:Er; [destruct K as [_ K]; discriminate (K eq_refl)|].
    unfold merge_runtime. cbn [d_peers set_name]. rewrite Ed, Er. split; reflexivity.
Qed.

(** setconf on its own. *)
Lemma set_keys : forall s d, from_file d -> forall k, In k (keys (apply_request pubkey s (request_of d))) <-> file_has d k /\ ~ is_own pubkey (d_priv d) k.
Proof.
  intros s d F k. destruct (prologue_keeps pubkey s d F) as (C1 & _ & _ & C4 & _). rewrite apply_request_split. rewrite keys_aps.
  - unfold keys. rewrite C4. cbn [map In request_of rq_peers]. rewrite map_map. cbn [rq_peer_of rp_pub].
    rewrite <- C1. rewrite <- own_key_iff. unfold file_has. change (fun x => p_pub x) with p_pub. destruct (own_key pubkey (prologue pubkey s (request_of d)) k); split; intuition congruence.
  - cbn [request_of rq_peers]. apply Forall_forall. intros r Hr. apply in_map_iff in Hr as (p & <- & Hp). destruct F as [_ _ _ _ F]. rewrite Forall_forall in F. apply (F p Hp).
Qed.

(** When there is nothing to merge, syncconf is setconf. *)
Lemma sync_cases : forall s d, (sync_update s d = d /\ (d_peers d = [] \/ keys s = [])) \/ sync_update s d = merge_runtime qsort d (read s).
Proof. intros s d. unfold sync_update. destruct (d_peers d), (keys s); auto. Qed.

(** C26.  The command succeeds; the peers of the interface are those of the file (the interface itself, if the file lists it, is
    ignored, as always); port, mark, key and the whole table of allowed IPs are what setconf of the file gives. *)
Theorem C26_syncconf_gives_the_file : forall name path s lines d,
  iface_ok pubkey s -> Forall is_key (keys s) -> text lines -> open_lines path = Some lines -> read_config e false lines = Some d ->
  exists s', run "syncconf" name path s = (0, s') /\
    (forall k, In k (keys s') <-> file_has d k /\ ~ is_own pubkey (d_priv d) k) /\
    i_priv s' = d_priv d /\ i_port s' = d_port d /\ i_fwmark s' = d_fwmark d /\
    i_aips s' = i_aips (snd (run "setconf" name path s)) /\ iface_ok pubkey s'.
Proof.
  intros name path s lines d OK K T Ho Hr. destruct (run_syncconf name path s lines d Ho Hr) as [E _]. rewrite E, (run_setconf name path s lines d Ho Hr).
  eexists. split; [reflexivity|]. cbn [snd]. pose proof (from_file_read e lines d He T Hr) as F.
  assert (L : Forall (fun k => length k = 32%nat) (keys s)) by (eapply Forall_impl; [|exact K]; intros k [X _]; exact X).
  destruct (sync_cases s d) as [[-> _]| ->].
  - split; [apply set_keys, F|]. rewrite apply_request_split. destruct (aps_priv pubkey (rq_peers (request_of d)) (prologue pubkey s (request_of d))) as (-> & -> & ->).
    destruct (prologue_keeps pubkey s d F) as (A & B & C & _). repeat (split; [assumption || reflexivity|]). apply iface_ok_aps, iface_ok_prologue, OK.
  - destruct (sync_master pubkey qsort s (read s) d Hsort OK L (Hread s) F) as (A1 & _ & A2 & A3 & A4 & _ & _ & _ & A5 & _).
    repeat (split; [assumption|]). apply iface_ok_apply, OK.
Qed.

(** Every prefix belongs to the last peer of the file that lists it; if the prefixes are distinct each peer has exactly its own, in
    order.  (For a file that names each peer once and not the interface itself.) *)
Definition prefixes (d : device) : list (allowedip * list Z) :=
  flat_map (fun p => map (fun a => (network a, p_pub p)) (p_aips p)) (d_peers d).
Theorem C26_allowed_ips : forall name path s lines d,
  iface_ok pubkey s -> Forall is_key (keys s) -> text lines -> open_lines path = Some lines -> read_config e false lines = Some d ->
  NoDup (map p_pub (d_peers d)) -> (forall p, In p (d_peers d) -> ~ is_own pubkey (d_priv d) (p_pub p)) ->
  let s' := snd (run "syncconf" name path s) in
  (forall n k, In (n, k) (i_aips s') <-> exists l1 l2, prefixes d = l1 ++ (n, k) :: l2 /\ ~ In n (map fst l2)) /\
  (NoDup (map fst (prefixes d)) -> forall p, In p (d_peers d) -> aips_of (p_pub p) s' = map network (p_aips p)).
Proof.
  intros name path s lines d OK K T Ho Hr N NO s'. destruct (C26_syncconf_gives_the_file name path s lines d OK K T Ho Hr) as (x & Ex & _ & _ & _ & _ & Et & _).
  unfold s'. rewrite Ex. cbn [snd]. rewrite (run_setconf name path s lines d Ho Hr) in Et. cbn [snd] in Et.
  pose proof (from_file_read e lines d He T Hr) as F. destruct (prologue_keeps pubkey s d F) as (C1 & _ & _ & C4 & C5).
  rewrite apply_request_split in Et.
  assert (Frm : Forall (fun r => rp_remove r = false) (rq_peers (request_of d))).
  { apply Forall_forall. intros r Hr'. cbn [request_of rq_peers] in Hr'. apply in_map_iff in Hr' as (p & <- & Hp). destruct F as [_ _ _ _ F]. rewrite Forall_forall in F. apply (F p Hp). }
  assert (Km : map rp_pub (rq_peers (request_of d)) = map p_pub (d_peers d)) by (cbn [request_of rq_peers]; rewrite map_map; reflexivity).
  rewrite fresh_table in Et; [|exact Frm|rewrite Km; exact N|].
  - assert (Ea : assignments (rq_peers (request_of d)) = prefixes d).
    { unfold assignments, prefixes. cbn [request_of rq_peers]. clear. induction (d_peers d) as [|p l IH]; [reflexivity|]. cbn [map flat_map]. rewrite IH. reflexivity. }
    rewrite Ea, C5 in Et. split.
    + intros n k. rewrite Et, assign_in. cbn [In]. tauto.
    + intros ND p Hp. unfold aips_of. rewrite Et, assign_distinct; [|exact ND|intros y []]. cbn [app]. clear - N Hp.
      unfold prefixes. induction (d_peers d) as [|q l IH]; [destruct Hp|]. cbn [flat_map]. rewrite filter_app, map_app. cbn [map] in N. inversion N as [|? ? N0 Nl]; subst.
      assert (Self : forall k l', map fst (filter (fun x : allowedip * list Z => beq (snd x) k) (map (fun a => (network a, k)) l')) = map network l').
      { intros k l'. induction l' as [|a l' IH']; [reflexivity|]. cbn [map filter snd]. rewrite beq_true. cbn [map fst]. f_equal. exact IH'. }
      assert (Other : forall k k' l', k' <> k -> filter (fun x : allowedip * list Z => beq (snd x) k) (map (fun a => (network a, k')) l') = []).
      { intros k k' l' Hne. induction l' as [|a l' IH']; [reflexivity|]. cbn [map filter snd]. apply beq_false in Hne. rewrite Hne. exact IH'. }
      destruct Hp as [<-|Hp].
      * rewrite Self. assert (Z : filter (fun x : allowedip * list Z => beq (snd x) (p_pub q)) (flat_map (fun p => map (fun a => (network a, p_pub p)) (p_aips p)) l) = []).
        { clear - N0 Other. induction l as [|r l IH]; [reflexivity|]. cbn [flat_map map In] in *. rewrite filter_app, Other, IH; [reflexivity|tauto|]. intro C. apply N0. left. exact C. }
        rewrite Z, app_nil_r. reflexivity.
      * rewrite Other; [cbn [map app]; apply IH; assumption|]. intro C. apply N0. rewrite C. apply in_map, Hp.
  - intros k Hk. rewrite Km in Hk. split; [unfold keys; rewrite C4; intros []|]. apply in_map_iff in Hk as (p & <- & Hp). rewrite C1. apply NO, Hp.
Qed.

(** A peer that is both on the interface and in the file is there in every state the interface goes through. *)
Theorem C26_common_peers_stay : forall name path s lines d k,
  iface_ok pubkey s -> Forall is_key (keys s) -> text lines -> open_lines path = Some lines -> read_config e false lines = Some d ->
  In k (keys s) -> file_has d k -> ~ is_own pubkey (d_priv d) k ->
  exists h, run_recorded "syncconf" name path s = (0, h) /\ last h no_iface = snd (run "syncconf" name path s) /\ Forall (fun x => In k (keys x)) h.
Proof.
  intros name path s lines d k OK K T Ho Hr Hk Hf Ho'. destruct (run_syncconf name path s lines d Ho Hr) as [E Eh]. rewrite E, Eh. cbn [snd].
  pose proof (from_file_read e lines d He T Hr) as F.
  assert (L : Forall (fun k => length k = 32%nat) (keys s)) by (eapply Forall_impl; [|exact K]; intros x [X _]; exact X).
  eexists. split; [reflexivity|]. split.
  - set (q := request_of (sync_update s d)). rewrite apply_request_split. unfold states, prologue.
    assert (G : forall rs x y, last (y :: peer_states pubkey rs x) no_iface = fold_left (apply_peer pubkey) rs x).
    { induction rs as [|r rs IH]; intros x y; [reflexivity|]. cbn [peer_states fold_left]. rewrite <- (IH _ x). reflexivity. }
    apply G.
  - constructor; [exact Hk|]. destruct (sync_cases s d) as [[-> [C|C]]| ->].
    + unfold file_has in Hf. rewrite C in Hf. destruct Hf.
    + rewrite C in Hk. destruct Hk.
    + destruct (sync_master pubkey qsort s (read s) d Hsort OK L (Hread s) F) as (_ & _ & _ & _ & _ & _ & _ & _ & _ & _ & S). apply S; assumption.
Qed.

(** C27.  Peer by peer: a peer that was not there before is as setconf would make it; a common one takes from the file each setting the
    file mentions, and keeps its own preshared key, keepalive or endpoint where the file is silent (setconf would reset them). *)
Definition mentions {A} (f : peer -> option A) (d : device) (k : list Z) : Prop := exists p, In p (d_peers d) /\ p_pub p = k /\ f p <> None.
Definition psk_of (p : peer) : option (list Z) := opt (p_has_psk p) (p_psk p).
Definition ka_of (p : peer) : option Z := opt (p_has_ka p) (p_ka p).
Definition ep_of (p : peer) : option endpoint := match p_endpoint p with EpNone => None | x => Some x end.
Definition takes {B} (mentioned : Prop) (sync set old default : B) : Prop :=
  (mentioned -> sync = set) /\ (~ mentioned -> sync = old /\ set = default).

Theorem C27_peer_settings : forall name path s lines d k,
  iface_ok pubkey s -> Forall is_key (keys s) -> text lines -> open_lines path = Some lines -> read_config e false lines = Some d ->
  file_has d k -> ~ is_own pubkey (d_priv d) k ->
  exists pS pC, peer_at k (snd (run "syncconf" name path s)) = Some pS /\ peer_at k (snd (run "setconf" name path s)) = Some pC /\
    match peer_at k s with
    | None => pS = pC
    | Some p0 =>
        takes (mentions psk_of d k) (k_psk pS) (k_psk pC) (k_psk p0) (repeat 0 32) /\
        takes (mentions ka_of d k) (k_ka pS) (k_ka pC) (k_ka p0) 0 /\
        takes (mentions ep_of d k) (k_ep pS) (k_ep pC) (k_ep p0) None
    end.
Proof.
  intros name path s lines d k OK K T Ho Hr Hf Ho'. destruct (run_syncconf name path s lines d Ho Hr) as [E _]. rewrite E, (run_setconf name path s lines d Ho Hr). cbn [snd].
  pose proof (from_file_read e lines d He T Hr) as F.
  assert (L : Forall (fun k => length k = 32%nat) (keys s)) by (eapply Forall_impl; [|exact K]; intros x [X _]; exact X).
  destruct (sync_cases s d) as [[-> [C|C]]| ->].
  - unfold file_has in Hf. rewrite C in Hf. destruct Hf.
  - pose proof Hf as Hin. destruct (peer_at k (apply_request pubkey s (request_of d))) as [p|] eqn:P.
    + exists p, p. split; [reflexivity|]. split; [reflexivity|]. assert (X : peer_at k s = None) by (apply (proj2 (peer_at_none k s)); rewrite C; intros []). rewrite X. reflexivity.
    + exfalso. apply peer_at_none in P. apply P. apply (set_keys s d F). tauto.
  - destruct (sync_master pubkey qsort s (read s) d Hsort OK L (Hread s) F) as (_ & _ & _ & _ & _ & _ & _ & _ & _ & S & _).
    destruct (S k Hf Ho') as [SC SS]. set (l := filter (fun r => beq k (rp_pub r)) (map rq_peer_of (d_peers d))) in *. cbv zeta in SS. rewrite SS, SC.
    eexists _, _. split; [reflexivity|]. split; [reflexivity|]. destruct (peer_at k s) as [p0|]; [|reflexivity].
    assert (Ment : forall A (f : peer -> option A) (g : rq_peer -> option A), (forall p, g (rq_peer_of p) = f p) -> mentions f d k <-> exists r, In r l /\ g r <> None).
    { intros A f g G. unfold mentions. split.
      - intros (p & Hp & Ek & Nf). exists (rq_peer_of p). split; [|rewrite G; exact Nf]. unfold l. apply filter_In. split; [apply in_map, Hp|]. apply beq_eq. symmetry. exact Ek.
      - intros (r & Hr' & Ng). unfold l in Hr'. apply filter_In in Hr' as [Hm Eb]. apply in_map_iff in Hm as (p & <- & Hp). apply beq_eq in Eb.
        exists p. split; [exact Hp|]. split; [symmetry; exact Eb|]. rewrite <- G. exact Ng. }
    assert (NMent : forall A (g : rq_peer -> option A), ~ (exists r, In r l /\ g r <> None) -> forall r, In r l -> g r = None).
    { intros A g N r Hr'. destruct (g r) eqn:G; [|reflexivity]. exfalso. apply N. exists r. split; [exact Hr'|congruence]. }
    split; [|split]; (split; [intro M|intro M]).
    + apply (Ment _ psk_of rp_psk) in M; [|reflexivity]. apply fold_psk, M.
    + rewrite (Ment _ psk_of rp_psk) in M by reflexivity. split; apply fold_psk_none, NMent, M.
    + apply (Ment _ ka_of rp_ka) in M; [|reflexivity]. apply fold_ka, M.
    + rewrite (Ment _ ka_of rp_ka) in M by reflexivity. split; apply fold_ka_none, NMent, M.
    + apply (Ment _ ep_of rp_endpoint) in M; [|reflexivity]. apply fold_ep, M.
    + rewrite (Ment _ ep_of rp_endpoint) in M by reflexivity. split; apply fold_ep_none, NMent, M.
Qed.

(** So if the file mentions the preshared key, the keepalive and the endpoint of every peer that is already there, the two commands
    give the same interface, up to the order of the peers. *)
Theorem C27_same_interface : forall name path s lines d,
  iface_ok pubkey s -> Forall is_key (keys s) -> text lines -> open_lines path = Some lines -> read_config e false lines = Some d ->
  (forall k, In k (keys s) -> file_has d k -> mentions psk_of d k /\ mentions ka_of d k /\ mentions ep_of d k) ->
  let s1 := snd (run "syncconf" name path s) in let s2 := snd (run "setconf" name path s) in
  i_priv s1 = i_priv s2 /\ i_port s1 = i_port s2 /\ i_fwmark s1 = i_fwmark s2 /\ i_aips s1 = i_aips s2 /\ Permutation (i_peers s1) (i_peers s2).
Proof.
  intros name path s lines d OK K T Ho Hr M s1 s2.
  destruct (C26_syncconf_gives_the_file name path s lines d OK K T Ho Hr) as (x & Ex & Kx & A1 & A2 & A3 & A4 & OKx).
  pose proof (from_file_read e lines d He T Hr) as F. destruct (prologue_keeps pubkey s d F) as (C1 & C2 & C3 & _).
  assert (E2 : s2 = apply_request pubkey s (request_of d)) by (unfold s2; rewrite (run_setconf name path s lines d Ho Hr); reflexivity).
  assert (E1 : s1 = x) by (unfold s1; rewrite Ex; reflexivity).
  assert (OK2 : iface_ok pubkey s2) by (rewrite E2; apply iface_ok_apply, OK).
  assert (K2 : forall k, In k (keys s2) <-> file_has d k /\ ~ is_own pubkey (d_priv d) k) by (rewrite E2; apply set_keys, F).
  assert (P2 : i_priv s2 = d_priv d /\ i_port s2 = d_port d /\ i_fwmark s2 = d_fwmark d).
  { rewrite E2, apply_request_split. destruct (aps_priv pubkey (rq_peers (request_of d)) (prologue pubkey s (request_of d))) as (-> & -> & ->). auto. }
  rewrite E1. split; [rewrite A1; symmetry; apply P2|]. split; [rewrite A2; symmetry; apply P2|]. split; [rewrite A3; symmetry; apply P2|]. split; [exact A4|].
  assert (Look : forall k, peer_at k x = peer_at k s2).
  { intro k. destruct (in_dec beq_dec k (keys s2)) as [I|I].
    - apply K2 in I as [If Io]. destruct (C27_peer_settings name path s lines d k OK K T Ho Hr If Io) as (pS & pC & HS & HC & H). fold s1 in HS. fold s2 in HC.
      rewrite E1 in HS. rewrite HS, HC. f_equal. destruct (peer_at k s) as [p0|] eqn:P0; [|exact H].
      assert (Ik : In k (keys s)) by (destruct (in_dec beq_dec k (keys s)) as [Y|Y]; [exact Y|]; apply peer_at_none in Y; congruence).
      destruct (M k Ik If) as (M1 & M2 & M3). destruct H as ((H1 & _) & (H2 & _) & (H3 & _)).
      apply peer_at_pub in HS as [HS _], HC as [HC _]. destruct pS, pC. cbn in *. rewrite (H1 M1), (H2 M2), (H3 M3). congruence.
    - assert (I' : ~ In k (keys x)) by (rewrite Kx, <- K2; exact I). apply peer_at_none in I, I'. congruence. }
  assert (ND : forall s, iface_ok pubkey s -> NoDup (i_peers s)) by (intros y (N & _); apply (NoDup_map_inv k_pub); exact N).
  assert (At : forall y p, iface_ok pubkey y -> In p (i_peers y) <-> peer_at (k_pub p) y = Some p).
  { intros y p (N & _). unfold peer_at, keys in *. split.
    - intro H. induction (i_peers y) as [|q l IH]; [destruct H|]. cbn [find map] in *. inversion N as [|? ? N0 Nl]; subst. destruct H as [<-|H]; [rewrite beq_true; reflexivity|].
      destruct (beq (k_pub q) (k_pub p)) eqn:B; [|apply IH; assumption]. apply beq_eq in B. exfalso. apply N0. rewrite B. apply in_map, H.
    - intro H. apply find_some in H. tauto. }
  apply NoDup_Permutation; [apply ND, OKx|apply ND, OK2|]. intro p. rewrite (At x p OKx), (At s2 p OK2), Look. reflexivity.
Qed.
End Commands.

(** ** A concrete run *)

(** Insertion sort is a qsort. *)
Fixpoint insert (o : origin) (l : list origin) : list origin :=
  match l with
  | [] => [o]
  | x :: l' => if pubkey_cmp o x <=? 0 then o :: l else x :: insert o l'
  end.
Definition insertion_sort (l : list origin) : list origin := fold_right insert [] l.
Lemma insert_perm : forall o l, Permutation (o :: l) (insert o l).
Proof.
  intros o. induction l as [|x l IH]; [reflexivity|]. cbn [insert]. destruct (pubkey_cmp o x <=? 0); [reflexivity|]. rewrite perm_swap. constructor. exact IH.
Qed.
Lemma pubkey_cmp_total : forall a b, pubkey_cmp a b > 0 -> pubkey_cmp b a <= 0.
Proof.
  intros a b. unfold pubkey_cmp. rewrite (memcmp_anti (fst a) (fst b)). destruct (Z.eqb_spec (memcmp (fst a) (fst b)) 0) as [E|E]; destruct (Z.eqb_spec (- memcmp (fst a) (fst b)) 0); cbn; lia.
Qed.
Theorem C26_qsort_exists : sorts pubkey_cmp insertion_sort.
Proof.
  intro l. split.
  - induction l as [|x l IH]; [reflexivity|]. cbn. rewrite <- insert_perm. constructor. exact IH.
  - induction l as [|x l IH]; [constructor|]. cbn. fold (insertion_sort l). remember (insertion_sort l) as m eqn:E. clear E l.
    induction m as [|y m IHm]; [repeat constructor|]. cbn [insert]. destruct (Z.leb_spec (pubkey_cmp x y) 0) as [C|C].
    + constructor; [exact IH|]. constructor. exact C.
    + inversion IH as [|? ? S H]; subst. constructor; [apply IHm, S|]. destruct m as [|z m]; cbn [insert].
      * constructor. apply pubkey_cmp_total. lia.
      * destruct (pubkey_cmp x z <=? 0); constructor; [apply pubkey_cmp_total; lia|]. inversion H; assumption.
Qed.

(** Every consistent state is reachable only through consistent ones: the hypotheses of the theorems hold for every interface that has
    only been changed by requests. *)
Theorem C26_interfaces_are_consistent : forall pubkey qs, iface_ok pubkey (fold_left (apply_request pubkey) qs no_iface).
Proof.
  intros pubkey qs. assert (H : iface_ok pubkey no_iface).
  { split; [constructor|]. split; [intros a k []|intros k _ []]. }
  revert H. generalize no_iface. induction qs as [|q qs IH]; intros s H; [exact H|]. apply IH, iface_ok_apply, H.
Qed.

Definition show_iface (s : iface) : device := set_peers (map (fun p => set_pub (k_pub p) peer0) (i_peers s)) device0.
Lemma show_iface_reports : reports show_iface.
Proof. intro s. unfold show_iface, keys. cbn [d_peers set_peers]. rewrite map_map. reflexivity. Qed.

Definition kA := zrange 0 32. Definition kB := zrange 224 32.
Definition ten : allowedip := mk_aip AF_INET [10; 0; 0; 0] 8.
(** B (to be removed, it has the prefix the file gives to A) and A with a preshared key and an endpoint. *)
Definition before_sync : iface :=
  mk_iface (repeat 7 32) 1 2 [mk_kpeer kB zero_key None 5; mk_kpeer kA (repeat 9 32) (Some (Ep4 [192; 0; 2; 9] 1)) 7] [(ten, kB); (mk_aip AF_INET [11; 0; 0; 0] 8, kA)].
Definition sync_file : list (list Z) := map str
  ["[Interface]"; "ListenPort=51820"; "[Peer]"; "PublicKey=AAECAwQFBgcICQoLDA0ODxAREhMUFRYXGBkaGxwdHh8="; "AllowedIPs=10.0.0.0/8"; "Endpoint=192.0.2.1:51820"]%string.
Definition no_pubkey (_ : list Z) : list Z := repeat 255 32.
Definition sync_open (p : list Z) := if beq p (str "f") then Some sync_file else None.

Example before_sync_ok : iface_ok no_pubkey before_sync /\ Forall is_key (keys before_sync) /\ text sync_file /\ lp64 env0.
Proof.
  split; [|split; [|split]].
  - split; [|split].
    + unfold keys, before_sync. cbn [i_peers map k_pub]. repeat constructor; [intros [E|[]]; discriminate E|intros []].
    + unfold keys, before_sync. cbn [i_aips i_peers map k_pub In]. intros a k [E|[E|[]]]; injection E as <- <-; tauto.
    + intros k [_ <-]. unfold keys, before_sync. cbn [i_peers map k_pub In]. intros [E|[E|[]]]; discriminate E.
  - unfold keys, before_sync. cbn [i_peers map k_pub]. assert (B : forall a n, 0 <= a -> a + Z.of_nat n <= 256 -> Forall is_byte (zrange a n)).
    { intros a n H H'. apply Forall_forall. intros x Hx. apply zrange_In in Hx. unfold is_byte. lia. }
    constructor; [split; [reflexivity|apply B; cbn; lia]|]. constructor; [split; [reflexivity|apply B; cbn; lia]|constructor].
  - apply Forall_forall. intros x Hx. apply in_map_iff in Hx as (s & <- & _). apply str_bytes.
  - reflexivity.
Qed.
Example sync_run : run env0 no_pubkey show_iface insertion_sort sync_open "syncconf" (str "wg0") (str "f") before_sync =
  (0, mk_iface (repeat 0 32) 51820 0 [mk_kpeer kA (repeat 9 32) (Some (Ep4 [192; 0; 2; 1] 51820)) 7] [(ten, kA)]).
Proof. vm_compute. reflexivity. Qed.

(** The unrestricted claim is false: the file has no preshared key and no keepalive for A, setconf resets them, syncconf keeps them. *)
Theorem C27_stale_settings_refuted : exists e pubkey read qsort open_lines name path s lines d k p1 p2,
  lp64 e /\ reports read /\ sorts pubkey_cmp qsort /\ iface_ok pubkey s /\ Forall is_key (keys s) /\ text lines /\
  open_lines path = Some lines /\ read_config e false lines = Some d /\
  fst (run e pubkey read qsort open_lines "syncconf" name path s) = 0 /\
  peer_at k (snd (run e pubkey read qsort open_lines "syncconf" name path s)) = Some p1 /\
  peer_at k (snd (run e pubkey read qsort open_lines "setconf" name path s)) = Some p2 /\
  k_psk p1 <> k_psk p2 /\ k_ka p1 <> k_ka p2.
Proof.
  exists env0, no_pubkey, show_iface, insertion_sort, sync_open, (str "wg0"), (str "f"), before_sync, sync_file.
  eexists. exists kA. eexists _, _. destruct before_sync_ok as (A & B & C & D).
  split; [exact D|]. split; [exact show_iface_reports|]. split; [exact C26_qsort_exists|]. split; [exact A|]. split; [exact B|]. split; [exact C|].
  split; [reflexivity|]. split; [vm_compute; reflexivity|]. split; [vm_compute; reflexivity|]. split; [vm_compute; reflexivity|]. split; [vm_compute; reflexivity|].
  split; vm_compute; discriminate.
Qed.

Print Assumptions C26_syncconf_gives_the_file.
Print Assumptions C26_allowed_ips.
Print Assumptions C26_common_peers_stay.
Print Assumptions C26_qsort_exists.
Print Assumptions C26_interfaces_are_consistent.
Print Assumptions C27_peer_settings.
Print Assumptions C27_same_interface.
Print Assumptions C27_stale_settings_refuted.
