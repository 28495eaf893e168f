(** Proofs about src/config.c: lines and whole files. *)
From Coq Require Import String ZArith List Bool Lia.
From Verif Require Import Base Ctype Encoding EncodingSpec EncodingProofs Cstr CstrProofs Inet InetProofs Types
  NumSpec ConfigSpec Config ConfigProofs ConfigProofs2.
Import ListNotations.
Open Scope Z_scope.

(** * Line normalisation *)

Lemma cut_before : forall c l, (match split_first c l with Some (a, _) => a | None => l end) = before c l.
Proof.
  intros c l. induction l as [|x l IH]; [reflexivity|]. cbn [split_first before].
  destruct (x =? c); [reflexivity|]. destruct (split_first c l) as [[a b]|]; rewrite <- IH; reflexivity.
Qed.

Lemma before_incl : forall P c l, Forall P l -> Forall P (before c l).
Proof.
  intros P c l H. induction H as [|x l Hx Hl IH]; [constructor|]. cbn [before].
  destruct (x =? c); [constructor|constructor; assumption].
Qed.

Lemma space_is_ws : forall sg c, is_byte c -> char_is_space (char_val sg c) = is_ws c.
Proof.
  intros sg c Hc. unfold is_byte in Hc.
  assert (R : -128 <= char_val sg c < 256).
  { unfold char_val. destruct sg; cbn [andb]; [destruct (Z.leb_spec 128 c)|]; lia. }
  pose proof (char_is_space_correct _ R) as S. unfold space_spec in S.
  apply eq_true_iff_eq. rewrite S. unfold is_ws. cbn [existsb]. rewrite !orb_true_iff, !Z.eqb_eq.
  unfold char_val. destruct sg; cbn [andb]; [destruct (Z.leb_spec 128 c)|]; split; intro Q; try lia;
    decompose [or] Q; try lia; discriminate.
Qed.

Lemma filter_ext_Forall : forall (f g : Z -> bool) l, Forall (fun x => f x = g x) l -> filter f l = filter g l.
Proof. intros f g l H. induction H as [|x l Hx Hl IH]; [reflexivity|]. cbn. rewrite Hx, IH. reflexivity. Qed.

Lemma clean_normal : forall e l, Forall is_byte l -> clean_line e (cstring l) = normal l.
Proof.
  intros e l H. unfold clean_line, cstring, normal. rewrite !cut_before.
  apply filter_ext_Forall. apply before_incl, before_incl. eapply Forall_impl; [|exact H].
  intros c Hc. cbv beta. rewrite space_is_ws by exact Hc. reflexivity.
Qed.

Lemma normal_bytes : forall l, Forall is_byte l -> Forall is_byte (normal l).
Proof.
  intros l H. unfold normal. apply Forall_forall. intros x Hx. apply filter_In in Hx as [Hx _].
  revert x Hx. apply Forall_forall. apply before_incl, before_incl, H.
Qed.

(** * Keywords *)

Lemma lowers_app : forall a b, lowers (a ++ b) = lowers a ++ lowers b.
Proof. intros. apply map_app. Qed.
Lemma lowers_length : forall a, length (lowers a) = length a.
Proof. intros. apply map_length. Qed.
Lemma ci_length : forall a b, ci a b -> length a = length b.
Proof. intros a b H. rewrite <- (lowers_length a), <- (lowers_length b), H. reflexivity. Qed.

Lemma get_value_iff : forall line key v, get_value line key = Some v <->
  exists k, ci k key /\ v <> [] /\ line = k ++ v.
Proof.
  intros line key v. unfold get_value. split.
  - destruct (Nat.leb_spec (length line) (length key)); [discriminate|].
    destruct (ci_eq (firstn (length key) line) key) eqn:C; [|discriminate]. intro E. injection E as <-.
    exists (firstn (length key) line). split; [apply ci_eq_ci, C|]. split.
    + intro E. apply (f_equal (@length Z)) in E. rewrite skipn_length in E. simpl in E. lia.
    + symmetry. apply firstn_skipn.
  - intros (k & C & NE & ->). pose proof (ci_length _ _ C) as L. rewrite app_length.
    destruct v as [|v0 v]; [congruence|]. destruct (Nat.leb_spec (length k + length (v0 :: v)) (length key)) as [G|G]; [simpl in G; lia|].
    rewrite <- L, firstn_app, Nat.sub_diag, firstn_all, skipn_app, Nat.sub_diag, skipn_all. cbn [firstn skipn app].
    rewrite app_nil_r. apply ci_eq_ci in C. rewrite C. reflexivity.
Qed.

(** Two keywords that are not prefixes of one another cannot start the same line. *)
Definition clash (a b : string) : bool :=
  let x := lowers (str a) in let y := lowers (str b) in
  beq (firstn (length y) x) (firstn (length x) y).

Lemma clash_false : forall a b k v k' v', ci k (str a) -> ci k' (str b) -> k ++ v = k' ++ v' -> clash a b = true.
Proof.
  intros a b k v k' v' H H' E. unfold clash. apply beq_eq. unfold ci in *.
  apply (f_equal lowers) in E. rewrite !lowers_app, H, H' in E.
  set (x := lowers (str a)) in *. set (y := lowers (str b)) in *.
  pose proof (f_equal (firstn (length x)) E) as E1. rewrite firstn_app, Nat.sub_diag, firstn_all in E1. cbn [firstn] in E1.
  rewrite app_nil_r in E1.
  pose proof (f_equal (firstn (length y)) E1) as E2. rewrite E2.
  rewrite firstn_firstn, Nat.min_comm, <- firstn_firstn, firstn_app, Nat.sub_diag, firstn_all. cbn [firstn].
  rewrite app_nil_r. reflexivity.
Qed.

(** * Lines of a section *)

Definition put_dev (s : dev_setting) (d : device) : device :=
  match s with SPort p => set_port p d | SFwmark m => set_fwmark m d | SPriv k => set_priv k d end.

Definition put_peer (s : peer_setting) (p : peer) : peer :=
  match s with
  | SEndpoint e => set_endpoint e p
  | SPub k => set_pub k p
  | SAips l => set_aips (p_aips p ++ l) (set_replace_aips true p)
  | SKa n => set_ka n p
  | SPsk k => set_psk k p
  end.

Section Lines.
Variable e : env.
Hypothesis ulmax : 0xffffffff < e_ulmax e.

Lemma get_value_bytes : forall line key v, Forall is_byte line -> get_value line key = Some v -> Forall is_byte v.
Proof.
  intros line key v H G. apply get_value_iff in G as (k & _ & _ & ->). apply Forall_app in H. tauto.
Qed.

Lemma key_match_some : forall line k v a, line = k ++ v -> ci k (str a) -> v <> [] -> key_match line a = Some v.
Proof. intros line k v a -> C NE. apply get_value_iff. eauto. Qed.

Lemma key_match_none : forall line k v a b, line = k ++ v -> ci k (str a) -> clash a b = false -> key_match line b = None.
Proof.
  intros line k v a b -> C H. unfold key_match. destruct (get_value (k ++ v) (str b)) as [w|] eqn:G; [|reflexivity].
  exfalso. apply get_value_iff in G as (k' & C' & _ & E). rewrite (clash_false a b k v k' w) in H by assumption. discriminate.
Qed.

Lemma process_device_line_iff : forall line d d', Forall is_byte line ->
  process_device_line e line d = Some d' <-> exists s, dev_line (e_port e) line s /\ d' = put_dev s d.
Proof.
  intros line d d' Hb. unfold process_device_line. split.
  - intro H.
    destruct (key_match line "ListenPort=") as [v|] eqn:K1.
    { apply get_value_iff in K1 as (k & C & NE & ->). unfold parse_port in H. destruct v as [|v0 v]; [congruence|].
      destruct (e_port e (v0 :: v)) as [p|] eqn:P; [|discriminate]. injection H as <-.
      exists (SPort p). split; [|reflexivity]. constructor; assumption. }
    destruct (key_match line "FwMark=") as [v|] eqn:K2.
    { pose proof (get_value_bytes _ _ _ Hb K2) as Hv. apply get_value_iff in K2 as (k & C & NE & ->).
      destruct (parse_fwmark e v) as [p|] eqn:P; [|discriminate]. injection H as <-.
      exists (SFwmark p). split; [|reflexivity]. apply parse_fwmark_iff in P; [|assumption|assumption]. constructor; assumption. }
    destruct (key_match line "PrivateKey=") as [v|] eqn:K3; [|discriminate].
    { pose proof (get_value_bytes _ _ _ Hb K3) as Hv. apply get_value_iff in K3 as (k & C & NE & ->).
      destruct (parse_key e v) as [p|] eqn:P; [|discriminate]. injection H as <-.
      exists (SPriv p). split; [|reflexivity]. apply parse_key_iff in P; [|assumption]. constructor; assumption. }
  - intros (s & L & ->). destruct L as [k v p C NE P|k v m C NE P|k v x C NE P];
      apply Forall_app in Hb as [_ Hb].
    + rewrite (key_match_some _ k v "ListenPort=" eq_refl C NE). unfold parse_port. destruct v; [congruence|]. rewrite P. reflexivity.
    + rewrite (key_match_none _ k v "FwMark=" "ListenPort=" eq_refl C eq_refl).
      rewrite (key_match_some _ k v "FwMark=" eq_refl C NE).
      apply (parse_fwmark_iff e) in P; [|assumption|assumption]. rewrite P. reflexivity.
    + rewrite (key_match_none _ k v "PrivateKey=" "ListenPort=" eq_refl C eq_refl).
      rewrite (key_match_none _ k v "PrivateKey=" "FwMark=" eq_refl C eq_refl).
      rewrite (key_match_some _ k v "PrivateKey=" eq_refl C NE).
      apply (parse_key_iff e) in P; [|assumption]. rewrite P. reflexivity.
Qed.

Lemma process_peer_line_iff : forall line p p', Forall is_byte line ->
  process_peer_line e line p = Some p' <-> exists s, peer_line (e_resolve e) line s /\ p' = put_peer s p.
Proof.
  intros line d d' Hb. unfold process_peer_line. split.
  - intro H.
    destruct (key_match line "Endpoint=") as [v|] eqn:K1.
    { apply get_value_iff in K1 as (k & C & NE & ->).
      destruct (parse_endpoint e v) as [p|] eqn:P; [|discriminate]. injection H as <-.
      apply parse_endpoint_iff in P as (h & q & P1 & P2).
      exists (SEndpoint p). split; [|reflexivity]. econstructor; eassumption. }
    destruct (key_match line "PublicKey=") as [v|] eqn:K2.
    { pose proof (get_value_bytes _ _ _ Hb K2) as Hv. apply get_value_iff in K2 as (k & C & NE & ->).
      destruct (parse_key e v) as [p|] eqn:P; [|discriminate]. injection H as <-.
      exists (SPub p). split; [|reflexivity]. apply parse_key_iff in P; [|assumption]. constructor; assumption. }
    destruct (key_match line "AllowedIPs=") as [v|] eqn:K3.
    { pose proof (get_value_bytes _ _ _ Hb K3) as Hv. apply get_value_iff in K3 as (k & C & NE & ->).
      apply parse_allowedips_iff in H as (l & P & ->); [|assumption|lia].
      exists (SAips l). split; [|reflexivity]. constructor; assumption. }
    destruct (key_match line "PersistentKeepalive=") as [v|] eqn:K4.
    { pose proof (get_value_bytes _ _ _ Hb K4) as Hv. apply get_value_iff in K4 as (k & C & NE & ->).
      destruct (parse_keepalive e v) as [p|] eqn:P; [|discriminate]. injection H as <-.
      exists (SKa p). split; [|reflexivity]. apply parse_keepalive_iff in P; [|assumption|lia]. constructor; assumption. }
    destruct (key_match line "PresharedKey=") as [v|] eqn:K5; [|discriminate].
    { pose proof (get_value_bytes _ _ _ Hb K5) as Hv. apply get_value_iff in K5 as (k & C & NE & ->).
      destruct (parse_key e v) as [p|] eqn:P; [|discriminate]. injection H as <-.
      exists (SPsk p). split; [|reflexivity]. apply parse_key_iff in P; [|assumption]. constructor; assumption. }
  - intros (s & L & ->). destruct L as [k v h q x C NE P R|k v x C NE P|k v l C NE P|k v n C NE P|k v x C NE P];
      apply Forall_app in Hb as [_ Hb];
      match type of C with ci k (str ?K) =>
        repeat (first [rewrite (key_match_none _ k v K "Endpoint=" eq_refl C eq_refl)
                      |rewrite (key_match_none _ k v K "PublicKey=" eq_refl C eq_refl)
                      |rewrite (key_match_none _ k v K "AllowedIPs=" eq_refl C eq_refl)
                      |rewrite (key_match_none _ k v K "PersistentKeepalive=" eq_refl C eq_refl)]);
        rewrite (key_match_some _ k v K eq_refl C NE)
      end.
    + assert (G : parse_endpoint e v = Some x) by (apply parse_endpoint_iff; eauto). rewrite G. reflexivity.
    + apply (parse_key_iff e) in P; [|assumption]. rewrite P. reflexivity.
    + apply parse_allowedips_iff; [assumption|lia|]. exists l. split; [exact P|reflexivity].
    + apply (parse_keepalive_iff e) in P; [|assumption|lia]. rewrite P. reflexivity.
    + apply (parse_key_iff e) in P; [|assumption]. rewrite P. reflexivity.
Qed.

(** * Whole files *)

Definition put_item (c : ctx) (i : item) : ctx :=
  match i with
  | ItInterface => mk_ctx (c_dev c) (c_cur c) SecInterface
  | ItPeer => mk_ctx (flush c) (Some (set_replace_aips true peer0)) SecPeer
  | ItDev s => mk_ctx (put_dev s (c_dev c)) (c_cur c) SecInterface
  | ItPeerS s => mk_ctx (c_dev c) (option_map (put_peer s) (c_cur c)) SecPeer
  end.

Definition sect_of (s : section) : sect :=
  match s with SecNone => NoSection | SecInterface => InInterface | SecPeer => InPeer end.

(** A peer section always has a current peer. *)
Definition ctx_ok (c : ctx) : Prop := c_sec c = SecPeer -> c_cur c <> None.

Lemma put_item_ok : forall c i, ctx_ok c -> (forall s, i = ItPeerS s -> c_sec c = SecPeer) -> ctx_ok (put_item c i).
Proof.
  intros c i H Hi. destruct i; unfold ctx_ok in *; cbn; try discriminate.
  intros _. specialize (H (Hi _ eq_refl)). destruct (c_cur c); [discriminate|congruence].
Qed.

Inductive line_item : sect -> list Z -> item -> Prop :=
| li_interface : forall s l, ci l (str "[Interface]") -> line_item s l ItInterface
| li_peer : forall s l, ci l (str "[Peer]") -> line_item s l ItPeer
| li_dev : forall l x, dev_line (e_port e) l x -> line_item InInterface l (ItDev x)
| li_peers : forall l x, peer_line (e_resolve e) l x -> line_item InPeer l (ItPeerS x).

Lemma header_not_line : forall l h a k v, ci l (str h) -> ci k (str a) -> l = k ++ v -> clash h a = true.
Proof. intros l h a k v H1 H2 E. eapply (clash_false h a l [] k v); try eassumption. rewrite app_nil_r. exact E. Qed.

Lemma dev_line_not_header : forall l x h, dev_line (e_port e) l x -> ci l (str h) ->
  clash h "ListenPort=" = true \/ clash h "FwMark=" = true \/ clash h "PrivateKey=" = true.
Proof.
  intros l x h H C. destruct H as [k v p K _ _|k v p K _ _|k v p K _ _];
    pose proof (header_not_line _ _ _ _ _ C K eq_refl); auto.
Qed.

Lemma peer_line_not_header : forall l x h, peer_line (e_resolve e) l x -> ci l (str h) ->
  clash h "Endpoint=" = true \/ clash h "PublicKey=" = true \/ clash h "AllowedIPs=" = true \/
  clash h "PersistentKeepalive=" = true \/ clash h "PresharedKey=" = true.
Proof.
  intros l x h H C. destruct H as [k v p q y K _ _ _|k v p K _ _|k v p K _ _|k v p K _ _|k v p K _ _];
    pose proof (header_not_line _ _ _ _ _ C K eq_refl); auto.
Qed.

Ltac absurd_headers H :=
  exfalso; cbv in H; repeat (destruct H as [H|H]); discriminate H.

Lemma process_line_iff : forall c line c', ctx_ok c -> Forall is_byte line ->
  process_line e c line = Some c' <-> exists i, line_item (sect_of (c_sec c)) line i /\ c' = put_item c i.
Proof.
  intros c line c' Hc Hb. unfold process_line.
  destruct (ci_eq line (str "[Interface]")) eqn:C1.
  { apply ci_eq_ci in C1. split.
    - intro H. injection H as <-. exists ItInterface. split; [constructor; exact C1|reflexivity].
    - intros (i & L & ->). inversion L as [s l C|s l C|l x C|l x C]; subst.
      + reflexivity.
      + exfalso. unfold ci in *. rewrite C1 in C. discriminate.
      + pose proof (dev_line_not_header _ _ _ C C1) as K. absurd_headers K.
      + pose proof (peer_line_not_header _ _ _ C C1) as K. absurd_headers K. }
  destruct (ci_eq line (str "[Peer]")) eqn:C2.
  { apply ci_eq_ci in C2. split.
    - intro H. injection H as <-. exists ItPeer. split; [constructor; exact C2|reflexivity].
    - intros (i & L & ->). inversion L as [s l C|s l C|l x C|l x C]; subst.
      + exfalso. unfold ci in *. rewrite C2 in C. discriminate.
      + reflexivity.
      + pose proof (dev_line_not_header _ _ _ C C2) as K. absurd_headers K.
      + pose proof (peer_line_not_header _ _ _ C C2) as K. absurd_headers K. }
  destruct (c_sec c) eqn:S.
  - split; [discriminate|]. intros (i & L & ->). inversion L as [s l C|s l C| |]; subst; apply ci_eq_ci in C; congruence.
  - split.
    + intro H. destruct (process_device_line e line (c_dev c)) as [d|] eqn:P; [|discriminate]. injection H as <-.
      apply process_device_line_iff in P as (s & P & ->); [|exact Hb]. exists (ItDev s). split; [constructor; exact P|reflexivity].
    + intros (i & L & ->). inversion L as [s l C|s l C|l x C|]; subst; try (apply ci_eq_ci in C; congruence).
      assert (P : process_device_line e line (c_dev c) = Some (put_dev x (c_dev c))) by (apply process_device_line_iff; eauto).
      rewrite P. reflexivity.
  - specialize (Hc S). destruct (c_cur c) as [p|] eqn:Cur; [|congruence]. split.
    + intro H. destruct (process_peer_line e line p) as [d|] eqn:P; [|discriminate]. injection H as <-.
      apply process_peer_line_iff in P as (s & P & ->); [|exact Hb]. exists (ItPeerS s). split; [constructor; exact P|].
      cbn. rewrite Cur. reflexivity.
    + intros (i & L & ->). inversion L as [s l C|s l C| |l x C]; subst; try (apply ci_eq_ci in C; congruence).
      assert (P : process_peer_line e line p = Some (put_peer x p)) by (apply process_peer_line_iff; eauto).
      rewrite P. cbn. rewrite Cur. reflexivity.
Qed.

Lemma line_item_sect : forall c l i, line_item (sect_of (c_sec c)) l i -> forall s, i = ItPeerS s -> c_sec c = SecPeer.
Proof. intros c l i H s ->. inversion H as [| | |? ? ? E]. destruct (c_sec c); try discriminate. reflexivity. Qed.

Lemma line_item_nonempty : forall s l i, line_item s l i -> l <> [].
Proof.
  intros s l i H. destruct H as [s l C|s l C|l x C|l x C].
  - intros ->. discriminate C.
  - intros ->. discriminate C.
  - destruct C as [k v p K N ?|k v p K N ?|k v p K N ?]; destruct k; try discriminate; destruct v; try congruence; discriminate.
  - destruct C as [k v p q y K N ? ?|k v p K N ?|k v p K N ?|k v p K N ?|k v p K N ?]; destruct k; try discriminate; destruct v; try congruence; discriminate.
Qed.

Notation freads := (reads (e_port e) (e_resolve e) normal).

Lemma reads_cons : forall s l ls its, freads s (l :: ls) its <->
  (normal l = [] /\ freads s ls its) \/
  (exists i r, its = i :: r /\ line_item s (normal l) i /\
     freads (match i with ItInterface | ItDev _ => InInterface | _ => InPeer end) ls r).
Proof.
  intros s l ls its. split.
  - intro H. inversion H as [|? ? ? ? N R|? ? ? r C R|? ? ? r C R|? ? r x C R|? ? r x C R]; subst; auto; right.
    + exists ItInterface, r. split; [reflexivity|]. split; [constructor; exact C|exact R].
    + exists ItPeer, r. split; [reflexivity|]. split; [constructor; exact C|exact R].
    + exists (ItDev x), r. split; [reflexivity|]. split; [constructor; exact C|exact R].
    + exists (ItPeerS x), r. split; [reflexivity|]. split; [constructor; exact C|exact R].
  - intros [[N R]|(i & r & -> & L & R)]; [apply r_blank; assumption|].
    inversion L; subst; [apply r_interface|apply r_peer|apply r_dev|apply r_peers]; assumption.
Qed.

Lemma read_lines_iff : forall lines c c', ctx_ok c -> Forall (Forall is_byte) lines ->
  read_lines e c (map cstring lines) = Some c' <->
  exists its, freads (sect_of (c_sec c)) lines its /\ c' = fold_left put_item its c.
Proof.
  induction lines as [|l lines IH]; intros c c' Hc Hb.
  - cbn. split.
    + intro H. injection H as <-. exists []. split; [constructor|reflexivity].
    + intros (its & R & ->). inversion R. reflexivity.
  - inversion_clear Hb as [|? ? Hl Hls]. cbn [map read_lines]. unfold config_read_line.
    rewrite clean_normal by exact Hl. pose proof (normal_bytes _ Hl) as Hn.
    destruct (normal l) as [|n0 n] eqn:N.
    + rewrite (IH c c' Hc Hls). split; intros (its & R & E); exists its; (split; [|exact E]).
      * apply reads_cons. left. auto.
      * apply reads_cons in R as [[_ R]|(i & r & -> & L & R)]; [exact R|].
        exfalso. rewrite N in L. eapply line_item_nonempty; [exact L|reflexivity].
    + rewrite <- N in *. split.
      * destruct (process_line e c (normal l)) as [c1|] eqn:P; [|discriminate]. intro H.
        apply process_line_iff in P as (i & L & ->); try assumption.
        apply IH in H as (its & R & ->); [|apply put_item_ok; [exact Hc|eapply line_item_sect, L]|exact Hls].
        exists (i :: its). split; [|reflexivity]. apply reads_cons. right. exists i, its. split; [reflexivity|]. split; [exact L|].
        replace (match i with ItInterface | ItDev _ => InInterface | _ => InPeer end) with (sect_of (c_sec (put_item c i)))
          by (destruct i; reflexivity). exact R.
      * intros (its & R & ->). apply reads_cons in R as [[E R]|(i & r & -> & L & R)]; [rewrite E in N; discriminate|].
        assert (P : process_line e c (normal l) = Some (put_item c i)) by (apply process_line_iff; eauto).
        rewrite P. apply IH; [apply put_item_ok; [exact Hc|eapply line_item_sect, L]|exact Hls|].
        exists r. split; [|reflexivity].
        replace (sect_of (c_sec (put_item c i))) with (match i with ItInterface | ItDev _ => InInterface | _ => InPeer end)
          by (destruct i; reflexivity). exact R.
Qed.

(** * The device that comes out *)

Definition put_peers (ss : list peer_setting) (p : peer) : peer := fold_left (fun p s => put_peer s p) ss p.

Lemma last_cons_dflt : forall A (x : A) l d, last (x :: l) d = last l x.
Proof. intros A x l. revert x. induction l as [|y l IH]; intros x d; [reflexivity|]. change (last (x :: y :: l) d) with (last (y :: l) d). rewrite IH. symmetry. apply IH. Qed.

Lemma put_peers_spec : forall ss p, p_replace_aips p = true ->
  put_peers ss p =
  mk_peer (p_remove p) true (p_has_pub p || some (pubs ss)) (p_has_psk p || some (psks ss)) (p_has_ka p || some (kas ss))
    (last (pubs ss) (p_pub p)) (last (psks ss) (p_psk p)) (last (eps ss) (p_endpoint p))
    (p_hs_sec p) (p_hs_nsec p) (p_rx p) (p_tx p) (last (kas ss) (p_ka p)) (p_aips p ++ aips ss).
Proof.
  induction ss as [|s ss IH]; intros p Hp.
  - cbn. rewrite !orb_false_r, app_nil_r. destruct p; cbn in *; subst; reflexivity.
  - change (put_peers (s :: ss) p) with (put_peers ss (put_peer s p)).
    rewrite IH by (destruct s; cbn; auto).
    destruct s; cbn [put_peer p_remove p_replace_aips p_has_pub p_has_psk p_has_ka p_pub p_psk p_endpoint p_hs_sec p_hs_nsec p_rx p_tx p_ka p_aips
      set_endpoint set_pub set_aips set_ka set_psk set_replace_aips pubs psks kas eps aips flat_map app orb some];
      rewrite ?orb_true_r, ?last_cons_dflt, ?app_assoc; reflexivity.
Qed.

Lemma put_peers_new : forall ss, put_peers ss (set_replace_aips true peer0) = peer_of ss.
Proof. intro ss. rewrite put_peers_spec by reflexivity. reflexivity. Qed.

(** Device part of a context after [its]. *)
Definition upd_dev (its : list item) (d : device) : device :=
  mk_device (d_name d) (d_ifindex d) (d_replace_peers d)
    (d_has_priv d || some (privs its)) (d_has_pub d) (d_has_port d || some (ports its)) (d_has_fwmark d || some (fwmarks its))
    (d_pub d) (last (privs its) (d_priv d)) (last (fwmarks its) (d_fwmark d)) (last (ports its) (d_port d)) (d_peers d).

Lemma flush_fold : forall its c,
  flush (fold_left put_item its c) =
  set_peers (d_peers (c_dev c) ++
     match c_cur c with None => [] | Some p => [put_peers (fst (groups its)) p] end ++ map peer_of (snd (groups its)))
    (upd_dev its (c_dev c)).
Proof.
  induction its as [|i its IH]; intros c.
  - destruct c as [d cur sec]. destruct d. unfold flush, upd_dev, set_peers. destruct cur; cbn; rewrite ?app_nil_r, ?orb_false_r; reflexivity.
  - cbn [fold_left]. rewrite IH. destruct c as [d cur sec]. destruct i as [| |s|s]; cbn [put_item c_dev c_cur c_sec groups].
    + reflexivity.
    + destruct (groups its) as [h g] eqn:G. cbn [fst snd]. rewrite put_peers_new.
      unfold flush. cbn [c_cur c_dev]. destruct cur as [p|]; cbn [map put_peers fold_left set_peers d_peers].
      * rewrite <- app_assoc. reflexivity.
      * reflexivity.
    + destruct s; unfold upd_dev; cbn [put_dev set_port set_fwmark set_priv privs ports fwmarks flat_map app some
        d_name d_ifindex d_replace_peers d_has_priv d_has_pub d_has_port d_has_fwmark d_pub d_priv d_fwmark d_port d_peers set_peers];
        rewrite ?orb_true_r, ?last_cons_dflt; reflexivity.
    + destruct (groups its) as [h g] eqn:G. cbn [fst snd]. destruct cur as [p|]; reflexivity.
Qed.

Lemma fst_groups_reads : forall s lines its, freads s lines its -> s <> InPeer -> fst (groups its) = [].
Proof.
  intros s lines its H. induction H as [s|s l ls its N H IH|s l ls its C H IH|s l ls its C H IH|l ls its x C H IH|l ls its x C H IH]; intro NP.
  - reflexivity.
  - apply IH, NP.
  - cbn. apply IH. discriminate.
  - cbn. destruct (groups its). reflexivity.
  - cbn. apply IH. discriminate.
  - congruence.
Qed.

Lemma some_nonempty : forall A (l : list A), some l = true <-> l <> [].
Proof. intros A [|x l]; cbn; split; intro; congruence. Qed.

Lemma read_config_iff : forall append lines d, Forall (Forall is_byte) lines ->
  read_config e append lines = Some d <-> config_means (e_port e) (e_resolve e) append lines d.
Proof.
  intros append lines d Hb. unfold read_config.
  assert (OK : ctx_ok (config_read_init append)) by discriminate.
  assert (D : forall its, freads NoSection lines its ->
    flush (fold_left put_item its (config_read_init append)) = device_of append its).
  { intros its R. rewrite flush_fold. destruct append; cbn -[zero_key last];
      unfold device_of, upd_dev, set_peers; cbn -[zero_key last]; reflexivity. }
  assert (F : forall its, freads NoSection lines its ->
    forallb p_has_pub (d_peers (device_of append its)) = true <-> Forall (fun ss => pubs ss <> []) (snd (groups its))).
  { intros its R. cbn [device_of d_peers]. rewrite forallb_forall, Forall_forall. split.
    - intros H ss Hs. specialize (H (peer_of ss) (in_map peer_of _ _ Hs)). apply some_nonempty, H.
    - intros H p Hp. apply in_map_iff in Hp as (ss & <- & Hs). cbn. apply some_nonempty, H, Hs. }
  split.
  - destruct (read_lines e (config_read_init append) (map cstring lines)) as [c|] eqn:R; [|discriminate].
    apply read_lines_iff in R as (its & R & ->); try assumption. cbn [config_read_init c_sec sect_of] in R.
    unfold config_read_finish. rewrite D by exact R. intro H.
    destruct (forallb p_has_pub (d_peers (device_of append its))) eqn:FB; [|discriminate]. injection H as <-.
    exists its. split; [exact R|]. split; [reflexivity|]. apply F; assumption.
  - intros (its & R & -> & P).
    assert (RL : read_lines e (config_read_init append) (map cstring lines) = Some (fold_left put_item its (config_read_init append))).
    { apply read_lines_iff; try assumption. exists its. split; [exact R|reflexivity]. }
    rewrite RL. unfold config_read_finish. rewrite D by exact R. apply (F its R) in P. rewrite P. reflexivity.
Qed.

End Lines.
