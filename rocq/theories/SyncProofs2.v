(** The effect of requests on the peers and allowed IPs of an interface. *)
From Coq Require Import String ZArith List Bool Lia Permutation Sorted.
From Verif Require Import Base Types NlSpec KernelSpec SyncSpec.
Import ListNotations.
Open Scope Z_scope.

Lemma beq_dec : forall a b : list Z, {a = b} + {a <> b}.
Proof. apply list_eq_dec, Z.eq_dec. Qed.
Lemma beq_true : forall a, beq a a = true.
Proof. intro a. apply beq_eq. reflexivity. Qed.
Lemma beq_false : forall a b, beq a b = false <-> a <> b.
Proof. intros a b. rewrite <- beq_eq. destruct (beq a b); split; intro H; congruence. Qed.

Lemma has_peer_iff : forall k s, has_peer k s = true <-> In k (keys s).
Proof.
  intros k s. unfold has_peer, keys. rewrite existsb_exists, in_map_iff. split; intros (p & A & B); exists p;
    [apply beq_eq in B|apply beq_eq in A]; tauto.
Qed.
Lemma has_peer_false : forall k s, has_peer k s = false <-> ~ In k (keys s).
Proof. intros k s. rewrite <- has_peer_iff. destruct (has_peer k s); split; intro H; congruence. Qed.

Lemma peer_at_none : forall k s, peer_at k s = None <-> ~ In k (keys s).
Proof.
  intros k s. unfold peer_at, keys. induction (i_peers s) as [|p l IH]; [cbn; tauto|]. cbn [find map In]. destruct (beq (k_pub p) k) eqn:E.
  - apply beq_eq in E. split; [discriminate|]. intro H. exfalso. apply H. left. exact E.
  - apply beq_false in E. rewrite IH. tauto.
Qed.

Lemma peer_at_pub : forall k s p, peer_at k s = Some p -> k_pub p = k /\ In p (i_peers s).
Proof. intros k s p H. unfold peer_at in H. apply find_some in H as [A B]. apply beq_eq in B. auto. Qed.

Section Effects.
Variable pubkey : list Z -> list Z.
Notation ap := (apply_peer pubkey).

Lemma own_key_iff : forall s k, own_key pubkey s k = true <-> is_own pubkey (i_priv s) k.
Proof.
  intros s k. unfold own_key, is_own. rewrite andb_true_iff, negb_true_iff, beq_false, beq_eq. reflexivity.
Qed.

Lemma route_owners : forall owner l tbl a k, In (a, k) (fold_left (route owner) l tbl) -> k = owner \/ In (a, k) tbl.
Proof.
  intros owner. induction l as [|x l IH]; intros tbl a k H; [right; exact H|]. cbn [fold_left] in H. apply IH in H as [H|H]; [left; exact H|].
  unfold route in H. apply in_app_iff in H as [H|[H|[]]]; [right; apply filter_In in H; tauto|left; congruence].
Qed.

(** Keys and private key. *)
Lemma ap_priv : forall s r, i_priv (ap s r) = i_priv s /\ i_port (ap s r) = i_port s /\ i_fwmark (ap s r) = i_fwmark s.
Proof.
  intros s r. unfold apply_peer. destruct (has_peer (rp_pub r) s), (rp_remove r); cbn; try (repeat split; reflexivity).
  destruct (own_key pubkey s (rp_pub r)); cbn; repeat split; reflexivity.
Qed.
Lemma aps_priv : forall rs s, i_priv (fold_left ap rs s) = i_priv s /\ i_port (fold_left ap rs s) = i_port s /\ i_fwmark (fold_left ap rs s) = i_fwmark s.
Proof.
  induction rs as [|r rs IH]; intro s; [repeat split; reflexivity|]. cbn [fold_left]. destruct (ap_priv s r) as (A & B & C).
  destruct (IH (ap s r)) as (D & E & F). repeat split; congruence.
Qed.

Lemma keys_drop : forall k s, keys (drop_peer k s) = filter (fun x => negb (beq x k)) (keys s).
Proof.
  intros k s. unfold keys, drop_peer. cbn [i_peers]. induction (i_peers s) as [|p l IH]; [reflexivity|].
  cbn [filter map]. destruct (negb (beq (k_pub p) k)); cbn [map]; [f_equal|]; exact IH.
Qed.
Lemma in_keys_drop : forall k s x, In x (keys (drop_peer k s)) <-> In x (keys s) /\ x <> k.
Proof. intros k s x. rewrite keys_drop, filter_In, negb_true_iff, beq_false. reflexivity. Qed.

Lemma keys_ap : forall s r, keys (ap s r) =
  if rp_remove r then filter (fun x => negb (beq x (rp_pub r))) (keys s)
  else if has_peer (rp_pub r) s || own_key pubkey s (rp_pub r) then keys s else keys s ++ [rp_pub r].
Proof.
  intros s r. unfold apply_peer. destruct (has_peer (rp_pub r) s) eqn:H, (rp_remove r) eqn:E; cbn [orb].
  - apply keys_drop.
  - unfold keys. cbn [i_peers]. rewrite map_map. apply map_ext. intro p. destruct (beq (k_pub p) (rp_pub r)); reflexivity.
  - apply has_peer_false in H. clear E. induction (keys s) as [|x l IH]; [reflexivity|]. cbn [filter].
    destruct (beq x (rp_pub r)) eqn:X; [apply beq_eq in X; exfalso; apply H; left; exact X|]. cbn [negb]. f_equal. apply IH. intro Y. apply H. right. exact Y.
  - destruct (own_key pubkey s (rp_pub r)); [reflexivity|]. unfold keys. cbn [i_peers]. rewrite map_app. reflexivity.
Qed.

Lemma in_keys_ap : forall s r x, In x (keys (ap s r)) <->
  if rp_remove r then In x (keys s) /\ x <> rp_pub r else In x (keys s) \/ (x = rp_pub r /\ own_key pubkey s x = false).
Proof.
  intros s r x. rewrite keys_ap. destruct (rp_remove r).
  - rewrite filter_In, negb_true_iff, beq_false. reflexivity.
  - destruct (has_peer (rp_pub r) s) eqn:H; cbn [orb].
    + apply has_peer_iff in H. split; [tauto|]. intros [A|[-> _]]; assumption.
    + destruct (own_key pubkey s (rp_pub r)) eqn:O.
      * split; [tauto|]. intros [A|[-> X]]; [assumption|congruence].
      * rewrite in_app_iff. cbn [In]. split; [intros [A|[<-|[]]]; tauto|]. intros [A|[-> _]]; tauto.
Qed.

Lemma nodup_filter : forall A (f : A -> bool) l, NoDup l -> NoDup (filter f l).
Proof.
  intros A f l N. induction N as [|x l H N IH]; [constructor|]. cbn [filter]. destruct (f x); [constructor; [rewrite filter_In; tauto|]|]; exact IH.
Qed.

Lemma iface_ok_ap : forall s r, iface_ok pubkey s -> iface_ok pubkey (ap s r).
Proof.
  intros s r (N & A & O). destruct (ap_priv s r) as (P & _ & _). split; [|split].
  - rewrite keys_ap. destruct (rp_remove r); [apply nodup_filter; exact N|].
    destruct (has_peer (rp_pub r) s || own_key pubkey s (rp_pub r)) eqn:H; [exact N|].
    apply orb_false_iff in H as [H _]. apply has_peer_false in H.
    apply Permutation_NoDup with (rp_pub r :: keys s); [apply Permutation_cons_append|]. constructor; assumption.
  - intros a k. rewrite in_keys_ap. unfold apply_peer. destruct (has_peer (rp_pub r) s) eqn:H, (rp_remove r).
    + unfold drop_peer, drop_routes. cbn [i_aips]. rewrite filter_In, negb_true_iff, beq_false. cbn [snd]. intros [X Y]. split; [eapply A, X|exact Y].
    + cbn [i_aips]. intro X. apply route_owners in X as [->|X]; [left; apply has_peer_iff; exact H|].
      left. destruct (rp_replace r); [unfold drop_routes in X; apply filter_In in X as [X _]|]; eapply A, X.
    + intro X. apply A in X. split; [exact X|]. intros ->. apply has_peer_false in H. tauto.
    + destruct (own_key pubkey s (rp_pub r)) eqn:Ow; cbn [i_aips]; intro X; [left; eapply A, X|].
      apply route_owners in X as [->|X]; [right; auto|left; eapply A, X].
  - intros k Hk. rewrite P in Hk. rewrite in_keys_ap. destruct (rp_remove r); [intros [X _]; exact (O k Hk X)|].
    intros [X|[-> X]]; [exact (O k Hk X)|]. apply own_key_iff in Hk. congruence.
Qed.
Lemma iface_ok_aps : forall rs s, iface_ok pubkey s -> iface_ok pubkey (fold_left ap rs s).
Proof. induction rs as [|r rs IH]; intros s H; [exact H|]. apply IH, iface_ok_ap, H. Qed.

(** The interface settings. *)
Definition prologue (s : iface) (q : request) : iface := apply_request pubkey s (settings_only q).
Lemma apply_request_split : forall s q, apply_request pubkey s q = fold_left ap (rq_peers q) (prologue s q).
Proof. reflexivity. Qed.

Lemma iface_ok_drop : forall k s, iface_ok pubkey s -> iface_ok pubkey (drop_peer k s).
Proof.
  intros k s (N & A & O). split; [|split].
  - rewrite keys_drop. apply nodup_filter, N.
  - intros a x. rewrite in_keys_drop. unfold drop_peer, drop_routes. cbn [i_aips]. rewrite filter_In, negb_true_iff, beq_false. cbn [snd].
    intros [X Y]. split; [eapply A, X|exact Y].
  - intros x Hx. rewrite in_keys_drop. intros [X _]. exact (O x Hx X).
Qed.

Lemma iface_ok_prologue : forall s q, iface_ok pubkey s -> iface_ok pubkey (prologue s q).
Proof.
  intros s q (N & A & O). unfold prologue, apply_request, settings_only. cbn [rq_port rq_fwmark rq_replace rq_priv rq_peers fold_left].
  set (s2 := if rq_replace q then _ else _).
  assert (H2 : NoDup (keys s2) /\ (forall a k, In (a, k) (i_aips s2) -> In k (keys s2)) /\ (forall k, is_own pubkey (i_priv s) k -> ~ In k (keys s2)) /\ i_priv s2 = i_priv s).
  { unfold s2. destruct (rq_replace q); [|cbn [i_aips i_priv keys i_peers]; auto].
    repeat split; [constructor|intros a k []|intros k _ []]. }
  clearbody s2. destruct H2 as (N2 & A2 & O2 & P2).
  destruct (rq_priv q) as [k|].
  - destruct (beq k zero_key) eqn:E.
    + apply beq_eq in E. split; [exact N2|split; [exact A2|]]. intros x (Hx & _). cbn [i_priv] in Hx. exfalso. apply Hx. exact E.
    + split; [|split]; cbn [keys i_peers i_aips i_priv].
      * change (NoDup (keys (drop_peer (pubkey k) s2))). rewrite keys_drop. apply nodup_filter, N2.
      * intros a x H. change (In x (keys (drop_peer (pubkey k) s2))). rewrite in_keys_drop. unfold drop_peer, drop_routes in H. cbn [i_aips] in H.
        apply filter_In in H as [H1 H2]. rewrite negb_true_iff, beq_false in H2. split; [eapply A2, H1|exact H2].
      * intros x (_ & <-) H. change (In (pubkey k) (keys (drop_peer (pubkey k) s2))) in H. apply in_keys_drop in H. tauto.
  - split; [exact N2|split; [exact A2|]]. rewrite P2. exact O2.
Qed.

Lemma iface_ok_apply : forall s q, iface_ok pubkey s -> iface_ok pubkey (apply_request pubkey s q).
Proof. intros s q H. rewrite apply_request_split. apply iface_ok_aps, iface_ok_prologue, H. Qed.

(** Keys after a list of peers none of which is removed. *)
Lemma keys_aps : forall rs s, Forall (fun r => rp_remove r = false) rs -> forall x,
  In x (keys (fold_left ap rs s)) <-> In x (keys s) \/ (In x (map rp_pub rs) /\ own_key pubkey s x = false).
Proof.
  induction rs as [|r rs IH]; intros s F x; [cbn; tauto|]. inversion F as [|? ? F0 Fl]; subst. cbn [fold_left map In].
  rewrite (IH (ap s r) Fl x), in_keys_ap, F0.
  assert (O : own_key pubkey (ap s r) x = own_key pubkey s x) by (unfold own_key; destruct (ap_priv s r) as (-> & _); reflexivity).
  rewrite O. split; [intros [[A|[-> B]]|[A B]]; tauto|]. intros [A|[[<-|A] B]]; tauto.
Qed.

(** Removing. *)
Lemma aps_remove : forall ks s, iface_ok pubkey s -> let s' := fold_left ap (map (fun k => mk_rq_peer k true false None None None []) ks) s in
  i_peers s' = filter (fun p => negb (existsb (beq (k_pub p)) ks)) (i_peers s) /\
  i_aips s' = filter (fun e => negb (existsb (beq (snd e)) ks)) (i_aips s).
Proof.
  assert (FF : forall A (f g : A -> bool) l, filter f (filter g l) = filter (fun x => g x && f x) l).
  { intros A f g l. induction l as [|x l IH]; [reflexivity|]. cbn [filter]. destruct (g x); cbn [filter andb]; [destruct (f x); [f_equal|]|]; exact IH. }
  assert (FT : forall A (f : A -> bool) l, Forall (fun x => f x = true) l -> filter f l = l).
  { intros A f l H. induction H as [|x l E _ IH]; [reflexivity|]. cbn [filter]. rewrite E. f_equal. exact IH. }
  induction ks as [|k ks IH]; intros s H.
  - cbn. split; symmetry; apply FT, Forall_forall; reflexivity.
  - cbn [map fold_left]. set (r := mk_rq_peer k true false None None None []).
    destruct (IH (ap s r) (iface_ok_ap s r H)) as [E1 E2]. cbv zeta in E1, E2. rewrite E1, E2.
    assert (E : i_peers (ap s r) = filter (fun p => negb (beq (k_pub p) k)) (i_peers s) /\ i_aips (ap s r) = filter (fun e => negb (beq (snd e) k)) (i_aips s)).
    { unfold apply_peer, r. cbn [rp_pub rp_remove]. destruct (has_peer k s) eqn:P; [split; reflexivity|]. apply has_peer_false in P.
      split; symmetry; apply FT, Forall_forall.
      - intros p Hp. apply negb_true_iff, beq_false. intro X. apply P. unfold keys. apply in_map_iff. exists p. split; [exact X|exact Hp].
      - intros [a o] Ho. cbn [snd]. apply negb_true_iff, beq_false. intros ->. apply P. destruct H as (_ & A & _). eapply A, Ho. }
    destruct E as [-> ->]. rewrite !FF. split; apply filter_ext; intro x; cbn [existsb]; rewrite negb_orb; reflexivity.
Qed.

(** Contents of a peer. *)
Lemma find_map_upd : forall k r l, find (fun p => beq (k_pub p) k) (map (fun p => if beq (k_pub p) (rp_pub r) then update_kpeer r p else p) l)
  = option_map (fun p => if beq k (rp_pub r) then update_kpeer r p else p) (find (fun p => beq (k_pub p) k) l).
Proof.
  intros k r. induction l as [|p l IH]; [reflexivity|]. cbn [map find].
  assert (K : k_pub (if beq (k_pub p) (rp_pub r) then update_kpeer r p else p) = k_pub p) by (destruct (beq (k_pub p) (rp_pub r)); reflexivity).
  rewrite K. destruct (beq (k_pub p) k) eqn:E; [|exact IH]. cbn [option_map]. apply beq_eq in E. rewrite E. reflexivity.
Qed.

Definition new_kpeer (k : list Z) : kpeer := mk_kpeer k zero_key None 0.
Definition upd (p : kpeer) (r : rq_peer) : kpeer := update_kpeer r p.

Lemma peer_at_ap : forall s r k, rp_remove r = false -> peer_at k (ap s r) =
  if beq k (rp_pub r) then
    match peer_at k s with
    | Some p => Some (update_kpeer r p)
    | None => if own_key pubkey s k then None else Some (update_kpeer r (new_kpeer k))
    end
  else peer_at k s.
Proof.
  intros s r k E. unfold apply_peer. destruct (has_peer (rp_pub r) s) eqn:H.
  - rewrite E. unfold peer_at. cbn [i_peers]. rewrite find_map_upd. destruct (beq k (rp_pub r)) eqn:K.
    + apply beq_eq in K. subst k. apply has_peer_iff in H. destruct (find _ (i_peers s)) as [p|] eqn:F; [reflexivity|].
      exfalso. assert (X : peer_at (rp_pub r) s = None) by exact F. apply peer_at_none in X. tauto.
    + destruct (find _ (i_peers s)); reflexivity.
  - apply has_peer_false in H. rewrite E. destruct (beq k (rp_pub r)) eqn:K.
    + apply beq_eq in K. subst k. pose proof H as H'. apply peer_at_none in H'. rewrite H'.
      destruct (own_key pubkey s (rp_pub r)); [exact H'|]. unfold peer_at. cbn [i_peers]. unfold peer_at in H'. clear H.
      induction (i_peers s) as [|p l IH]; cbn [find app k_pub update_kpeer]; [rewrite beq_true; reflexivity|].
      cbn [find] in H'. destruct (beq (k_pub p) (rp_pub r)); [discriminate|]. apply IH, H'.
    + destruct (own_key pubkey s (rp_pub r)); [reflexivity|]. unfold peer_at. cbn [i_peers]. clear H.
      induction (i_peers s) as [|p l IH]; cbn [find app k_pub update_kpeer].
      * apply beq_false in K. destruct (beq (rp_pub r) k) eqn:X; [apply beq_eq in X; congruence|reflexivity].
      * destruct (beq (k_pub p) k); [reflexivity|]. exact IH.
Qed.

Lemma peer_at_aps : forall rs s k, Forall (fun r => rp_remove r = false) rs -> peer_at k (fold_left ap rs s) =
  match peer_at k s with
  | Some p => Some (fold_left upd (filter (fun r => beq k (rp_pub r)) rs) p)
  | None => if own_key pubkey s k then None
            else match filter (fun r => beq k (rp_pub r)) rs with
                 | [] => None
                 | l => Some (fold_left upd l (new_kpeer k))
                 end
  end.
Proof.
  induction rs as [|r rs IH]; intros s k F.
  - cbn. destruct (peer_at k s); [reflexivity|]. destruct (own_key pubkey s k); reflexivity.
  - inversion F as [|? ? F0 Fl]; subst. cbn [fold_left filter]. rewrite (IH (ap s r) k Fl), (peer_at_ap s r k F0).
    assert (O : own_key pubkey (ap s r) k = own_key pubkey s k) by (unfold own_key; destruct (ap_priv s r) as (-> & _); reflexivity).
    rewrite O. destruct (beq k (rp_pub r)); [|reflexivity].
    destruct (peer_at k s); [reflexivity|]. destruct (own_key pubkey s k); reflexivity.
Qed.
End Effects.
