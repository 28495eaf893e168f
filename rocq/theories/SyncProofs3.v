(** syncconf against setconf: the same allowed IPs, the same peers up to what is kept. *)
From Coq Require Import String ZArith List Bool Lia Permutation Sorted.
From Verif Require Import Base Types NlSpec KernelSpec SyncSpec Config Setconf SyncProofs SyncProofs2.
Import ListNotations.
Open Scope Z_scope.

Lemma route_split : forall owner l old t, exists old', fold_left (route owner) l (old ++ t) = old' ++ fold_left (route owner) l t /\ incl old' old.
Proof.
  intros owner. induction l as [|a l IH]; intros old t; [exists old; split; [reflexivity|apply incl_refl]|]. cbn [fold_left].
  unfold route at 2. rewrite filter_app, <- app_assoc. change (filter _ t ++ [(network a, owner)]) with (route owner t a).
  destruct (IH (filter (fun e => negb (aip_eqb (fst e) (network a))) old) (route owner t a)) as (old' & E & I). exists old'. split; [exact E|].
  intros x Hx. apply I, filter_In in Hx. tauto.
Qed.

Section Tables.
Variable pubkey : list Z -> list Z.
Notation ap := (apply_peer pubkey).

Lemma drop_routes_app : forall k a b, drop_routes k (a ++ b) = drop_routes k a ++ drop_routes k b.
Proof. intros. apply filter_app. Qed.
Lemma drop_routes_none : forall k t, (forall a o, In (a, o) t -> o <> k) -> drop_routes k t = t.
Proof.
  intros k. induction t as [|[a o] t IH]; intro H; [reflexivity|]. cbn [drop_routes filter snd].
  assert (X : beq o k = false) by (apply beq_false, (H a o); left; reflexivity). rewrite X. cbn [negb]. f_equal. apply IH. intros b x Hx. apply (H b x). right. exact Hx.
Qed.

Lemma tables : forall rs sS sC old, Forall (fun r => rp_remove r = false /\ rp_replace r = true) rs ->
  iface_ok pubkey sS -> iface_ok pubkey sC -> i_priv sS = i_priv sC -> incl (keys sC) (keys sS) ->
  i_aips sS = old ++ i_aips sC -> (forall a o, In (a, o) old -> In o (map rp_pub rs)) ->
  i_aips (fold_left ap rs sS) = i_aips (fold_left ap rs sC).
Proof.
  induction rs as [|r rs IH]; intros sS sC old F OS OC P I T Ow.
  - cbn. rewrite T. destruct old as [|[a o] old]; [reflexivity|]. destruct (Ow a o). left. reflexivity.
  - inversion F as [|? ? [F0 F1] Fl]; subst. cbn [fold_left].
    set (k := rp_pub r) in *.
    assert (Oe : own_key pubkey sS k = own_key pubkey sC k) by (unfold own_key; rewrite P; reflexivity).
    assert (Inc : incl (keys (ap sC r)) (keys (ap sS r))).
    { intros x Hx. rewrite in_keys_ap, F0 in Hx |- *. fold k in Hx |- *. destruct Hx as [Hx|[-> Hx]]; [left; apply I, Hx|].
      destruct (has_peer k sS) eqn:E; [left; apply has_peer_iff, E|right; split; [reflexivity|congruence]]. }
    assert (Pr : i_priv (ap sS r) = i_priv (ap sC r)).
    { destruct (ap_priv pubkey sS r) as (-> & _), (ap_priv pubkey sC r) as (-> & _). exact P. }
    assert (HT : exists old', i_aips (ap sS r) = old' ++ i_aips (ap sC r) /\ incl old' old /\ (forall a o, In (a, o) old' -> o <> k)).
    { unfold apply_peer. fold k. rewrite F0, F1. destruct (has_peer k sS) eqn:HS.
      - assert (NO : own_key pubkey sS k = false).
        { destruct (own_key pubkey sS k) eqn:E; [|reflexivity]. apply own_key_iff in E. destruct OS as (_ & _ & OS). apply has_peer_iff in HS. destruct (OS k E HS). }
        cbn [i_aips]. rewrite T, drop_routes_app.
        destruct (route_split k (rp_aips r) (drop_routes k old) (drop_routes k (i_aips sC))) as (old' & E & Ic).
        exists old'. split; [|split].
        + rewrite E. f_equal. destruct (has_peer k sC) eqn:HC; [reflexivity|]. rewrite <- Oe, NO. cbn [i_aips]. f_equal. apply drop_routes_none.
          intros a o Ho ->. destruct OC as (_ & A & _). apply A in Ho. apply has_peer_false in HC. tauto.
        + intros x Hx. apply Ic in Hx. unfold drop_routes in Hx. apply filter_In in Hx. tauto.
        + intros a o Ho. apply Ic in Ho. unfold drop_routes in Ho. apply filter_In in Ho as [_ Ho]. apply negb_true_iff, beq_false in Ho. exact Ho.
      - assert (HC : has_peer k sC = false).
        { apply has_peer_false. intro X. apply I in X. apply has_peer_false in HS. tauto. }
        rewrite HC, Oe. assert (NK : forall a o, In (a, o) old -> o <> k).
        { intros a o Ho ->. destruct OS as (_ & A & _). assert (X : In (a, k) (i_aips sS)) by (rewrite T; apply in_or_app; left; exact Ho).
          apply A in X. apply has_peer_false in HS. tauto. }
        destruct (own_key pubkey sC k).
        + exists old. split; [exact T|]. split; [apply incl_refl|exact NK].
        + cbn [i_aips]. rewrite T. destruct (route_split k (rp_aips r) old (i_aips sC)) as (old' & E & Ic). exists old'.
          split; [exact E|]. split; [exact Ic|]. intros a o Ho. apply Ic in Ho. eapply NK, Ho. }
    destruct HT as (old' & T' & I' & NK). apply (IH _ _ old'); try assumption; try (apply iface_ok_ap; assumption).
    intros a o Ho. pose proof (NK a o Ho) as NE. apply I', Ow in Ho. cbn [map In] in Ho. destruct Ho as [E|Ho]; [exfalso; apply NE; symmetry; exact E|exact Ho].
Qed.
End Tables.

(** Later settings override earlier ones: what the last request that mentions a setting says, else what was there. *)
Lemma fold_psk : forall l p p', (exists r, In r l /\ rp_psk r <> None) -> k_psk (fold_left upd l p) = k_psk (fold_left upd l p').
Proof.
  induction l as [|r l IH]; intros p p' (r0 & H & N); [destruct H|]. cbn [fold_left].
  destruct (existsb (fun r => match rp_psk r with Some _ => true | None => false end) l) eqn:E.
  - apply IH. apply existsb_exists in E as (x & Hx & E). exists x. split; [exact Hx|]. intro C. rewrite C in E. discriminate.
  - assert (K : forall q, k_psk (fold_left upd l q) = k_psk q).
    { clear - E. induction l as [|x l IH]; intro q; [reflexivity|]. cbn [existsb fold_left] in *. apply orb_false_iff in E as [E1 E2].
      rewrite (IH E2). unfold upd, update_kpeer. cbn [k_psk]. destruct (rp_psk x); [discriminate|reflexivity]. }
    rewrite !K. destruct H as [<-|H].
    + unfold upd, update_kpeer. cbn [k_psk]. destruct (rp_psk r); [reflexivity|congruence].
    + exfalso. assert (X : existsb (fun r => match rp_psk r with Some _ => true | None => false end) l = true); [|congruence].
      apply existsb_exists. exists r0. split; [exact H|]. destruct (rp_psk r0); [reflexivity|congruence].
Qed.
Lemma fold_psk_none : forall l p, (forall r, In r l -> rp_psk r = None) -> k_psk (fold_left upd l p) = k_psk p.
Proof.
  induction l as [|r l IH]; intros p H; [reflexivity|]. cbn [fold_left]. rewrite IH by (intros; apply H; right; assumption).
  unfold upd, update_kpeer. cbn [k_psk]. rewrite (H r) by (left; reflexivity). reflexivity.
Qed.
Lemma fold_ka : forall l p p', (exists r, In r l /\ rp_ka r <> None) -> k_ka (fold_left upd l p) = k_ka (fold_left upd l p').
Proof.
  induction l as [|r l IH]; intros p p' (r0 & H & N); [destruct H|]. cbn [fold_left].
  destruct (existsb (fun r => match rp_ka r with Some _ => true | None => false end) l) eqn:E.
  - apply IH. apply existsb_exists in E as (x & Hx & E). exists x. split; [exact Hx|]. intro C. rewrite C in E. discriminate.
  - assert (K : forall q, k_ka (fold_left upd l q) = k_ka q).
    { clear - E. induction l as [|x l IH]; intro q; [reflexivity|]. cbn [existsb fold_left] in *. apply orb_false_iff in E as [E1 E2].
      rewrite (IH E2). unfold upd, update_kpeer. cbn [k_ka]. destruct (rp_ka x); [discriminate|reflexivity]. }
    rewrite !K. destruct H as [<-|H].
    + unfold upd, update_kpeer. cbn [k_ka]. destruct (rp_ka r); [reflexivity|congruence].
    + exfalso. assert (X : existsb (fun r => match rp_ka r with Some _ => true | None => false end) l = true); [|congruence].
      apply existsb_exists. exists r0. split; [exact H|]. destruct (rp_ka r0); [reflexivity|congruence].
Qed.
Lemma fold_ka_none : forall l p, (forall r, In r l -> rp_ka r = None) -> k_ka (fold_left upd l p) = k_ka p.
Proof.
  induction l as [|r l IH]; intros p H; [reflexivity|]. cbn [fold_left]. rewrite IH by (intros; apply H; right; assumption).
  unfold upd, update_kpeer. cbn [k_ka]. rewrite (H r) by (left; reflexivity). reflexivity.
Qed.
Lemma fold_ep : forall l p p', (exists r, In r l /\ rp_endpoint r <> None) -> k_ep (fold_left upd l p) = k_ep (fold_left upd l p').
Proof.
  induction l as [|r l IH]; intros p p' (r0 & H & N); [destruct H|]. cbn [fold_left].
  destruct (existsb (fun r => match rp_endpoint r with Some _ => true | None => false end) l) eqn:E.
  - apply IH. apply existsb_exists in E as (x & Hx & E). exists x. split; [exact Hx|]. intro C. rewrite C in E. discriminate.
  - assert (K : forall q, k_ep (fold_left upd l q) = k_ep q).
    { clear - E. induction l as [|x l IH]; intro q; [reflexivity|]. cbn [existsb fold_left] in *. apply orb_false_iff in E as [E1 E2].
      rewrite (IH E2). unfold upd, update_kpeer. cbn [k_ep]. destruct (rp_endpoint x); [discriminate|reflexivity]. }
    rewrite !K. destruct H as [<-|H].
    + unfold upd, update_kpeer. cbn [k_ep]. destruct (rp_endpoint r); [reflexivity|congruence].
    + exfalso. assert (X : existsb (fun r => match rp_endpoint r with Some _ => true | None => false end) l = true); [|congruence].
      apply existsb_exists. exists r0. split; [exact H|]. destruct (rp_endpoint r0); [reflexivity|congruence].
Qed.
Lemma fold_ep_none : forall l p, (forall r, In r l -> rp_endpoint r = None) -> k_ep (fold_left upd l p) = k_ep p.
Proof.
  induction l as [|r l IH]; intros p H; [reflexivity|]. cbn [fold_left]. rewrite IH by (intros; apply H; right; assumption).
  unfold upd, update_kpeer. cbn [k_ep]. rewrite (H r) by (left; reflexivity). reflexivity.
Qed.
Lemma fold_pub : forall l p, k_pub (fold_left upd l p) = k_pub p.
Proof. induction l as [|r l IH]; intro p; [reflexivity|]. cbn [fold_left]. rewrite IH. reflexivity. Qed.

(** ** The allowed IPs of a device as one assignment of prefixes *)
Lemma aip_eqb_iff : forall a b, aip_eqb a b = true <-> a = b.
Proof.
  intros [f i c] [f' i' c']. unfold aip_eqb. cbn [a_family a_ip a_cidr]. rewrite !andb_true_iff, !Z.eqb_eq, beq_eq. split; [intros [[-> ->] ->]; reflexivity|].
  intro E. injection E as -> -> ->. auto.
Qed.

Definition assign (t : list (allowedip * list Z)) (e : allowedip * list Z) : list (allowedip * list Z) :=
  filter (fun x => negb (aip_eqb (fst x) (fst e))) t ++ [e].
Lemma assign_in : forall l t n k, In (n, k) (fold_left assign l t) <->
  (exists l1 l2, l = l1 ++ (n, k) :: l2 /\ ~ In n (map fst l2)) \/ (In (n, k) t /\ ~ In n (map fst l)).
Proof.
  induction l as [|[m o] l IH]; intros t n k.
  - cbn. split; [tauto|]. intros [(l1 & l2 & E & _)|[H _]]; [destruct l1; discriminate|exact H].
  - cbn [fold_left]. rewrite IH. unfold assign. rewrite in_app_iff, filter_In. cbn [fst In map]. rewrite negb_true_iff.
    assert (X : aip_eqb n m = false <-> n <> m).
    { rewrite <- aip_eqb_iff. destruct (aip_eqb n m); split; intro H; congruence. }
    rewrite X. split.
    + intros [(l1 & l2 & -> & N)|[[[H NE]|[E|[]]] N]].
      * left. exists ((m, o) :: l1), l2. split; [reflexivity|exact N].
      * right. split; [exact H|]. intros [E|E]; [congruence|tauto].
      * injection E as -> ->. left. exists [], l. split; [reflexivity|exact N].
    + intros [(l1 & l2 & E & N)|[H N]].
      * destruct l1 as [|x l1]; cbn [app] in E; inversion E; subst; [right; tauto|].
        left. exists l1, l2. auto.
      * right. split; [left; split; [exact H|]|]; intro E; apply N; [left; congruence|right; exact E].
Qed.
Lemma assign_distinct : forall l t, NoDup (map fst l) -> (forall e, In e t -> ~ In (fst e) (map fst l)) -> fold_left assign l t = t ++ l.
Proof.
  induction l as [|e l IH]; intros t N H; [cbn; rewrite app_nil_r; reflexivity|]. cbn [fold_left map] in *. inversion N as [|? ? N0 Nl]; subst.
  assert (E : assign t e = t ++ [e]).
  { unfold assign. f_equal. clear - H. induction t as [|x t IH]; [reflexivity|]. cbn [filter].
    assert (X : aip_eqb (fst x) (fst e) = false).
    { destruct (aip_eqb (fst x) (fst e)) eqn:X; [|reflexivity]. apply aip_eqb_iff in X. destruct (H x); [left; reflexivity|]. left. symmetry. exact X. }
    rewrite X. cbn [negb]. f_equal. apply IH. intros y Hy. apply H. right. exact Hy. }
  rewrite E, IH; [rewrite <- app_assoc; reflexivity|exact Nl|].
  intros x Hx. apply in_app_iff in Hx as [Hx|[<-|[]]]; [intro C; apply (H x Hx); right; exact C|exact N0].
Qed.

Lemma fold_assign_map : forall owner l t, fold_left (route owner) l t = fold_left assign (map (fun a => (network a, owner)) l) t.
Proof. intros owner. induction l as [|a l IH]; intro t; [reflexivity|]. cbn [fold_left map]. rewrite <- IH. reflexivity. Qed.

Section Fresh.
Variable pubkey : list Z -> list Z.
Notation ap := (apply_peer pubkey).
Definition assignments (rs : list rq_peer) : list (allowedip * list Z) :=
  flat_map (fun r => map (fun a => (network a, rp_pub r)) (rp_aips r)) rs.

Lemma fresh_table : forall rs s, Forall (fun r => rp_remove r = false) rs -> NoDup (map rp_pub rs) ->
  (forall k, In k (map rp_pub rs) -> ~ In k (keys s) /\ ~ is_own pubkey (i_priv s) k) ->
  i_aips (fold_left ap rs s) = fold_left assign (assignments rs) (i_aips s).
Proof.
  induction rs as [|r rs IH]; intros s F N H; [reflexivity|]. inversion F as [|? ? F0 Fl]; subst. cbn [map] in *. inversion N as [|? ? N0 Nl]; subst.
  destruct (H (rp_pub r)) as [H1 H2]; [left; reflexivity|]. cbn [fold_left]. unfold assignments. cbn [flat_map]. rewrite fold_left_app.
  fold (assignments rs). rewrite IH; [|exact Fl|exact Nl|].
  - f_equal. rewrite <- fold_assign_map. unfold apply_peer. pose proof H1 as H1'. apply has_peer_false in H1'. rewrite H1', F0.
    destruct (own_key pubkey s (rp_pub r)) eqn:O; [apply own_key_iff in O; tauto|]. reflexivity.
  - intros k Hk. destruct (H k) as [H3 H4]; [right; exact Hk|]. split.
    + rewrite in_keys_ap, F0. intros [C|[-> _]]; tauto.
    + destruct (ap_priv pubkey s r) as (-> & _). exact H4.
Qed.
End Fresh.
