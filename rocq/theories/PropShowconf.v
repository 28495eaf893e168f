(** C28: what showconf prints restores the interface. *)
From Coq Require Import String ZArith List Bool Lia.
From Verif Require Import Base EncodingSpec Cstr CstrProofs Inet InetProofs Types NlSpec KernelSpec NumSpec ConfigSpec Config ConfigProofs ConfigProofs3 PropConfig TextProofs UapiSpec Uapi UapiProofs4
  Setconf SyncSpec SyncProofs2 SyncProofs3 PropSync Showconf ShowconfSpec ShowconfProofs.
Import ListNotations.
Open Scope Z_scope.

(** ** The text means the device. *)
Theorem C28_text_means_device : forall e scope_name d, lp64 e -> numeric_world (e_port e) (e_resolve e) scope_name -> wf_device d ->
  read_config e false (getlines (conf_text scope_name d)) = Some (restored d).
Proof.
  intros e scope_name d He NW W. destruct (conf_means scope_name (e_port e) (e_resolve e) NW d W) as [M B].
  apply (read_config_iff e He); assumption.
Qed.

(** ** Applying it *)
Lemma fresh_peers : forall pubkey rs s, Forall (fun r => rp_remove r = false) rs -> NoDup (map rp_pub rs) ->
  (forall k, In k (map rp_pub rs) -> ~ In k (keys s) /\ ~ is_own pubkey (i_priv s) k) ->
  i_peers (fold_left (apply_peer pubkey) rs s) = i_peers s ++ map (fun r => update_kpeer r (new_kpeer (rp_pub r))) rs.
Proof.
  intros pubkey. induction rs as [|r rs IH]; intros s F N H; [rewrite app_nil_r; reflexivity|]. inversion F as [|? ? F0 Fl]; subst. cbn [map] in *. inversion N as [|? ? N0 Nl]; subst.
  destruct (H (rp_pub r)) as [H1 H2]; [left; reflexivity|]. cbn [fold_left]. rewrite IH; [|exact Fl|exact Nl|].
  - unfold apply_peer. pose proof H1 as H1'. apply has_peer_false in H1'. rewrite H1', F0.
    destruct (own_key pubkey s (rp_pub r)) eqn:O; [apply own_key_iff in O; tauto|]. cbn [i_peers]. rewrite <- app_assoc. reflexivity.
  - intros k Hk. destruct (H k) as [H3 H4]; [right; exact Hk|]. split.
    + rewrite in_keys_ap, F0. intros [C|[-> _]]; tauto.
    + destruct (ap_priv pubkey s r) as (-> & _). exact H4.
Qed.

(** The peer without the flow label of its endpoint (which a configuration file cannot express; [EpNone] is no endpoint). *)
Definition drop_flow (q : kpeer) : kpeer :=
  mk_kpeer (k_pub q) (k_psk q) (match k_ep q with None | Some EpNone => None | Some e => Some (no_flow e) end) (k_ka q).

(** Of the table, the entries with owner in [ks], grouped. *)
Definition grouped (ks : list (list Z)) (t : list (allowedip * list Z)) : list (allowedip * list Z) :=
  flat_map (fun k => filter (fun e => beq (snd e) k) t) ks.
Lemma grouped_in : forall ks t x, In x (grouped ks t) -> In x t /\ In (snd x) ks.
Proof.
  intros ks t x H. unfold grouped in H. apply in_flat_map in H as (k & Hk & H). apply filter_In in H as [H E]. apply beq_eq in E. subst k. auto.
Qed.
Lemma nodup_app : forall A (a b : list A), NoDup a -> NoDup b -> (forall x, In x a -> ~ In x b) -> NoDup (a ++ b).
Proof.
  intros A a b Na Nb D. induction Na as [|x a H Na IH]; [exact Nb|]. cbn. constructor.
  - rewrite in_app_iff. intros [C|C]; [tauto|]. apply (D x); [left; reflexivity|exact C].
  - apply IH. intros y Hy. apply D. right. exact Hy.
Qed.
Lemma nodup_map_filter : forall A B (f : A -> B) (g : A -> bool) l, NoDup (map f l) -> NoDup (map f (filter g l)).
Proof.
  intros A B f g l. induction l as [|x l IH]; intro N; [constructor|]. cbn [map filter] in *. inversion N as [|? ? N0 Nl]; subst. destruct (g x); [|apply IH, Nl].
  cbn [map]. constructor; [|apply IH, Nl]. intro C. apply N0. apply in_map_iff in C as (y & E & Hy). apply filter_In in Hy as [Hy _]. rewrite <- E. apply in_map, Hy.
Qed.
Lemma nodup_fst_inj : forall (t : list (allowedip * list Z)) x y, NoDup (map fst t) -> In x t -> In y t -> fst x = fst y -> x = y.
Proof.
  intros t. induction t as [|z t IH]; intros x y N Hx Hy E; [destruct Hx|]. cbn [map] in N. inversion N as [|? ? N0 Nl]; subst.
  destruct Hx as [<-|Hx], Hy as [<-|Hy]; [reflexivity| | |apply IH; assumption]; exfalso; apply N0; [rewrite E|rewrite <- E]; apply in_map; assumption.
Qed.
Lemma grouped_nodup : forall ks t, NoDup ks -> NoDup (map fst t) -> NoDup (map fst (grouped ks t)).
Proof.
  intros ks t N T. induction N as [|k ks H N IH]; [constructor|]. unfold grouped. cbn [flat_map]. rewrite map_app. apply nodup_app; [apply nodup_map_filter, T|exact IH|].
  intros a Ha Hb. apply in_map_iff in Ha as (x & <- & Hx). apply in_map_iff in Hb as (y & E & Hy). apply filter_In in Hx as [Hx Ek]. apply beq_eq in Ek.
  apply (grouped_in ks t y) in Hy as [Hy Ky]. assert (x = y) by (apply (nodup_fst_inj t); auto). subst y. rewrite Ek in Ky. tauto.
Qed.
Lemma grouped_of : forall ks t k, NoDup ks -> filter (fun e => beq (snd e) k) (grouped ks t) = if in_dec beq_dec k ks then filter (fun e => beq (snd e) k) t else [].
Proof.
  assert (Other : forall k k' (t : list (allowedip * list Z)), k' <> k -> filter (fun e => beq (snd e) k) (filter (fun e => beq (snd e) k') t) = []).
  { intros k k' t N. induction t as [|x t IH]; [reflexivity|]. cbn [filter]. destruct (beq (snd x) k') eqn:E; [|exact IH]. cbn [filter]. apply beq_eq in E.
    assert (X : beq (snd x) k = false) by (apply beq_false; congruence). rewrite X. exact IH. }
  assert (Self : forall k (t : list (allowedip * list Z)), filter (fun e => beq (snd e) k) (filter (fun e => beq (snd e) k) t) = filter (fun e => beq (snd e) k) t).
  { intros k t. induction t as [|x t IH]; [reflexivity|]. cbn [filter]. destruct (beq (snd x) k) eqn:E; [|exact IH]. cbn [filter]. rewrite E, IH. reflexivity. }
  intros ks t k N. induction N as [|k' ks H N IH]; [reflexivity|]. unfold grouped. cbn [flat_map]. rewrite filter_app. fold (grouped ks t). rewrite IH.
  destruct (beq_dec k' k) as [->|D].
  - rewrite Self. destruct (in_dec beq_dec k ks); [tauto|]. destruct (in_dec beq_dec k (k :: ks)) as [I|I]; [apply app_nil_r|]. exfalso. apply I. left. reflexivity.
  - rewrite Other by exact D. destruct (in_dec beq_dec k ks), (in_dec beq_dec k (k' :: ks)); cbn [In] in *; try reflexivity; tauto.
Qed.

Lemma shows_from_file : forall d, wf_device d -> from_file (restored d).
Proof.
  intros d (_ & _ & _ & _ & W). constructor; try reflexivity. cbn [restored d_peers]. apply Forall_forall. intros p Hp. apply in_map_iff in Hp as (q & <- & Hq). rewrite Forall_forall in W.
  destruct (W q Hq) as ((L & _) & _). cbn [restored_peer p_remove p_replace_aips p_pub]. auto.
Qed.

(** Setting the restored device on any interface gives the interface it was read from. *)
Theorem C28_request_restores : forall pubkey s d s0, iface_ok pubkey s -> table_ok s -> shows s d -> wf_device d ->
  let s' := apply_request pubkey s0 (request_of (restored d)) in
  i_priv s' = i_priv s /\ i_port s' = i_port s /\ i_fwmark s' = i_fwmark s /\ i_peers s' = map drop_flow (i_peers s) /\ forall k, aips_of k s' = aips_of k s.
Proof.
  intros pubkey s d s0 (N & Ow & No) (Td & Tn) (Hp & Hh & Ho & Hf & Hl) W s'. pose proof (shows_from_file d W) as F.
  destruct (prologue_keeps pubkey s0 (restored d) F) as (C1 & C2 & C3 & C4 & C5).
  assert (Pv : d_priv (restored d) = i_priv s).
  { cbn [restored d_priv]. rewrite Hh, Hp. destruct (beq (i_priv s) (repeat 0 32)) eqn:B; cbn [negb]; [apply beq_eq in B; congruence|reflexivity]. }
  assert (Km : map rp_pub (rq_peers (request_of (restored d))) = keys s).
  { cbn [request_of rq_peers restored d_peers]. rewrite !map_map. unfold keys. induction Hl as [|q p l l' (E & _) _ IH]; [reflexivity|]. cbn [map]. f_equal; [exact E|exact IH]. }
  assert (Frm : Forall (fun r => rp_remove r = false) (rq_peers (request_of (restored d)))).
  { apply Forall_forall. intros r Hr. cbn [request_of rq_peers restored d_peers] in Hr. rewrite map_map in Hr. apply in_map_iff in Hr as (p & <- & _). reflexivity. }
  assert (Fresh : forall k, In k (map rp_pub (rq_peers (request_of (restored d)))) ->
    ~ In k (keys (prologue pubkey s0 (request_of (restored d)))) /\ ~ is_own pubkey (i_priv (prologue pubkey s0 (request_of (restored d)))) k).
  { intros k Hk. rewrite Km in Hk. split; [unfold keys; rewrite C4; intros []|]. rewrite C1, Pv. intro O. exact (No k O Hk). }
  unfold s'. rewrite apply_request_split. destruct (aps_priv pubkey (rq_peers (request_of (restored d))) (prologue pubkey s0 (request_of (restored d)))) as (A1 & A2 & A3).
  split; [rewrite A1, C1; exact Pv|]. split; [rewrite A2, C2; exact Ho|]. split; [rewrite A3, C3; exact Hf|]. split.
  - rewrite fresh_peers; [|exact Frm|rewrite Km; exact N|exact Fresh]. rewrite C4. cbn [app request_of rq_peers restored d_peers]. rewrite !map_map.
    clear - Hl. induction Hl as [|q p l l' H _ IH]; [reflexivity|]. cbn [map]. rewrite IH. f_equal. destruct H as (E1 & E2 & E3 & E4 & E5 & _).
    unfold update_kpeer, rq_peer_of, restored_peer, new_kpeer, drop_flow. cbn [k_pub k_psk k_ep k_ka rp_pub rp_psk rp_endpoint rp_ka p_pub p_psk p_has_psk p_has_ka p_ka p_endpoint p_remove p_replace_aips p_aips]. f_equal.
    + exact E1.
    + rewrite E3, E2. destruct (beq (k_psk q) (repeat 0 32)) eqn:B; cbn [negb opt or_else]; [apply beq_eq in B; symmetry; exact B|reflexivity].
    + rewrite E5. destruct (k_ep q) as [[| |]|]; cbn; reflexivity.
    + rewrite E4. destruct (Z.eqb_spec (k_ka q) 0) as [->|_]; reflexivity.
  - intro k. unfold aips_of. f_equal. rewrite fresh_table; [|exact Frm|rewrite Km; exact N|exact Fresh]. rewrite C5.
    assert (Ea : assignments (rq_peers (request_of (restored d))) = grouped (keys s) (i_aips s)).
    { cbn [request_of rq_peers restored d_peers]. unfold keys. clear - Hl Tn. revert Hl. generalize (i_peers s), (d_peers d). intros l l' Hl. 
      induction Hl as [|q p l l' H _ IH]; [reflexivity|]. cbn [map]. unfold assignments, grouped. cbn [flat_map]. fold (assignments (map rq_peer_of (map restored_peer l'))).
      fold (grouped (map k_pub l) (i_aips s)). rewrite IH. f_equal. destruct H as (E1 & _ & _ & _ & _ & E6). cbn [rq_peer_of restored_peer rp_aips rp_pub p_pub p_aips]. rewrite E6, E1.
      unfold aips_of. clear - Tn. induction Tn as [|[a o] t H _ IH]; [reflexivity|]. cbn [filter snd]. destruct (beq o (k_pub q)) eqn:B; [|exact IH]. cbn [map fst].
      cbn [fst] in H. rewrite IH, H. apply beq_eq in B. rewrite B. reflexivity. }
    rewrite Ea, assign_distinct; [|apply grouped_nodup; assumption|intros x []]. cbn [app]. rewrite grouped_of by exact N.
    destruct (in_dec beq_dec k (keys s)) as [I|I]; [reflexivity|]. symmetry. clear - Ow I. induction (i_aips s) as [|[a o] t IH]; [reflexivity|]. cbn [filter snd].
    destruct (beq o k) eqn:B; [|apply IH; intros b x Hb; apply (Ow b x); right; exact Hb]. apply beq_eq in B. subst o. exfalso. apply I, (Ow a k). left. reflexivity.
Qed.

(** ** Tables are always in order. *)
Lemma clear_host_idem : forall b n, clear_host n (clear_host n b) = clear_host n b.
Proof.
  induction b as [|x b IH]; intro n; [reflexivity|]. cbn [clear_host]. rewrite IH. f_equal. destruct (Z.leb_spec 8 n); [reflexivity|]. destruct (Z.leb_spec n 0); [reflexivity|].
  rewrite Z.div_mul; [reflexivity|]. apply Z.pow_nonzero; lia.
Qed.
Lemma network_idem : forall a, network (network a) = network a.
Proof. intro a. unfold network. cbn [a_family a_ip a_cidr]. rewrite clear_host_idem. reflexivity. Qed.
Definition entries_ok (t : list (allowedip * list Z)) : Prop := NoDup (map fst t) /\ Forall (fun e => network (fst e) = fst e) t.
Lemma entries_filter : forall f t, entries_ok t -> entries_ok (filter f t).
Proof.
  intros f t [N F]. split; [apply nodup_map_filter, N|]. rewrite Forall_forall in *. intros x Hx. apply filter_In in Hx as [Hx _]. apply F, Hx.
Qed.
Lemma entries_route : forall owner t a, entries_ok t -> entries_ok (route owner t a).
Proof.
  intros owner t a H. destruct (entries_filter (fun e => negb (aip_eqb (fst e) (network a))) t H) as [N F]. unfold route. split.
  - rewrite map_app. apply nodup_app; [exact N|cbn; repeat constructor; intros []|]. intros x Hx [<-|[]]. apply in_map_iff in Hx as (y & E & Hy). apply filter_In in Hy as [_ Hy].
    apply negb_true_iff in Hy. assert (X : aip_eqb (fst y) (network a) = true) by (apply aip_eqb_iff, E). congruence.
  - apply Forall_app. split; [exact F|]. constructor; [apply network_idem|constructor].
Qed.
Lemma entries_routes : forall owner l t, entries_ok t -> entries_ok (fold_left (route owner) l t).
Proof. intros owner. induction l as [|a l IH]; intros t H; [exact H|]. apply IH, entries_route, H. Qed.
Lemma entries_apply : forall pubkey s q, table_ok s -> table_ok (apply_request pubkey s q).
Proof.
  intros pubkey s q H. assert (G : forall rs x, entries_ok (i_aips x) -> entries_ok (i_aips (fold_left (apply_peer pubkey) rs x))).
  { induction rs as [|r rs IH]; intros x Hx; [exact Hx|]. cbn [fold_left]. apply IH. unfold apply_peer. destruct (has_peer (rp_pub r) x).
    - destruct (rp_remove r); cbn [i_aips drop_peer]; [apply entries_filter, Hx|]. apply entries_routes. destruct (rp_replace r); [apply entries_filter|]; exact Hx.
    - destruct (rp_remove r); [exact Hx|]. destruct (own_key pubkey x (rp_pub r)); [exact Hx|]. cbn [i_aips]. apply entries_routes, Hx. }
  unfold apply_request. apply G. assert (E : entries_ok []) by (split; [constructor|constructor]).
  destruct (rq_priv q) as [k|]; [|destruct (rq_replace q); assumption]. cbn [i_aips]. destruct (beq k zero_key); [destruct (rq_replace q); assumption|].
  cbn [drop_peer i_aips]. apply entries_filter. destruct (rq_replace q); assumption.
Qed.

(** The hypotheses about [s] below hold for every interface that has only been changed by requests. *)
Theorem C28_tables_are_consistent : forall pubkey qs, let s := fold_left (apply_request pubkey) qs no_iface in iface_ok pubkey s /\ table_ok s.
Proof.
  intros pubkey qs s. split; [apply C26_interfaces_are_consistent|]. unfold s. assert (T : table_ok no_iface) by (split; constructor). revert T. generalize no_iface.
  induction qs as [|q qs IH]; intros x H; [exact H|]. apply IH, entries_apply, H.
Qed.

(** ** The commands *)

(** showconf on one interface, setconf of its output on any other (or the same, later): the second is then what the first was. *)
Theorem C28_showconf_restores : forall e pubkey scope_name read qsort open_lines name name' path s s0,
  lp64 e -> numeric_world (e_port e) (e_resolve e) scope_name -> (forall x, shows x (read x)) -> wf_device (read s) -> iface_ok pubkey s -> table_ok s ->
  exists output, showconf_main scope_name (live pubkey read) [str "showconf"; name] s = (0, output, s) /\
    (open_lines path = Some (getlines output) ->
     exists s', run e pubkey read qsort open_lines "setconf" name' path s0 = (0, s') /\
       i_priv s' = i_priv s /\ i_port s' = i_port s /\ i_fwmark s' = i_fwmark s /\ i_peers s' = map drop_flow (i_peers s) /\ forall k, aips_of k s' = aips_of k s).
Proof.
  intros e pubkey scope_name read qsort open_lines name name' path s s0 He NW Sh W OK T. exists (conf_text scope_name (read s)). split; [reflexivity|]. intro Ho.
  exists (apply_request pubkey s0 (request_of (restored (read s)))). split.
  - apply (run_setconf e pubkey read qsort open_lines name' path s0 _ _ Ho). apply C28_text_means_device; assumption.
  - apply C28_request_restores; auto.
Qed.

(** ** A concrete case *)

(** Resolution of numeric addresses and ports only, with numeric scopes. *)
Definition numeric_port (v : list Z) : option Z := match num_value 10 0 v with Some n => if (0 <? n) && (n <? 65536) then Some n else None | None => None end.
Definition any_port (v : list Z) : Z := match num_value 10 0 v with Some n => n | None => 0 end.
Definition numeric_resolve (host service : list Z) : option endpoint :=
  if has_char 58 host then
    match split_first 37 host with
    | Some (a, sc) => option_map (fun x => Ep6 x (any_port service) 0 (any_port sc)) (inet_pton6 a)
    | None => option_map (fun x => Ep6 x (any_port service) 0 0) (inet_pton6 host)
    end
  else option_map (fun x => Ep4 x (any_port service)) (inet_pton4 host).
Definition numeric_scope (_ : list Z) (s : Z) : list Z := print_dec (Z.abs s).
Definition env28 : env := mk_env true (2 ^ 64 - 1) numeric_port numeric_resolve (fun _ => FNoOpen).
Theorem C28_numeric_world_exists : numeric_world numeric_port numeric_resolve numeric_scope.
Proof.
  assert (AP : forall n, 0 <= n -> any_port (print_dec n) = n) by (intros n H; unfold any_port; rewrite print_dec_value by exact H; reflexivity).
  constructor.
  - intros n H. unfold numeric_port. rewrite print_dec_value by lia. destruct (Z.ltb_spec 0 n), (Z.ltb_spec n 65536); try lia. reflexivity.
  - intros [|a p|a p f s] host service W P; cbn [prints_as wf_endpoint] in *; [destruct P| |].
    + destruct W as (L & B & R), P as [-> ->]. unfold numeric_resolve.
      destruct (has_char 58 (inet_ntop4 a)) eqn:H; [apply has_char_In in H; exfalso; revert H; apply (not_in_by _ _ _ (ntop4_chars a B)); lia|].
      rewrite inet4_roundtrip by (split; assumption). cbn [option_map]. rewrite AP by lia. reflexivity.
    + destruct W as (L & B & R & _ & Sr), P as [-> ->]. unfold numeric_resolve. assert (Ba : bytes_n 16 a) by (split; assumption).
      assert (N : ~ In 37 (inet_ntop6 a)) by (apply (not_in_by _ _ _ (ntop6_chars a B)); unfold addr_char; lia).
      match goal with |- context [has_char 58 ?h] => replace (has_char 58 h) with true by (symmetry; apply has_char_In, in_app_iff; left; apply ntop6_colon_in, Ba) end.
      destruct (Z.eqb_spec s 0) as [->|Hs].
      * rewrite app_nil_r. apply split_first_none in N. rewrite N, inet6_roundtrip by exact Ba. cbn [option_map no_flow]. rewrite AP by lia. reflexivity.
      * rewrite split_first_app by exact N. rewrite inet6_roundtrip by exact Ba. cbn [option_map no_flow]. unfold numeric_scope. rewrite !AP by lia. rewrite Z.abs_eq by lia. reflexivity.
  - intros a s. unfold numeric_scope. eapply Forall_impl; [|apply print_dec_digits; lia]. cbn beta. intros c H. unfold is_char. split; [|lia].
    unfold is_ws. cbn [existsb]. repeat match goal with |- context [c =? ?n] => destruct (Z.eqb_spec c n); [lia|] end. reflexivity.
Qed.

(** Reading an interface as the kernel reports it. *)
Definition read28 (s : iface) : device :=
  mk_device (str "wg0") 1 false (negb (beq (i_priv s) (repeat 0 32))) false true true (repeat 0 32) (i_priv s) (i_fwmark s) (i_port s)
    (map (fun q => mk_peer false false true (negb (beq (k_psk q) (repeat 0 32))) true (k_pub q) (k_psk q) (or_else (k_ep q) EpNone) 0 0 0 0 (k_ka q) (aips_of (k_pub q) s)) (i_peers s)).
Lemma read28_shows : forall s, shows s (read28 s).
Proof.
  intro s. unfold shows, read28. cbn [d_priv d_has_priv d_port d_fwmark d_peers]. repeat split. generalize (i_peers s). intro l.
  induction l as [|q l IH]; [constructor|]. cbn [map]. constructor; [repeat split|exact IH].
Qed.
Definition iface28 : iface :=
  mk_iface (repeat 7 32) 51820 51966
    [mk_kpeer kB zero_key (Some (Ep6 [254; 128; 0; 0; 0; 0; 0; 0; 0; 0; 0; 0; 0; 0; 0; 1] 7 0 3)) 25; mk_kpeer kA (repeat 9 32) (Some (Ep4 [192; 0; 2; 9] 1)) 0]
    [(ten, kB); (mk_aip AF_INET6 [32; 1; 13; 184; 0; 0; 0; 0; 0; 0; 0; 0; 0; 0; 0; 0] 32, kA); (mk_aip AF_INET [11; 0; 0; 0] 8, kB)].
Example iface28_ok : iface_ok no_pubkey iface28 /\ table_ok iface28 /\ wf_device (read28 iface28).
Proof.
  split; [|split].
  - split; [|split].
    + unfold keys, iface28. cbn [i_peers map k_pub]. repeat constructor; [intros [E|[]]; discriminate E|intros []].
    + unfold keys, iface28. cbn [i_aips i_peers map k_pub In]. intros a k [E|[E|[E|[]]]]; injection E as <- <-; tauto.
    + intros k [_ <-]. unfold keys, iface28. cbn [i_peers map k_pub In]. intros [E|[E|[]]]; discriminate E.
  - split; [|repeat constructor]. cbn. repeat constructor; cbn; intros H; repeat destruct H as [H|H]; try discriminate; exact H.
  - assert (B : forall l, forallb (fun x => (0 <=? x) && (x <? 256)) l = true -> Forall is_byte l).
    { intros l H. rewrite forallb_forall in H. apply Forall_forall. intros x Hx. specialize (H x Hx). apply andb_true_iff in H as [H1 H2]. apply Z.leb_le in H1. apply Z.ltb_lt in H2. unfold is_byte. lia. }
    assert (K : forall l, length l = 32%nat -> forallb (fun x => (0 <=? x) && (x <? 256)) l = true -> wf_key l) by (intros l L H; split; [exact L|apply B, H]).
    unfold wf_device, read28, iface28. cbn [d_pub d_priv d_fwmark d_port d_peers i_priv i_fwmark i_port i_peers map k_pub k_psk k_ep k_ka or_else].
    split; [apply K; reflexivity|]. split; [apply K; reflexivity|]. split; [lia|]. split; [lia|].
    apply Forall_cons; [|apply Forall_cons; [|apply Forall_nil]]; (split; [apply K; reflexivity|]); (split; [apply K; reflexivity|]); cbn [p_endpoint p_ka p_rx p_tx p_hs_sec p_hs_nsec p_aips wf_endpoint]; (split; [repeat split; try (apply B; reflexivity); lia|]); (split; [lia|]); (split; [|lia]); vm_compute aips_of;
      repeat (apply Forall_cons; [first [left; repeat split; try (apply B; reflexivity); cbn; lia|right; repeat split; try (apply B; reflexivity); cbn; lia]|]); apply Forall_nil.
Qed.
(** Its output, and a device restored from it. *)
Example showconf28 : conf_text numeric_scope (read28 iface28) = unlines (map str
  ["[Interface]"; "ListenPort = 51820"; "FwMark = 0xcafe"; "PrivateKey = BwcHBwcHBwcHBwcHBwcHBwcHBwcHBwcHBwcHBwcHBwc="; "";
   "[Peer]"; "PublicKey = 4OHi4+Tl5ufo6err7O3u7/Dx8vP09fb3+Pn6+/z9/v8="; "AllowedIPs = 10.0.0.0/8, 11.0.0.0/8"; "Endpoint = [fe80::1%3]:7"; "PersistentKeepalive = 25"; "";
   "[Peer]"; "PublicKey = AAECAwQFBgcICQoLDA0ODxAREhMUFRYXGBkaGxwdHh8="; "PresharedKey = CQkJCQkJCQkJCQkJCQkJCQkJCQkJCQkJCQkJCQkJCQk="; "AllowedIPs = 2001:db8::/32"; "Endpoint = 192.0.2.9:1"]%string).
Proof. vm_compute. reflexivity. Qed.
Example restored28 : exists s', run env28 no_pubkey read28 insertion_sort (fun _ => Some (getlines (conf_text numeric_scope (read28 iface28)))) "setconf" (str "wg1") (str "f") before_sync = (0, s')
  /\ i_peers s' = i_peers iface28 /\ aips_of kB s' = [ten; mk_aip AF_INET [11; 0; 0; 0] 8].
Proof. eexists. split; [vm_compute; reflexivity|]. split; vm_compute; reflexivity. Qed.

Print Assumptions C28_text_means_device.
Print Assumptions C28_request_restores.
Print Assumptions C28_tables_are_consistent.
Print Assumptions C28_showconf_restores.
Print Assumptions C28_numeric_world_exists.
