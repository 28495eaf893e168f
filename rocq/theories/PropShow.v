(** C29-C31: what 'wg show' prints for people. *)
From Coq Require Import String ZArith List Bool Lia Permutation Sorted.
From Verif Require Import Base Ctype Encoding EncodingSpec EncodingProofs Cstr CstrProofs NumSpec ConfigProofs Inet InetProofs Types Uapi Setconf
  Terminal TerminalSpec PropTerminal Show ShowSpec ShowProofs ShowProofs2.
Import ListNotations.
Open Scope Z_scope.

(** The surroundings: time, scope names and a working qsort. *)
Record show_ok (E : show_env) : Prop := {
  so_now : 0 <= se_now E < 2 ^ 63;
  so_scope : forall a s, visible (se_scope E a s);
  so_qsort : index_sorts (se_qsort E)
}.
Definition uncolour (E : show_env) : show_env := mk_show_env (se_sg E) false (se_hide E) (se_now E) (se_scope E) (se_qsort E).
Definition colour (E : show_env) : show_env := mk_show_env (se_sg E) true (se_hide E) (se_now E) (se_scope E) (se_qsort E).

Lemma device_reads : forall E d, show_ok E -> visible (d_name d) -> wf_device d -> Forall times_ok (d_peers d) ->
  exists order ls, Permutation (d_peers d) order /\ StronglySorted not_older order /\ device_view (se_scope E) (se_hide E) (se_now E) d order ls /\
    Forall (fun l => ~ In 10 l) ls /\ reads (pretty_device E d ++ pretty_peers E (sort_peers (se_qsort E) (d_peers d))) (ended ls).
Proof.
  intros E d [N S Q] Wn W T. destruct (sort_peers_spec (se_qsort E) (d_peers d) Q T) as [P O].
  destruct (device_gives E N S d Wn W T _ P) as (ls & R & V & L). exists (sort_peers (se_qsort E) (d_peers d)), ls. split; [exact P|]. split; [exact O|]. split; [exact V|].
  split; [eapply Forall_impl; [|exact L]; intros l H; apply H|exact R].
Qed.

(** C29: without colours, the whole text is the lines of the view: the interface, then every peer exactly once, those with the most recent
    handshakes first and those that never had one last. *)
Theorem C29_view : forall E d, show_ok E -> visible (d_name d) -> wf_device d -> Forall times_ok (d_peers d) ->
  exists order ls, Permutation (d_peers d) order /\ StronglySorted not_older order /\ device_view (se_scope E) (se_hide E) (se_now E) d order ls /\
    Forall (fun l => ~ In 10 l) ls /\ pretty_print (uncolour E) d = ended ls.
Proof.
  intros E d H Wn W T. destruct (device_reads E d H Wn W T) as (order & ls & P & O & V & L & R). exists order, ls. repeat (split; [assumption|]).
  unfold pretty_print. apply (reads_printf (se_sg E)). exact R.
Qed.
(** Colours change nothing but colours. *)
Theorem C29_coloured : forall E d, show_ok E -> visible (d_name d) -> wf_device d -> Forall times_ok (d_peers d) ->
  stripped (pretty_print (colour E) d) (pretty_print (uncolour E) d).
Proof.
  intros E d H Wn W T. destruct (device_reads E d H Wn W T) as (order & ls & _ & _ & _ & _ & R). unfold pretty_print.
  pose proof (reads_printf (se_sg E) _ _ R) as X. pose proof (reads_stripped (se_sg E) _ _ R) as Y.
  cbn [uncolour colour se_sg se_color se_qsort]. change (pretty_device (uncolour E) d) with (pretty_device E d). change (pretty_device (colour E) d) with (pretty_device E d).
  change (pretty_peers (uncolour E)) with (pretty_peers E). change (pretty_peers (colour E)) with (pretty_peers E). rewrite X. exact Y.
Qed.

(** In that text, the lines "peer: ..." are the peers, in that order. *)
Lemma pieces_line : forall c t u, ~ In c t -> pieces c (t ++ c :: u) = t :: pieces c u.
Proof.
  intros c t u. induction t as [|x t IH]; intro N; cbn [app pieces]; [rewrite Z.eqb_refl; reflexivity|].
  destruct (Z.eqb_spec x c) as [->|D]; [exfalso; apply N; left; reflexivity|]. rewrite IH; [reflexivity|]. intro I. apply N. right. exact I.
Qed.
Lemma lines_of_ended : forall ls, Forall (fun l => ~ In 10 l) ls -> lines_of (ended ls) = ls.
Proof.
  intros ls F. unfold lines_of. assert (G : pieces 10 (ended ls) = ls ++ [[]]).
  { induction F as [|l ls H _ IH]; [reflexivity|]. cbn [ended flat_map]. rewrite <- app_assoc. cbn [app]. rewrite pieces_line by exact H. f_equal. exact IH. }
  rewrite G. apply removelast_last.
Qed.
Lemma with_head_app : forall h a b, with_head h (a ++ b) = with_head h a ++ with_head h b.
Proof. intros. apply flat_map_app. Qed.
Lemma head_optional : forall h B name P ls, h <> [] -> hd 0 h <> 32 -> optional B (labelled name P) ls -> with_head h ls = [].
Proof.
  intros h B name P ls N H [[_ (t & -> & v & -> & _)]|[_ ->]]; [|reflexivity]. unfold with_head. cbn [flat_map]. destruct h as [|x h]; [congruence|]. cbn [hd] in H.
  change (str "  " ++ str name ++ str ": " ++ v) with (32 :: 32 :: str name ++ str ": " ++ v). cbn [strip_head]. apply Z.eqb_neq in H. rewrite H. reflexivity.
Qed.
Theorem C29_peer_lines : forall E d, show_ok E -> visible (d_name d) -> wf_device d -> Forall times_ok (d_peers d) ->
  exists order, Permutation (d_peers d) order /\ StronglySorted not_older order /\
    with_head (str "peer: ") (lines_of (pretty_print (uncolour E) d)) = map (fun p => rfc4648 (p_pub p)) order.
Proof.
  intros E d H Wn W T. destruct (C29_view E d H Wn W T) as (order & ls & P & O & V & L & X). exists order. split; [exact P|]. split; [exact O|]. rewrite X, lines_of_ended by exact L.
  destruct V as (pub & priv & port & mark & peers & -> & V1 & V2 & V3 & V4 & F). rewrite !with_head_app.
  rewrite (head_optional (str "peer: ") _ _ _ _ ltac:(vm_compute; discriminate) ltac:(vm_compute; discriminate) V1), (head_optional (str "peer: ") _ _ _ _ ltac:(vm_compute; discriminate) ltac:(vm_compute; discriminate) V2),
    (head_optional (str "peer: ") _ _ _ _ ltac:(vm_compute; discriminate) ltac:(vm_compute; discriminate) V3), (head_optional (str "peer: ") _ _ _ _ ltac:(vm_compute; discriminate) ltac:(vm_compute; discriminate) V4).
  change (with_head (str "peer: ") [str "interface: " ++ d_name d]) with (@nil (list Z)). cbn [app]. clear - F. induction F as [|p v order peers Hv F IH]; [reflexivity|].
  cbn [flat_map map]. rewrite with_head_app, IH. destruct Hv as (psk & ep & aips & hs & tr & ka & -> & V1 & V2 & V3 & V4 & V5 & V6).
  change ([] :: [str "peer: " ++ rfc4648 (p_pub p)] ++ psk ++ ep ++ [aips] ++ hs ++ tr ++ ka) with ([[]; str "peer: " ++ rfc4648 (p_pub p)] ++ psk ++ ep ++ [aips] ++ hs ++ tr ++ ka).
  rewrite !with_head_app.
  rewrite (head_optional (str "peer: ") _ _ _ _ ltac:(vm_compute; discriminate) ltac:(vm_compute; discriminate) V1), (head_optional (str "peer: ") _ _ _ _ ltac:(vm_compute; discriminate) ltac:(vm_compute; discriminate) V2),
    (head_optional (str "peer: ") _ _ _ _ ltac:(vm_compute; discriminate) ltac:(vm_compute; discriminate) V4), (head_optional (str "peer: ") _ _ _ _ ltac:(vm_compute; discriminate) ltac:(vm_compute; discriminate) V5), (head_optional (str "peer: ") _ _ _ _ ltac:(vm_compute; discriminate) ltac:(vm_compute; discriminate) V6).
  rewrite (head_optional (str "peer: ") True "allowed ips" (fun v => aips_field (str ", ") v (p_aips p)) [aips] ltac:(vm_compute; discriminate) ltac:(vm_compute; discriminate)) by (left; split; [exact I|]; exists aips; auto).
  rewrite !app_nil_r. reflexivity.
Qed.

(** A qsort: insertion of indices. *)
Fixpoint index_insert (M : list (list Z)) (i : nat) (l : list nat) : list nat :=
  match l with [] => [i] | j :: l' => if at2 M i j <=? 0 then i :: l else j :: index_insert M i l' end.
Definition index_sort (M : list (list Z)) : list nat := fold_right (index_insert M) [] (seq 0 (length M)).
Lemma index_sort_sorts : index_sorts index_sort.
Proof.
  intros M [A Tr]. unfold index_sort. set (n := length M) in *.
  assert (Ins : forall i l, Permutation (i :: l) (index_insert M i l)).
  { intros i l. induction l as [|j l IH]; cbn [index_insert]; [reflexivity|]. destruct (at2 M i j <=? 0); [reflexivity|]. rewrite perm_swap. apply perm_skip, IH. }
  assert (Pm : forall l, Permutation l (fold_right (index_insert M) [] l)).
  { induction l as [|i l IH]; [reflexivity|]. cbn [fold_right]. rewrite <- Ins. apply perm_skip, IH. }
  split; [apply Pm|].
  assert (So : forall i l, (i < n)%nat -> Forall (fun j => (j < n)%nat) l -> Sorted (fun i j => at2 M i j <= 0) l -> Sorted (fun i j => at2 M i j <= 0) (index_insert M i l)).
  { intros i l Hi F H. induction H as [|j l H IH Hd]; cbn [index_insert]; [repeat constructor|]. inversion F as [|? ? Hj Fl]; subst. destruct (Z.leb_spec (at2 M i j) 0) as [L|L].
    - constructor; [constructor; assumption|constructor; exact L].
    - constructor; [apply IH, Fl|]. assert (at2 M j i <= 0) by (pose proof (A j i Hj Hi); lia). destruct l as [|k l]; cbn [index_insert]; [constructor; assumption|].
      destruct (at2 M i k <=? 0); constructor; [assumption|]. inversion Hd; assumption. }
  assert (R : forall l, Forall (fun j => (j < n)%nat) l -> Sorted (fun i j => at2 M i j <= 0) (fold_right (index_insert M) [] l)).
  { induction l as [|i l IH]; intro F; [constructor|]. inversion F as [|? ? Hi Fl]; subst. cbn [fold_right]. apply So; [exact Hi| |apply IH, Fl].
    apply Forall_forall. intros j Hj. apply (Permutation_in _ (Permutation_sym (Pm l))) in Hj. rewrite Forall_forall in Fl. apply Fl, Hj. }
  apply R, Forall_forall. intros j Hj. apply in_seq in Hj. lia.
Qed.

(** Outside the range of real times the comparison goes round in circles (the difference of two times overflows). *)
Definition at_time (sec : Z) : peer := mk_peer false false true false false zero_key zero_key EpNone sec 0 0 0 0 [].
Theorem C29_order_refuted : exists a b c, wf_peer a /\ wf_peer b /\ wf_peer c /\ peer_cmp a b < 0 /\ peer_cmp b c < 0 /\ peer_cmp c a < 0.
Proof.
  exists (at_time (2 ^ 63 - 1)), (at_time 2), (at_time (- 2 ^ 62)).
  assert (K : wf_key zero_key) by (split; [reflexivity|apply Forall_forall; intros x Hx; apply repeat_spec in Hx; subst; unfold is_byte; lia]).
  assert (W : forall s, - 2 ^ 63 <= s < 2 ^ 63 -> wf_peer (at_time s)).
  { intros s H. unfold wf_peer, at_time. cbn [p_pub p_psk p_endpoint p_ka p_aips p_rx p_tx p_hs_sec p_hs_nsec wf_endpoint].
    repeat split; try apply K; try lia; constructor. }
  repeat split; try (apply W; lia); vm_compute; reflexivity.
Qed.

(** ** C30 *)
Definition hidden (E : show_env) : Prop := se_hide E <> Some (str "never").
Lemma masked_hidden : forall v k, v <> Some (str "never") -> masked_key v k = str "(hidden)".
Proof.
  intros [v|] k H; [|reflexivity]. unfold masked_key. destruct (beq v (str "never")) eqn:B; [|reflexivity]. apply beq_eq in B. congruence.
Qed.
Lemma pretty_peer_same : forall E p q, hidden E -> same_peer p q -> pretty_peer E p = pretty_peer E q.
Proof. intros E p q H (k & ->). unfold pretty_peer. cbn [p_pub p_psk p_has_psk p_endpoint p_aips p_hs_sec p_rx p_tx p_ka]. rewrite !masked_hidden by exact H. reflexivity. Qed.
Lemma peer_cmp_same : forall p q p' q', same_peer p p' -> same_peer q q' -> peer_cmp p q = peer_cmp p' q'.
Proof. intros p q p' q' (k & ->) (k' & ->). reflexivity. Qed.
Lemma sort_same : forall qsort l l', Forall2 same_peer l l' -> Forall2 same_peer (sort_peers qsort l) (sort_peers qsort l').
Proof.
  intros qsort l l' F. assert (M : map (fun a => map (peer_cmp a) l) l = map (fun a => map (peer_cmp a) l') l').
  { assert (G : forall m m', Forall2 same_peer m m' -> map (fun a => map (peer_cmp a) l) m = map (fun a => map (peer_cmp a) l') m').
    { induction 1 as [|a a' m m' H _ IH]; [reflexivity|]. cbn [map]. f_equal; [|exact IH]. clear - F H. induction F as [|b b' l l' Hb _ IH]; [reflexivity|]. cbn [map]. f_equal; [apply peer_cmp_same; assumption|exact IH]. }
    apply G, F. }
  assert (S0 : same_peer peer0 peer0) by (exists zero_key; reflexivity).
  assert (N : forall i, same_peer (nth i l peer0) (nth i l' peer0)).
  { clear - F S0. induction F as [|a a' l l' H _ IH]; intro i; [destruct i; exact S0|]. destruct i; [exact H|apply IH]. }
  unfold sort_peers. destruct F as [|a a' m m' H F]; [constructor|]. rewrite M. generalize (qsort (map (fun x => map (peer_cmp x) (a' :: m')) (a' :: m'))). intro ix.
  induction ix as [|i ix IH]; [constructor|]. cbn [map]. constructor; [apply N|exact IH].
Qed.
(** C30: unless WG_HIDE_KEYS is "never", the private key and the preshared keys have no influence on the text. *)
Theorem C30_keys_hidden : forall E d d', hidden E -> same_public d d' -> pretty_print E d = pretty_print E d'.
Proof.
  intros E d d' H (k & ps & F & ->). unfold pretty_print. f_equal. cbn [d_peers]. f_equal.
  - unfold pretty_device. cbn [d_name d_has_pub d_pub d_has_priv d_priv d_port d_fwmark d_peers]. rewrite !masked_hidden by exact H. do 5 f_equal. destruct F; reflexivity.
  - pose proof (sort_same (se_qsort E) _ _ F) as S. induction S as [|p q l l' Hp S IH]; [reflexivity|]. cbn [pretty_peers]. rewrite (pretty_peer_same E p q H Hp), IH. destruct S; reflexivity.
Qed.
(** The parameters that do print secret keys. *)
Definition secret_param (p : list Z) : Prop := p = str "private-key" \/ p = str "preshared-keys" \/ p = str "dump".
Lemma beq_ne : forall a b, a <> b -> beq a b = false.
Proof. intros a b H. destruct (beq a b) eqn:B; [apply beq_eq in B; congruence|reflexivity]. Qed.
Theorem C30_other_parameters : forall E d d' p w, ~ secret_param p -> same_public d d' -> ugly_print E d p w = ugly_print E d' p w.
Proof.
  intros E d d' p w H (k & ps & F & ->). unfold secret_param in H. unfold ugly_print. cbn [d_name d_has_pub d_pub d_has_priv d_priv d_port d_fwmark d_peers].
  rewrite (beq_ne p (str "private-key")), (beq_ne p (str "preshared-keys")), (beq_ne p (str "dump")) by tauto.
  assert (X : forall f : peer -> list Z, (forall a b, same_peer a b -> f a = f b) -> flat_map f (d_peers d) = flat_map f ps).
  { intros f Hf. induction F as [|a b l l' Ha _ IH]; [reflexivity|]. cbn [flat_map]. rewrite (Hf a b Ha), IH. reflexivity. }
  repeat match goal with |- (if ?c then _ else _) = _ => destruct c; [first [reflexivity | f_equal; apply X; intros a b (k' & ->); reflexivity]|] end. reflexivity.
Qed.

(** The command: two systems that differ only in secret keys. *)
Definition opt_same (a b : option device) : Prop :=
  match a, b with None, None => True | Some d, Some d' => same_public d d' | _, _ => False end.
Definition same_system (W : Type) (B B' : backend W) : Prop :=
  forall name w, let '(r, dev, w1) := b_get B name w in let '(r', dev', w1') := b_get B' name w in r = r' /\ w1 = w1' /\ opt_same dev dev'.
Lemma show_all_same : forall E W (B B' : backend W) param, hidden E -> same_system W B B' -> (forall p, param = Some p -> ~ secret_param p) ->
  forall names ret out w, show_all E W B param names ret out w = show_all E W B' param names ret out w.
Proof.
  intros E W B B' param H S P names. induction names as [|n names IH]; intros ret out w; [reflexivity|]. cbn [show_all]. specialize (S n w).
  destruct (b_get B n w) as [[r dev] w1], (b_get B' n w) as [[r' dev'] w1']. destruct S as (<- & <- & O). destruct (r <? 0); [apply IH|].
  destruct dev as [d|], dev' as [d'|]; cbn [opt_same] in O; try contradiction; [|reflexivity]. destruct param as [p|].
  - rewrite (C30_other_parameters E d d' p true (P p eq_refl) O). destruct (ugly_print E d' p true); [apply IH|reflexivity].
  - rewrite (C30_keys_hidden E d d' H O). apply IH.
Qed.
(** C30: 'wg show', 'wg show all [param]' and 'wg show <interface> [param]' end in the same way and print the same. *)
Theorem C30_show : forall E W list_devices (B B' : backend W) argv w, hidden E -> same_system W B B' -> (forall p, nth_error argv 2 = Some p -> ~ secret_param p) ->
  show_main E W list_devices B argv w = show_main E W list_devices B' argv w.
Proof.
  intros E W ld B B' argv w H S P. unfold show_main. destruct argv as [|a0 args]; [reflexivity|]. destruct (Nat.ltb 2 (length args)); [reflexivity|].
  assert (A : forall param, (forall p, param = Some p -> ~ secret_param p) -> match ld w with (None, w1) => (Exit 1 [], w1)
      | (Some buf, w1) => show_all E W B param (names_of buf) (match names_of buf with [] => 0 | _ => 1 end) [] w1 end =
    match ld w with (None, w1) => (Exit 1 [], w1) | (Some buf, w1) => show_all E W B' param (names_of buf) (match names_of buf with [] => 0 | _ => 1 end) [] w1 end).
  { intros param Hp. destruct (ld w) as [[buf|] w1]; [|reflexivity]. apply show_all_same; assumption. }
  destruct args as [|what params]; [apply A; discriminate|]. destruct (beq what (str "all")); [apply A; intros p Hp; apply P; destruct params; [discriminate|exact Hp]|].
  destruct (beq what (str "interfaces")); [reflexivity|]. destruct (_ && _); [reflexivity|]. specialize (S what w).
  destruct (b_get B what w) as [[r dev] w1], (b_get B' what w) as [[r' dev'] w1']. destruct S as (<- & <- & O). destruct (r <? 0); [reflexivity|].
  destruct dev as [d|], dev' as [d'|]; cbn [opt_same] in O; try contradiction; [|reflexivity]. destruct params as [|p params].
  - rewrite (C30_keys_hidden E d d' H O). reflexivity.
  - rewrite (C30_other_parameters E d d' p false (P p eq_refl) O). reflexivity.
Qed.

(** ** C31 *)
Theorem C31_elapsed : forall sg now sec, 0 <= now < 2 ^ 63 -> 0 <= sec < 2 ^ 63 -> elapsed_text now sec (terminal_printf sg false (ago now sec)).
Proof.
  intros sg now sec Hn Hs. destruct (elapsed_gives (mk_show_env sg false None now (fun _ _ => []) index_sort) Hn (fun _ _ => Forall_nil _) sec Hs) as (u & P & _ & X). cbn [se_now] in P, X. rewrite (plainly_printf sg _ _ P). exact X.
Qed.
Theorem C31_every : forall sg n, 0 <= n < 65536 -> exists t, time_words n t /\ terminal_printf sg false (every n) = str "every " ++ t.
Proof. intros sg n H. eexists. split; [apply time_words_plain; lia|]. apply plainly_printf, every_plainly, H. Qed.
Theorem C31_size : forall sg b, 0 <= b < 2 ^ 64 -> size_text b (terminal_printf sg false (bytes_str b)).
Proof. intros sg b H. rewrite (plainly_printf sg _ _ (bytes_plainly b (proj1 H))). apply size_plain, H. Qed.
(** The words stand for one number of seconds. *)
Theorem C31_split_unique : forall n y d h m s y' d' h' m' s', splits_time n y d h m s -> splits_time n y' d' h' m' s' -> (y, d, h, m, s) = (y', d', h', m', s').
Proof. intros n y d h m s y' d' h' m' s'. unfold splits_time. intros H H'. assert (y = y') by lia. assert (d = d') by lia. assert (h = h') by lia. assert (m = m') by lia. assert (s = s') by lia. congruence. Qed.
(** Just below the next unit, the value is rounded up without changing the unit. *)
Example C31_boundary : bytes_plain (2 ^ 20 - 1) = str "1024.00 KiB".
Proof. vm_compute. reflexivity. Qed.

(** ** An example *)
Definition kx (n : Z) : list Z := repeat n 32.
Definition peer_a := mk_peer false false true true true (kx 1) (kx 9) (Ep4 [192; 0; 2; 1] 51820) 1000 5 1536 (2 ^ 33 + 2 ^ 31) 25 [mk_aip AF_INET [10; 0; 0; 0] 8; mk_aip AF_INET6 (32 :: 1 :: repeat 0 14) 16].
Definition peer_b := mk_peer false false true false false (kx 2) zero_key EpNone 0 0 0 0 0 [].
Definition peer_c := mk_peer false false true false false (kx 3) zero_key (Ep6 (254 :: 128 :: repeat 0 13 ++ [7]) 1 0 3) 90061 0 1 0 0 [mk_aip AF_INET [10; 1; 0; 0] 16].
Definition dev_show := mk_device (str "wg0") 3 false true true true true (kx 4) (kx 5) 51966 51820 [peer_b; peer_a; peer_c].
Definition env_show := mk_show_env true false None (90061 + 31536000 * 2 + 86400 + 3600 * 3 + 1) (fun _ n => print_dec (Z.abs n)) index_sort.
Lemma show_example_ok : show_ok env_show /\ visible (d_name dev_show) /\ wf_device dev_show /\ Forall times_ok (d_peers dev_show) /\ hidden env_show.
Proof.
  assert (B : forall l, forallb (fun x => (0 <=? x) && (x <? 256)) l = true -> Forall is_byte l).
  { intros l H. rewrite forallb_forall in H. apply Forall_forall. intros x Hx. specialize (H x Hx). apply andb_true_iff in H as [H1 H2]. apply Z.leb_le in H1. apply Z.ltb_lt in H2. unfold is_byte. lia. }
  assert (K : forall l, length l = 32%nat -> forallb (fun x => (0 <=? x) && (x <? 256)) l = true -> wf_key l) by (intros l L H; split; [exact L|apply B, H]).
  split; [|split; [|split; [|split]]].
  - constructor; [unfold env_show; cbn [se_now]; lia| |exact index_sort_sorts]. intros a s. cbn [se_scope env_show]. apply dec_visible, Z.abs_nonneg.
  - apply visible_b. reflexivity.
  - unfold wf_device, dev_show. cbn [d_pub d_priv d_fwmark d_port d_peers]. split; [apply K; reflexivity|]. split; [apply K; reflexivity|]. split; [lia|]. split; [lia|].
    repeat (apply Forall_cons; [split; [apply K; reflexivity|]; split; [apply K; reflexivity|]; unfold peer_a, peer_b, peer_c; cbn [p_endpoint p_ka p_aips p_rx p_tx p_hs_sec p_hs_nsec wf_endpoint];
      split; [repeat split; try (apply B; reflexivity); lia|]; split; [lia|]; split; [|lia];
      repeat (apply Forall_cons; [first [left; repeat split; try (apply B; reflexivity); cbn; lia|right; repeat split; try (apply B; reflexivity); cbn; lia]|]); apply Forall_nil|]); apply Forall_nil.
  - repeat (apply Forall_cons; [unfold times_ok; cbn; lia|]). apply Forall_nil.
  - discriminate.
Qed.
Example show_example : pretty_print env_show dev_show = ended (map str
  ["interface: wg0"; "  public key: BAQEBAQEBAQEBAQEBAQEBAQEBAQEBAQEBAQEBAQEBAQ="; "  private key: (hidden)"; "  listening port: 51820"; "  fwmark: 0xcafe"; "";
   "peer: AwMDAwMDAwMDAwMDAwMDAwMDAwMDAwMDAwMDAwMDAwM="; "  endpoint: [fe80::7%3]:1"; "  allowed ips: 10.1.0.0/16"; "  latest handshake: 2 years, 1 day, 3 hours, 1 second ago"; "  transfer: 1 B received, 0 B sent"; "";
   "peer: AQEBAQEBAQEBAQEBAQEBAQEBAQEBAQEBAQEBAQEBAQE="; "  preshared key: (hidden)"; "  endpoint: 192.0.2.1:51820"; "  allowed ips: 10.0.0.0/8, 2001::/16";
   "  latest handshake: 2 years, 2 days, 3 hours, 44 minutes, 22 seconds ago"; "  transfer: 1.50 KiB received, 10.00 GiB sent"; "  persistent keepalive: every 25 seconds"; "";
   "peer: AgICAgICAgICAgICAgICAgICAgICAgICAgICAgICAgI="; "  allowed ips: (none)"]%string).
Proof. vm_compute. reflexivity. Qed.
(** Another private key and preshared key, same text. *)
Example hidden_example : exists d', d' <> dev_show /\ same_public dev_show d' /\ pretty_print env_show d' = pretty_print env_show dev_show.
Proof.
  set (p' := mk_peer false false true true true (kx 1) (kx 10) (p_endpoint peer_a) 1000 5 1536 (2 ^ 33 + 2 ^ 31) 25 (p_aips peer_a)).
  exists (mk_device (str "wg0") 3 false true true true true (kx 4) (kx 6) 51966 51820 [peer_b; p'; peer_c]). 
  assert (S : same_public dev_show (mk_device (str "wg0") 3 false true true true true (kx 4) (kx 6) 51966 51820 [peer_b; p'; peer_c])).
  { exists (kx 6), [peer_b; p'; peer_c]. split; [|reflexivity]. apply Forall2_cons; [exists zero_key; reflexivity|]. apply Forall2_cons; [exists (kx 10); reflexivity|].
    apply Forall2_cons; [exists zero_key; reflexivity|constructor]. }
  split; [intro C; discriminate C|]. split; [exact S|]. symmetry. apply C30_keys_hidden; [discriminate|exact S].
Qed.

Print Assumptions C29_view.
Print Assumptions C29_coloured.
Print Assumptions C29_peer_lines.
Print Assumptions C29_order_refuted.
Print Assumptions C30_keys_hidden.
Print Assumptions C30_other_parameters.
Print Assumptions C30_show.
Print Assumptions C31_elapsed.
Print Assumptions C31_every.
Print Assumptions C31_size.
