(** C32: the output for scripts. *)
From Coq Require Import String ZArith List Bool Lia Permutation Sorted.
From Verif Require Import Base Ctype Encoding EncodingSpec EncodingProofs Cstr CstrProofs NumSpec ConfigProofs Inet InetProofs TextProofs Types Uapi UapiProofs4 Setconf
  Terminal TerminalSpec PropTerminal Show ShowSpec ShowProofs ShowProofs2 PropShow.
Import ListNotations.
Open Scope Z_scope.

Lemma pieces_join : forall c fs, fs <> [] -> Forall (fun f => ~ In c f) fs -> pieces c (join [c] fs) = fs.
Proof.
  intros c fs N F. induction F as [|f fs H F IH]; [congruence|]. destruct fs as [|g fs].
  - cbn [join]. clear - H. induction f as [|x f IH]; [reflexivity|]. cbn [pieces]. destruct (Z.eqb_spec x c) as [->|D]; [exfalso; apply H; left; reflexivity|]. rewrite IH; [reflexivity|].
    intro I. apply H. right. exact I.
  - rewrite join_cons2. cbn [app]. rewrite pieces_line by exact H. f_equal. apply IH. discriminate.
Qed.
(** A text of rows. *)
Definition cell (f : list Z) : Prop := ~ In 9 f /\ ~ In 10 f.
Lemma rows_of_rows : forall rows, Forall (fun r => r <> [] /\ Forall cell r) rows -> rows_of (ended (map (join [9]) rows)) = rows.
Proof.
  intros rows F. unfold rows_of. rewrite lines_of_ended.
  - rewrite map_map. induction F as [|r rows [N H] _ IH]; [reflexivity|]. cbn [map]. f_equal; [|exact IH]. apply pieces_join; [exact N|]. eapply Forall_impl; [|exact H]. intros f X. apply X.
  - apply Forall_forall. intros l Hl. apply in_map_iff in Hl as (r & <- & Hr). rewrite Forall_forall in F. destruct (F r Hr) as [_ H].
    clear - H. induction H as [|f r Hf H IH]; [intros []|]. destruct r; [apply Hf|]. rewrite join_cons2, !in_app_iff. cbn [In]. intros [C|[[C|[]]|C]]; [exact (proj2 Hf C)|lia|exact (IH C)].
Qed.
Lemma visible_cell : forall t, visible t -> cell t.
Proof. intros t H. split; apply visible_not; try exact H; lia. Qed.

Section Dump.
Variable E : show_env.
Hypothesis Hscope : forall a s, visible (se_scope E a s).

Definition priv_cell d := maybe_key (d_priv d) (d_has_priv d).
Definition pub_cell d := maybe_key (d_pub d) (d_has_pub d).
Definition ep_cell p := if has_endpoint (p_endpoint p) then endpoint_str E (p_endpoint p) else str "(none)".
Definition aips_text (sep : list Z) (l : list allowedip) : list Z := match l with [] => str "(none)" | _ => join sep (map (fun a => ip_str a ++ 47 :: print_dec (a_cidr a)) l) end.
Definition ka_cell p := if p_ka p =? 0 then str "off" else print_dec (p_ka p).
Definition head_row d w := name_fields d w ++ [priv_cell d; pub_cell d; print_dec (d_port d); mark_str (d_fwmark d)].
Definition peer_row d w p := name_fields d w ++
  [key_to_base64 (p_pub p); maybe_key (p_psk p) (p_has_psk p); ep_cell p; aips_text [44] (p_aips p); print_dec (u64 (p_hs_sec p)); print_dec (p_rx p); print_dec (p_tx p); ka_cell p].

Lemma list_aips_join : forall sep last l, l <> [] -> list_aips sep last l = join [sep] (map (fun a => ip_str a ++ 47 :: print_dec (a_cidr a)) l) ++ [last].
Proof.
  intros sep last l N. induction l as [|a l IH]; [congruence|]. destruct l as [|b l].
  - cbn [list_aips map join]. rewrite <- app_assoc. reflexivity.
  - cbn [map]. rewrite join_cons2. cbn [map] in IH. change (list_aips sep last (a :: b :: l)) with (ip_str a ++ 47 :: print_dec (a_cidr a) ++ sep :: list_aips sep last (b :: l)).
    rewrite IH by discriminate. rewrite <- !app_assoc. reflexivity.
Qed.
Lemma aips_text_list : forall sep last l, aips_text [sep] l ++ [last] = match l with [] => str "(none)" ++ [last] | _ => list_aips sep last l end.
Proof. intros sep last l. destruct l as [|a l]; [reflexivity|]. rewrite (list_aips_join sep last (a :: l)) by discriminate. reflexivity. Qed.
Lemma join_pre : forall d w fs, fs <> [] -> join [9] (name_fields d w ++ fs) = iface_prefix d w ++ join [9] fs.
Proof.
  intros d w fs N. unfold name_fields, iface_prefix, tab. destruct w; [|reflexivity]. destruct fs; [congruence|]. cbn [app]. rewrite join_cons2, <- app_assoc. reflexivity.
Qed.
Lemma dump_peer_row : forall d w p, dump_peer E d w p = join [9] (peer_row d w p) ++ [10].
Proof.
  intros d w p. unfold peer_row. rewrite join_pre by discriminate. unfold dump_peer. rewrite !join_cons2. cbn [join]. rewrite <- !app_assoc. unfold tab, ep_cell. do 6 f_equal. apply f_equal.
  rewrite (app_assoc (aips_text _ _)), aips_text_list. destruct (p_aips p); reflexivity.
Qed.
Lemma dump_rows : forall d w, dump_print E d w = ended (map (join [9]) (head_row d w :: map (peer_row d w) (d_peers d))).
Proof.
  intros d w. cbn [map ended flat_map]. unfold dump_print, head_row. rewrite join_pre by discriminate. rewrite !join_cons2. cbn [join]. rewrite <- !app_assoc. do 8 f_equal. cbn [app]. f_equal.
  rewrite map_map. induction (d_peers d) as [|p l IH]; [reflexivity|]. cbn [flat_map map]. rewrite IH, dump_peer_row. reflexivity.
Qed.

Lemma maybe_cell : forall k b, wf_key k -> visible (maybe_key k b) /\ key_field (maybe_key k b) b k.
Proof. intros k [] W; unfold maybe_key; [rewrite key_to_base64_rfc by exact W; split; [apply key_visible, W|apply kf_key]|split; [apply visible_b; reflexivity|apply kf_none]]. Qed.
Lemma ep_cell_ok : forall p, wf_endpoint (p_endpoint p) -> visible (ep_cell p) /\ ep_field (se_scope E) (ep_cell p) (p_endpoint p).
Proof.
  intros p W. unfold ep_cell. destruct (p_endpoint p) eqn:Ep; cbn [has_endpoint]; [split; [apply visible_b; reflexivity|apply ef_none]| |]; apply ep_visible; try assumption; discriminate.
Qed.
Lemma aips_cell_ok : forall sep l, Forall wf_aip l -> sep = 44 \/ sep = 32 -> (forall c, c <> sep -> c <= 32 -> ~ In c (aips_text [sep] l)) /\ aips_field [sep] (aips_text [sep] l) l.
Proof.
  intros sep l W S. destruct l as [|a0 l0] eqn:El; [split; [|apply asf_none]|].
  { intros c _ L. apply visible_not; [apply visible_b; reflexivity|exact L]. }
  rewrite <- El in *. assert (N : l <> []) by (rewrite El; discriminate). replace (aips_text [sep] l) with (join [sep] (map (fun a => ip_str a ++ 47 :: print_dec (a_cidr a)) l)) by (rewrite El; reflexivity).
  clear El a0 l0. split.
  - intros c D L. clear N. induction W as [|a l Ha Wl IH]; [intros []|]. destruct (aip_visible a Ha) as [V _]. destruct l as [|b l]; [cbn [map join]; apply visible_not; assumption|].
    cbn [map]. cbn [map] in IH. rewrite join_cons2, in_app_iff. intros [C|C]; [revert C; apply visible_not; assumption|]. apply in_app_iff in C as [[C|[]]|C]; [congruence|exact (IH C)].
  - apply asf_some; [exact N| |].
    + clear N. induction W as [|b m Wb Wm IH]; [constructor|]. cbn [map]. constructor; [apply aip_visible, Wb|exact IH].
    + apply Forall_forall. intros x Hx. apply in_map_iff in Hx as (b & <- & Hb). rewrite Forall_forall in W. destruct (aip_visible b (W b Hb)) as (V & C & _). cbn [hd].
      destruct S as [-> | ->]; [exact C|apply visible_not; [exact V|lia]].
Qed.
Lemma mark_cell_ok : forall m, 0 <= m -> visible (mark_str m) /\ mark_field (mark_str m) m.
Proof.
  intros m H. unfold mark_str. destruct (Z.eqb_spec m 0) as [->|N]; [split; [apply visible_b; reflexivity|apply mf_off]|].
  split; [apply visible_app; [apply visible_b; reflexivity|apply hex_visible, H]|]. apply mf_hex; [exact N|]. apply hexadecimal_iff. split; [apply print_num_nonempty|apply print_hex_value, H].
Qed.
Lemma ka_cell_ok : forall p, 0 <= p_ka p -> visible (ka_cell p) /\ ka_field (ka_cell p) (p_ka p).
Proof.
  intros p H. unfold ka_cell. destruct (Z.eqb_spec (p_ka p) 0) as [->|N]; [split; [apply visible_b; reflexivity|apply kaf_off]|].
  split; [apply dec_visible, H|apply kaf_dec; [exact N|apply decimal_print, H]].
Qed.
Lemma name_cells : forall d w, cell (d_name d) -> Forall cell (name_fields d w).
Proof. intros d [] H; [constructor; [exact H|constructor]|constructor]. Qed.

Lemma head_row_ok : forall d w, cell (d_name d) -> wf_device d -> (head_row d w <> [] /\ Forall cell (head_row d w)) /\ device_fields d w (head_row d w).
Proof.
  intros d w C (Wpub & Wpriv & Wm & Wo & _). destruct (maybe_cell (d_priv d) (d_has_priv d) Wpriv) as [V1 F1], (maybe_cell (d_pub d) (d_has_pub d) Wpub) as [V2 F2], (mark_cell_ok (d_fwmark d) ltac:(lia)) as [V3 F3].
  split; [split|].
  - unfold head_row. intro X. apply app_eq_nil in X as [_ X]. discriminate.
  - apply Forall_app. split; [apply name_cells, C|]. repeat (apply Forall_cons; [apply visible_cell; first [assumption | apply dec_visible; lia]|]). constructor.
  - exists (priv_cell d), (pub_cell d), (print_dec (d_port d)), (mark_str (d_fwmark d)). split; [reflexivity|]. split; [exact F1|]. split; [exact F2|]. split; [apply decimal_print; lia|exact F3].
Qed.
Lemma peer_row_ok : forall d w p, cell (d_name d) -> wf_peer p -> times_ok p -> (peer_row d w p <> [] /\ Forall cell (peer_row d w p)) /\ peer_fields (se_scope E) d w p (peer_row d w p).
Proof.
  intros d w p C (Wp & Ws & We & Wk & Wa & Wr & Wt & _) [T _].
  destruct (maybe_cell (p_psk p) (p_has_psk p) Ws) as [V1 F1], (ep_cell_ok p We) as [V2 F2], (aips_cell_ok 44 (p_aips p) Wa ltac:(lia)) as [V3 F3], (ka_cell_ok p ltac:(lia)) as [V4 F4].
  assert (U : u64 (p_hs_sec p) = p_hs_sec p) by (unfold u64; apply Z.mod_small; lia). 
  split; [split|].
  - unfold peer_row. intro X. apply app_eq_nil in X as [_ X]. discriminate.
  - apply Forall_app. split; [apply name_cells, C|]. rewrite U, key_to_base64_rfc by exact Wp.
    repeat (apply Forall_cons; [first [split; apply V3; lia | apply visible_cell; first [assumption | apply dec_visible; lia | apply key_visible, Wp]]|]). constructor.
  - exists (maybe_key (p_psk p) (p_has_psk p)), (ep_cell p), (aips_text [44] (p_aips p)), (print_dec (p_hs_sec p)), (print_dec (p_rx p)), (print_dec (p_tx p)), (ka_cell p).
    split; [unfold peer_row; rewrite U, key_to_base64_rfc by exact Wp; reflexivity|]. repeat (split; [first [assumption | apply decimal_print; lia]|]). exact F4.
Qed.

Lemma dump_rows_of : forall d w, cell (d_name d) -> wf_device d -> Forall times_ok (d_peers d) ->
  rows_of (dump_print E d w) = head_row d w :: map (peer_row d w) (d_peers d).
Proof.
  intros d w C W T. rewrite dump_rows. apply rows_of_rows. constructor; [apply head_row_ok; assumption|]. destruct W as (_ & _ & _ & _ & Wl). apply Forall_forall. intros r Hr.
  apply in_map_iff in Hr as (p & <- & Hp). rewrite Forall_forall in Wl, T. apply peer_row_ok; auto.
Qed.

(** C32: the lines and tab separated fields of a dump. *)
Theorem C32_dump : forall d w, cell (d_name d) -> wf_device d -> Forall times_ok (d_peers d) ->
  exists first rest, rows_of (dump_print E d w) = first :: rest /\ device_fields d w first /\ Forall2 (peer_fields (se_scope E) d w) (d_peers d) rest.
Proof.
  intros d w C W T. exists (head_row d w), (map (peer_row d w) (d_peers d)). split; [apply dump_rows_of; assumption|]. split; [apply head_row_ok; assumption|].
  destruct W as (_ & _ & _ & _ & Wl). induction Wl as [|p l Hp Wl IH]; [constructor|]. inversion T; subst. cbn [map]. constructor; [apply peer_row_ok; assumption|apply IH; assumption].
Qed.

(** C32: the other parameters print columns of the dump. *)
Lemma ended_rows : forall (rows : list (list (list Z))) (f : peer -> list Z) (g : peer -> list (list Z)) l, (forall p, In p l -> f p = join [9] (g p) ++ [10]) ->
  flat_map f l = ended (map (join [9]) (map g l)).
Proof.
  intros rows f g l H. induction l as [|p l IH]; [reflexivity|]. cbn [flat_map map ended]. rewrite H by (left; reflexivity). f_equal. apply IH. intros q Hq. apply H. right. exact Hq.
Qed.
Lemma pick_row : forall d w cols fs, pick w cols (name_fields d w ++ fs) = name_fields d w ++ map (fun i => nth i fs []) cols.
Proof. intros d [] cols fs; reflexivity. Qed.
Theorem C32_columns : forall d w param peers cols, cell (d_name d) -> wf_device d -> Forall times_ok (d_peers d) -> columns param = Some (peers, cols) ->
  exists text, ugly_print E d param w = Some text /\
    rows_of text = map (pick w cols) (if peers : bool then tl (rows_of (dump_print E d w)) else firstn 1 (rows_of (dump_print E d w))).
Proof.
  intros d w param peers cols C W T H. rewrite dump_rows_of by assumption. cbn [tl firstn].
  assert (Wr : Forall (fun r => r <> [] /\ Forall cell r) (head_row d w :: map (peer_row d w) (d_peers d))).
  { constructor; [apply head_row_ok; assumption|]. destruct W as (_ & _ & _ & _ & Wl). apply Forall_forall. intros r Hr. apply in_map_iff in Hr as (p & <- & Hp). rewrite Forall_forall in Wl, T. apply peer_row_ok; auto. }
  (* a text made of picked rows has those rows *)
  assert (P : forall cols rows, cols <> [] -> Forall (fun r => r <> [] /\ Forall cell r) rows -> Forall (fun r => r <> [] /\ Forall cell r) (map (pick w cols) rows)).
  { intros cs rows Nc F. apply Forall_forall. intros r Hr. apply in_map_iff in Hr as (q & <- & Hq). rewrite Forall_forall in F. destruct (F q Hq) as [_ Fq]. unfold pick. split.
    - intro X. apply app_eq_nil in X as [_ X]. destruct cs; [congruence|discriminate].
    - apply Forall_app. split; [destruct w; [|constructor]; destruct q; [constructor|]; inversion Fq; subst; repeat constructor; apply H2|].
      apply Forall_forall. intros f Hf. apply in_map_iff in Hf as (i & <- & _). destruct (nth_in_or_default i (skipn (if w then 1 else 0) q) []) as [I|I]; [|rewrite I; split; intros []].
      rewrite Forall_forall in Fq. apply Fq. revert I. generalize (nth i (skipn (if w then 1%nat else 0%nat) q) []). intros f I. rewrite <- (firstn_skipn (if w then 1%nat else 0%nat) q). apply in_app_iff. right. exact I. }
  inversion Wr as [|? ? Wh Wp]; subst.
  assert (D1 : forall v c, [v] = map (fun i => nth i [priv_cell d; pub_cell d; print_dec (d_port d); mark_str (d_fwmark d)] []) [c] ->
    rows_of (iface_prefix d w ++ v ++ [10]) = map (pick w [c]) [head_row d w]).
  { intros v c X. rewrite <- (rows_of_rows (map (pick w [c]) [head_row d w])) by (apply P; [discriminate|constructor; [exact Wh|constructor]]). f_equal.
    cbn [map ended flat_map]. unfold head_row. rewrite pick_row, app_nil_r, <- X, join_pre by discriminate. cbn [join]. rewrite <- app_assoc. reflexivity. }
  assert (D2 : forall (f : peer -> list Z) cs, cs <> [] ->
    (forall p, f p = join [9] (map (fun i => nth i [key_to_base64 (p_pub p); maybe_key (p_psk p) (p_has_psk p); ep_cell p; aips_text [44] (p_aips p); print_dec (u64 (p_hs_sec p)); print_dec (p_rx p); print_dec (p_tx p); ka_cell p] []) cs) ++ [10]) ->
    rows_of (flat_map (fun p => iface_prefix d w ++ f p) (d_peers d)) = map (pick w cs) (map (peer_row d w) (d_peers d))).
  { intros f cs Nc X. rewrite <- (rows_of_rows (map (pick w cs) (map (peer_row d w) (d_peers d)))) by (apply P; [exact Nc|exact Wp]). f_equal.
    rewrite (map_map (peer_row d w) (pick w cs)). apply (ended_rows []). intros p _. rewrite X. unfold peer_row. rewrite pick_row, join_pre by (destruct cs; [congruence|discriminate]). rewrite <- app_assoc. reflexivity. }
  unfold columns in H.
  cbn [find fst] in H. unfold ugly_print. cbv zeta.
  destruct (beq param (str "public-key")); [injection H as <- <-; eexists; split; [reflexivity|]; apply (D1 (pub_cell d) 1%nat); reflexivity|].
  destruct (beq param (str "private-key")); [injection H as <- <-; eexists; split; [reflexivity|]; apply (D1 (priv_cell d) 0%nat); reflexivity|].
  destruct (beq param (str "listen-port")); [injection H as <- <-; eexists; split; [reflexivity|]; apply (D1 (print_dec (d_port d)) 2%nat); reflexivity|].
  destruct (beq param (str "fwmark")); [injection H as <- <-; eexists; split; [reflexivity|]; apply (D1 (mark_str (d_fwmark d)) 3%nat); reflexivity|].
  destruct (beq param (str "endpoints")).
  { injection H as <- <-. eexists. split; [reflexivity|]. apply D2; [discriminate|]. intro p. cbn [map nth]. rewrite join_cons2. cbn [join]. rewrite <- !app_assoc. reflexivity. }
  destruct (beq param (str "allowed-ips")) eqn:A.
  { apply beq_eq in A. subst param. vm_compute in H. discriminate. }
  destruct (beq param (str "latest-handshakes")).
  { injection H as <- <-. eexists. split; [reflexivity|]. apply D2; [discriminate|]. intro p. cbn [map nth]. rewrite join_cons2. cbn [join]. rewrite <- !app_assoc. reflexivity. }
  destruct (beq param (str "transfer")).
  { injection H as <- <-. eexists. split; [reflexivity|]. apply D2; [discriminate|]. intro p. cbn [map nth]. rewrite !join_cons2. cbn [join]. rewrite <- !app_assoc. reflexivity. }
  destruct (beq param (str "persistent-keepalive")).
  { injection H as <- <-. eexists. split; [reflexivity|]. apply D2; [discriminate|]. intro p. cbn [map nth]. rewrite join_cons2. cbn [join]. rewrite <- !app_assoc. reflexivity. }
  destruct (beq param (str "preshared-keys")).
  { injection H as <- <-. eexists. split; [reflexivity|]. apply D2; [discriminate|]. intro p. cbn [map nth]. rewrite join_cons2. cbn [join]. rewrite <- !app_assoc. reflexivity. }
  destruct (beq param (str "peers")).
  { injection H as <- <-. eexists. split; [reflexivity|]. apply D2; [discriminate|]. intro p. reflexivity. }
  discriminate.
Qed.

(** 'allowed-ips' separates them by spaces. *)
Theorem C32_allowed_ips : forall d w, cell (d_name d) -> wf_device d ->
  exists text rows, ugly_print E d (str "allowed-ips") w = Some text /\ rows_of text = rows /\
    Forall2 (fun p row => exists v, row = name_fields d w ++ [rfc4648 (p_pub p); v] /\ aips_field [32] v (p_aips p)) (d_peers d) rows.
Proof.
  intros d w C (_ & _ & _ & _ & Wl). eexists. exists (map (fun p => name_fields d w ++ [rfc4648 (p_pub p); aips_text [32] (p_aips p)]) (d_peers d)).
  split; [reflexivity|]. split.
  - rewrite <- (rows_of_rows (map _ (d_peers d))).
    + f_equal. apply (ended_rows []). intros p Hp. rewrite Forall_forall in Wl. destruct (Wl p Hp) as (Wp & _). rewrite join_pre by discriminate. rewrite join_cons2. cbn [join].
      rewrite key_to_base64_rfc by exact Wp. rewrite <- !app_assoc. do 3 f_equal. rewrite aips_text_list. destruct (p_aips p); reflexivity.
    + apply Forall_forall. intros r Hr. apply in_map_iff in Hr as (p & <- & Hp). rewrite Forall_forall in Wl. destruct (Wl p Hp) as (Wp & _ & _ & _ & Wa & _). split; [intro X; apply app_eq_nil in X as [_ X]; discriminate|].
      apply Forall_app. split; [apply name_cells, C|]. apply Forall_cons; [apply visible_cell, key_visible, Wp|]. apply Forall_cons; [|constructor].
      destruct (aips_cell_ok 32 (p_aips p) Wa ltac:(lia)) as [V _]. split; apply V; lia.
  - induction Wl as [|p l Hp Wl IH]; [constructor|]. cbn [map]. constructor; [|exact IH]. eexists. split; [reflexivity|]. destruct Hp as (_ & _ & _ & _ & Wa & _). apply aips_cell_ok; [exact Wa|lia].
Qed.
(** 'dump' is the dump; anything else is refused. *)
Theorem C32_dump_parameter : forall d w, ugly_print E d (str "dump") w = Some (dump_print E d w).
Proof. reflexivity. Qed.
Theorem C32_other_refused : forall d w param, columns param = None -> param <> str "allowed-ips" -> param <> str "dump" -> ugly_print E d param w = None.
Proof.
  intros d w param H N1 N2. unfold columns in H. cbn [find fst] in H. unfold ugly_print. apply beq_ne in N1, N2. rewrite N1, N2.
  repeat match type of H with context [if beq param ?s then _ else _] => destruct (beq param s); [discriminate|] end. reflexivity.
Qed.
End Dump.

(** ** The device can be recovered from its dump. *)
Lemma split_uniq : forall (c : Z) a b a' b', ~ In c a -> ~ In c a' -> a ++ c :: b = a' ++ c :: b' -> a = a' /\ b = b'.
Proof.
  intros c a. induction a as [|x a IH]; intros b a' b' N N' H; destruct a' as [|y a']; cbn [app] in H.
  - inversion H. auto.
  - inversion H; subst. exfalso. apply N'. left. reflexivity.
  - inversion H; subst. exfalso. apply N. left. reflexivity.
  - inversion H; subst. destruct (IH b a' b') as [-> ->]; auto; intro I; [apply N|apply N']; right; exact I.
Qed.
Lemma rfc_inj : forall k k', wf_key k -> wf_key k' -> rfc4648 k = rfc4648 k' -> k = k'.
Proof.
  intros k k' W W' H. rewrite <- !key_to_base64_rfc in H by assumption. pose proof (key_from_base64_enc true k W) as A. pose proof (key_from_base64_enc true k' W') as B.
  rewrite <- !key_to_base64_rfc in A, B by assumption. rewrite H in A. rewrite A in B. injection B as B. congruence.
Qed.
Lemma maybe_inj : forall k b k' b', wf_key k -> wf_key k' -> maybe_key k b = maybe_key k' b' -> (if b then Some k else None) = (if b' then Some k' else None).
Proof.
  assert (L : forall k, wf_key k -> key_to_base64 k <> str "(none)").
  { intros k W H. apply (f_equal (@length Z)) in H. rewrite key_to_base64_length in H by apply W. discriminate. }
  intros k b k' b' W W' H. destruct b, b'; cbn [maybe_key] in H; try reflexivity.
  - rewrite !key_to_base64_rfc in H by assumption. f_equal. apply rfc_inj; assumption.
  - exfalso. exact (L k W H).
  - exfalso. symmetry in H. exact (L k' W' H).
Qed.
Lemma dec_inj : forall n m, 0 <= n -> 0 <= m -> print_dec n = print_dec m -> n = m.
Proof. intros n m Hn Hm H. pose proof (print_dec_value n Hn) as A. rewrite H, print_dec_value in A by exact Hm. congruence. Qed.
Lemma hex_inj : forall n m, 0 <= n -> 0 <= m -> print_hex n = print_hex m -> n = m.
Proof. intros n m Hn Hm H. pose proof (print_hex_value n Hn) as A. rewrite H, print_hex_value in A by exact Hm. congruence. Qed.
Lemma mark_inj : forall n m, 0 <= n -> 0 <= m -> mark_str n = mark_str m -> n = m.
Proof.
  intros n m Hn Hm H. unfold mark_str in H. destruct (Z.eqb_spec n 0), (Z.eqb_spec m 0); try congruence; try discriminate H. apply app_inv_head in H. apply hex_inj; assumption.
Qed.
Lemma ka_inj : forall p q, 0 <= p_ka p -> 0 <= p_ka q -> ka_cell p = ka_cell q -> p_ka p = p_ka q.
Proof.
  assert (D : forall n, 0 <= n -> print_dec n <> str "off").
  { intros n H X. pose proof (print_dec_digits n H) as F. rewrite X in F. inversion F; subst. lia. }
  intros p q Hp Hq H. unfold ka_cell in H. destruct (Z.eqb_spec (p_ka p) 0), (Z.eqb_spec (p_ka q) 0); [congruence| | |apply dec_inj; assumption]; exfalso; [symmetry in H|]; apply D in H; assumption.
Qed.
Lemma aip_inj : forall a b, wf_aip a -> wf_aip b -> ip_str a ++ 47 :: print_dec (a_cidr a) = ip_str b ++ 47 :: print_dec (a_cidr b) -> a = b.
Proof.
  intros a b Wa Wb H.
  assert (A : forall a, wf_aip a -> Forall addr_char (ip_str a) /\ 0 <= a_cidr a).
  { clear. intros a [(F & _ & B & C)|(F & _ & B & C)]; unfold ip_str; rewrite F; cbn; (split; [|lia]); [apply ntop4_addr, B|apply ntop6_chars, B]. }
  destruct (A a Wa) as [Ca Na], (A b Wb) as [Cb Nb].
  apply split_uniq in H as [H1 H2]; [|apply (not_in_by _ _ _ Ca); unfold addr_char; lia|apply (not_in_by _ _ _ Cb); unfold addr_char; lia].
  apply dec_inj in H2; try assumption. clear A Ca Cb. destruct a as [fa ia ca], b as [fb ib cb]. cbn [a_cidr] in *. subst cb. unfold wf_aip, ip_str in *. cbn [a_family a_ip a_cidr] in *.
  destruct Wa as [(-> & La & Ba & _)|(-> & La & Ba & _)], Wb as [(-> & Lb & Bb & _)|(-> & Lb & Bb & _)]; cbn in H1.
  - f_equal. pose proof (inet4_roundtrip ia (conj La Ba)) as X. rewrite H1, inet4_roundtrip in X by (split; assumption). congruence.
  - exfalso. pose proof (ntop6_colon_in ib (conj Lb Bb)) as X. rewrite <- H1 in X. revert X. apply (not_in_by _ _ _ (ntop4_chars ia Ba)). lia.
  - exfalso. pose proof (ntop6_colon_in ia (conj La Ba)) as X. rewrite H1 in X. revert X. apply (not_in_by _ _ _ (ntop4_chars ib Bb)). lia.
  - f_equal. pose proof (inet6_roundtrip ia (conj La Ba)) as X. rewrite H1, inet6_roundtrip in X by (split; assumption). congruence.
Qed.
Lemma aips_inj : forall l l', Forall wf_aip l -> Forall wf_aip l' -> aips_text [44] l = aips_text [44] l' -> l = l'.
Proof.
  set (f := fun a => ip_str a ++ 47 :: print_dec (a_cidr a)).
  assert (P : forall l, Forall wf_aip l -> l <> [] -> pieces 44 (aips_text [44] l) = map f l).
  { intros l W N. destruct l as [|a l]; [congruence|]. unfold aips_text. fold f. apply pieces_join; [discriminate|]. apply Forall_forall. intros x Hx. apply in_map_iff in Hx as (b & <- & Hb).
    rewrite Forall_forall in W. apply aip_visible, W, Hb. }
  assert (H0 : forall a l, Forall wf_aip (a :: l) -> aips_text [44] (a :: l) <> str "(none)").
  { intros a l W C. apply (f_equal (pieces 44)) in C. rewrite P in C by (assumption || discriminate). inversion W as [|? ? Wa _]; subst. cbn [map] in C. change (pieces 44 (str "(none)")) with [str "(none)"] in C. assert (C1 : f a = str "(none)") by congruence.
    assert (X : In 47 (f a)) by (unfold f; apply in_app_iff; right; left; reflexivity).
    rewrite C1 in X. cbn in X. lia. }
  intros l l' W W' H. destruct l as [|a l], l' as [|b l']; [reflexivity|exfalso; symmetry in H; exact (H0 b l' W' H)|exfalso; exact (H0 a l W H)|].
  apply (f_equal (pieces 44)) in H. rewrite !P in H by (assumption || discriminate). clear H0 P. revert H. generalize (b :: l') as m', (a :: l) as m, W', W. clear. intros m' m W' W. revert m' W'.
  induction W as [|x m Wx W IH]; intros m' W' H; destruct W' as [|y m' Wy W']; try discriminate; [reflexivity|]. cbn [map] in H. inversion H as [[H1 H2]]. f_equal; [apply aip_inj; assumption|apply IH; assumption].
Qed.

Section Recover.
Variable E : show_env.
Hypothesis Hscope : forall a s, visible (se_scope E a s).
Hypothesis Hinj : forall a s s', 0 < s < 2 ^ 32 -> 0 < s' < 2 ^ 32 -> se_scope E a s = se_scope E a s' -> s = s'.
Lemma ep_inj : forall p q, wf_endpoint (p_endpoint p) -> wf_endpoint (p_endpoint q) -> ep_cell E p = ep_cell E q -> no_flow_label (p_endpoint p) = no_flow_label (p_endpoint q).
Proof.
  assert (R : forall a p f s, wf_endpoint (Ep6 a p f s) -> endpoint_str E (Ep6 a p f s) = 91 :: (inet_ntop6 a ++ (if s =? 0 then [] else 37 :: se_scope E a s)) ++ 93 :: 58 :: print_dec p).
  { intros a p f s (L & B & _). unfold endpoint_str. cbn [nameinfo andb].
    assert (Hc : has_char 58 (inet_ntop6 a ++ (if s =? 0 then [] else 37 :: se_scope E a s)) = true) by (apply has_char_In, in_app_iff; left; apply ntop6_colon_in; split; assumption). rewrite Hc. reflexivity. }
  intros p q Wp Wq H. unfold ep_cell in H. destruct (p_endpoint p) as [|a n|a n f s], (p_endpoint q) as [|b m|b m g t]; cbn [has_endpoint] in H; try reflexivity.
  - exfalso. destruct Wq as (L & B & _). unfold endpoint_str in H. cbn [nameinfo andb] in H. pose proof (ntop4_chars b B) as C. assert (X : In 58 (str "(none)")) by (rewrite H; apply in_app_iff; right; left; reflexivity). vm_compute in X. repeat (destruct X as [X|X]; [discriminate|]); exact X.
  - exfalso. rewrite R in H by exact Wq. discriminate.
  - exfalso. unfold endpoint_str in H. cbn [nameinfo andb] in H. assert (X : In 58 (str "(none)")) by (rewrite <- H; apply in_app_iff; right; left; reflexivity). vm_compute in X. repeat (destruct X as [X|X]; [discriminate|]); exact X.
  - destruct Wp as (La & Ba & Pa), Wq as (Lb & Bb & Pb). unfold endpoint_str in H. cbn [nameinfo andb] in H.
    apply split_uniq in H as [H1 H2]; [|apply (not_in_by _ _ _ (ntop4_chars a Ba)); lia|apply (not_in_by _ _ _ (ntop4_chars b Bb)); lia]. cbn [no_flow_label].
    apply dec_inj in H2; [|lia|lia]. pose proof (inet4_roundtrip a (conj La Ba)) as X. rewrite H1, inet4_roundtrip in X by (split; assumption). congruence.
  - exfalso. rewrite R in H by exact Wq. destruct Wp as (La & Ba & Pa). unfold endpoint_str in H. cbn [nameinfo andb] in H. pose proof (ntop4_chars a Ba) as C. destruct (inet_ntop4 a); cbn [app] in H; inversion H; subst. inversion C; subst. lia.
  - exfalso. rewrite R in H by exact Wp. discriminate.
  - exfalso. rewrite R in H by exact Wp. destruct Wq as (Lb & Bb & Pb). unfold endpoint_str in H. cbn [nameinfo andb] in H. pose proof (ntop4_chars b Bb) as C. destruct (inet_ntop4 b); cbn [app] in H; inversion H; subst. inversion C; subst. lia.
  - rewrite !R in H by assumption. destruct Wp as (La & Ba & Pa & Fa & Sa), Wq as (Lb & Bb & Pb & Fb & Sb). apply (f_equal (@rev Z)) in H. cbn [rev] in H. rewrite !rev_app_distr in H. cbn [rev] in H. rewrite <- !app_assoc in H. cbn [app] in H.
    apply split_uniq in H as [H1 H2].
    + apply (f_equal (@rev Z)) in H1. rewrite !rev_involutive in H1. apply dec_inj in H1; [|lia|lia]. subst m. inversion H2 as [[H3]]. rewrite !app_assoc in H3. apply app_inj_tail in H3 as [H3 _]. rewrite <- !rev_app_distr in H3. apply (f_equal (@rev Z)) in H3. rewrite !rev_involutive in H3. cbn [no_flow_label].
      assert (Np : forall x, Forall is_byte x -> ~ In 37 (inet_ntop6 x)) by (intros x Bx; apply (not_in_by _ _ _ (ntop6_chars x Bx)); unfold addr_char; lia).
      assert (Q : inet_ntop6 a = inet_ntop6 b /\ (s =? 0) = (t =? 0) /\ (s = 0 \/ s <> 0 /\ t <> 0 /\ se_scope E a s = se_scope E b t)).
      { destruct (Z.eqb_spec s 0), (Z.eqb_spec t 0); rewrite ?app_nil_r in H3.
        - auto.
        - exfalso. apply (Np a Ba). rewrite H3. apply in_app_iff. right. left. reflexivity.
        - exfalso. apply (Np b Bb). rewrite <- H3. apply in_app_iff. right. left. reflexivity.
        - apply split_uniq in H3 as [H4 H5]; [auto 6|apply Np, Ba|apply Np, Bb]. }
      destruct Q as (Q1 & Q2 & Q3). assert (a = b) by (pose proof (inet6_roundtrip a (conj La Ba)) as X; rewrite Q1, inet6_roundtrip in X by (split; assumption); congruence). subst b.
      f_equal. destruct Q3 as [-> | (Q3 & Q4 & Q5)]; [cbn in Q2; symmetry in Q2; apply Z.eqb_eq in Q2; congruence|]. apply (Hinj a); [lia|lia|exact Q5].
    + rewrite <- in_rev. apply (not_in_by _ _ _ (print_dec_digits _ (proj1 Pa))). lia.
    + rewrite <- in_rev. apply (not_in_by _ _ _ (print_dec_digits _ (proj1 Pb))). lia.
Qed.
Theorem C32_recoverable : forall d d' w, cell (d_name d) -> cell (d_name d') -> wf_device d -> wf_device d' -> Forall times_ok (d_peers d) -> Forall times_ok (d_peers d') ->
  dump_print E d w = dump_print E d' w -> said_of_device d = said_of_device d' /\ (w = true -> d_name d = d_name d').
Proof.
  intros d d' w C C' W W' T T' H. apply (f_equal rows_of) in H. rewrite !dump_rows_of in H by assumption. inversion H as [[Hh Hp]]. clear H.
  assert (N : w = true -> d_name d = d_name d') by (intros ->; unfold head_row in Hh; cbn [name_fields app] in Hh; congruence). split; [|exact N].
  assert (I : forall x y, name_fields d w ++ x = name_fields d' w ++ y -> x = y) by (intros x y X; destruct w; cbn [name_fields app] in X; [inversion X; reflexivity|exact X]).
  destruct W as (Wpub & Wpriv & Wm & Wo & Wl), W' as (Wpub' & Wpriv' & Wm' & Wo' & Wl'). unfold head_row in Hh. apply I in Hh. inversion Hh as [[H1 H2 H3 H4]].
  unfold said_of_device. apply maybe_inj in H1; try assumption. apply maybe_inj in H2; try assumption. apply dec_inj in H3; [|lia|lia]. apply mark_inj in H4; [|lia|lia]. rewrite H1, H2, H3, H4. f_equal.
  clear - I Wl Wl' T T' Hp Hscope Hinj. revert Hp Wl Wl' T T'. generalize (d_peers d), (d_peers d'). intro l. induction l as [|p l IH]; intros l' Hp W W' T T'; destruct l' as [|q l']; try discriminate; [reflexivity|].
  cbn [map] in *. inversion Hp as [[Hp1 Hp2]]. inversion W as [|? ? (Wp & Ws & We & Wk & Wa & Wr & Wt & _) Wl]; inversion W' as [|? ? (Wp' & Ws' & We' & Wk' & Wa' & Wr' & Wt' & _) Wl']; inversion T as [|? ? [Tp _] Tl]; inversion T' as [|? ? [Tp' _] Tl']; subst.
  f_equal; [|apply IH; assumption]. unfold peer_row in Hp1. apply I in Hp1.
  pose proof (f_equal (fun r => nth 0 r []) Hp1) as A1. pose proof (f_equal (fun r => nth 1 r []) Hp1) as A2. pose proof (f_equal (fun r => nth 2 r []) Hp1) as A3. pose proof (f_equal (fun r => nth 3 r []) Hp1) as A4. pose proof (f_equal (fun r => nth 4 r []) Hp1) as A5. pose proof (f_equal (fun r => nth 5 r []) Hp1) as A6. pose proof (f_equal (fun r => nth 6 r []) Hp1) as A7. pose proof (f_equal (fun r => nth 7 r []) Hp1) as A8. cbn [nth] in A1, A2, A3, A4, A5, A6, A7, A8. unfold said_of_peer.
  rewrite !key_to_base64_rfc in A1 by assumption. apply rfc_inj in A1; try assumption. apply maybe_inj in A2; try assumption. apply ep_inj in A3; try assumption. apply aips_inj in A4; try assumption.
  assert (U : forall x, 0 <= x < 2 ^ 63 -> u64 x = x) by (intros x Hx; unfold u64; apply Z.mod_small; lia). rewrite !U in A5 by assumption.
  apply dec_inj in A5; [|lia|lia]. apply dec_inj in A6; [|lia|lia]. apply dec_inj in A7; [|lia|lia]. apply ka_inj in A8; [|lia|lia]. congruence.
Qed.
End Recover.

(** 'wg show all <parameter>': the texts of all interfaces, each line after the name. *)
Theorem C32_all : forall E W list_devices (B : backend W) a0 param w buf w1 get, list_devices w = (Some buf, w1) ->
  (forall name w, b_get B name w = (0, Some (get name), w)) -> (forall n, In n (names_of buf) -> ugly_print E (get n) param true <> None) -> names_of buf <> [] ->
  show_main E W list_devices B [a0; str "all"; param] w =
    (Exit 0 (flat_map (fun n => match ugly_print E (get n) param true with Some t => t | None => [] end) (names_of buf)), w1).
Proof.
  intros E W ld B a0 param w buf w1 get L G P N. unfold show_main. cbn [length Nat.ltb Nat.leb hd_error]. change (beq (str "all") (str "all")) with true. cbv iota. rewrite L.
  assert (X : forall names ret out, (forall n, In n names -> ugly_print E (get n) param true <> None) ->
    show_all E W B (Some param) names ret out w1 = (Exit (match names with [] => ret | _ => 0 end) (out ++ flat_map (fun n => match ugly_print E (get n) param true with Some t => t | None => [] end) names), w1)).
  { clear - G. induction names as [|n names IH]; intros ret out P; cbn [show_all flat_map]; [rewrite app_nil_r; reflexivity|]. rewrite G. change (0 <? 0) with false. cbv iota.
    destruct (ugly_print E (get n) param true) as [t|] eqn:U; [|exfalso; apply (P n); [left; reflexivity|exact U]]. rewrite IH by (intros m Hm; apply P; right; exact Hm). rewrite <- app_assoc.
    destruct names; reflexivity. }
  rewrite X by exact P. destruct (names_of buf); [congruence|reflexivity].
Qed.
(** A positive result without a device, which the interface to user space implementations can give (C25_unresolvable_is_positive), makes
    the command use a null pointer. *)
Theorem C32_positive_result_refuted : forall E W list_devices (B : backend W) a0 name w w1 r, 0 < r -> b_get B name w = (r, None, w1) ->
  ~ In name (map str ["all"; "interfaces"; "-h"; "--help"; "help"]%string) -> show_main E W list_devices B [a0; name] w = (NullPointer [], w1).
Proof.
  intros E W ld B a0 name w w1 r R G N. unfold show_main. cbn [length Nat.ltb Nat.leb]. cbn [map In] in N. rewrite !beq_ne by (intro X; apply N; rewrite X; tauto). cbn [andb orb]. rewrite G.
  destruct (Z.ltb_spec r 0); [lia|reflexivity].
Qed.

Example scopes_example : forall a s s', 0 < s < 2 ^ 32 -> 0 < s' < 2 ^ 32 -> se_scope env_show a s = se_scope env_show a s' -> s = s'.
Proof. intros a s s' H H' X. cbn [se_scope env_show] in X. apply dec_inj in X; lia. Qed.
Example dump_example : rows_of (dump_print env_show dev_show true) = map (map str)
  [["wg0"; "BQUFBQUFBQUFBQUFBQUFBQUFBQUFBQUFBQUFBQUFBQU="; "BAQEBAQEBAQEBAQEBAQEBAQEBAQEBAQEBAQEBAQEBAQ="; "51820"; "0xcafe"];
   ["wg0"; "AgICAgICAgICAgICAgICAgICAgICAgICAgICAgICAgI="; "(none)"; "(none)"; "(none)"; "0"; "0"; "0"; "off"];
   ["wg0"; "AQEBAQEBAQEBAQEBAQEBAQEBAQEBAQEBAQEBAQEBAQE="; "CQkJCQkJCQkJCQkJCQkJCQkJCQkJCQkJCQkJCQkJCQk="; "192.0.2.1:51820"; "10.0.0.0/8,2001::/16"; "1000"; "1536"; "10737418240"; "25"];
   ["wg0"; "AwMDAwMDAwMDAwMDAwMDAwMDAwMDAwMDAwMDAwMDAwM="; "(none)"; "[fe80::7%3]:1"; "10.1.0.0/16"; "90061"; "1"; "0"; "off"]]%string.
Proof. vm_compute. reflexivity. Qed.

Print Assumptions C32_dump.
Print Assumptions C32_columns.
Print Assumptions C32_allowed_ips.
Print Assumptions C32_other_refused.
Print Assumptions C32_recoverable.
Print Assumptions C32_all.
Print Assumptions C32_positive_result_refuted.
