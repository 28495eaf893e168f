(** The routing part of 'wg-quick up'. *)
From Coq Require Import String ZArith List Bool Lia.
From Verif Require Import Base Cstr CstrProofs Types Show Bash Quick QuickRun QuickRunSpec QuickRunProofs QuickUpProofs QuickRouteSpec QuickSpec Encoding EncodingSpec EncodingProofs ShowSpec TextProofs InetProofs ShowProofs ShowProofs2 PropDump QuickProofs.
Import ListNotations.
Open Scope Z_scope.

(** ** Text *)
Lemma no_nul_in : forall c s, In c (no_nul s) <-> In c s /\ c <> 0.
Proof.
  intros c s. unfold no_nul. rewrite filter_In. rewrite negb_true_iff, Z.eqb_neq. tauto.
Qed.
Lemma no_nul_app : forall a b, no_nul (a ++ b) = no_nul a ++ no_nul b.
Proof. intros. apply filter_app. Qed.
Lemma drop_while_all : forall f s, drop_while f s = [] <-> Forall (fun c => f c = true) s.
Proof.
  intros f s. induction s as [|c s IH]; [split; [constructor|reflexivity]|]. cbn [drop_while]. destruct (f c) eqn:E.
  - rewrite IH. split; intro H; [constructor; assumption|inversion H; assumption].
  - split; [discriminate|]. intro H. inversion H; congruence.
Qed.
Lemma captured_silent : forall out, captured out = [] <-> silent out.
Proof.
  intro out. unfold captured, rtrim, silent. split.
  - intro H. apply (f_equal (@rev Z)) in H. rewrite rev_involutive in H. cbn in H. apply drop_while_all in H.
    rewrite Forall_forall in H |- *. intros c Hc. destruct (Z.eq_dec c 0) as [->|N]; [auto|]. left.
    specialize (H c). rewrite <- in_rev in H. symmetry. apply Z.eqb_eq, H, no_nul_in. auto.
  - intro H. apply (f_equal (@rev Z)) with (y := []). apply drop_while_all. rewrite Forall_forall in H |- *. intros c Hc.
    apply in_rev in Hc. apply no_nul_in in Hc as [Hc N]. apply Z.eqb_eq. destruct (H c Hc); [congruence|contradiction].
Qed.
Lemma captured_line : forall s, ~ In 10 s -> ~ In 0 s -> captured (s ++ [10]) = s.
Proof.
  intros s H1 H2. unfold captured, rtrim. rewrite no_nul_app, (no_nul_id s H2). cbn [no_nul filter Z.eqb negb]. change (filter _ [10]) with [10].
  rewrite rev_app_distr. cbn [rev app drop_while]. change (10 =? 10) with true. cbv iota.
  destruct (rev s) as [|c r] eqn:E.
  - apply (f_equal (@rev Z)) in E. rewrite rev_involutive in E. rewrite E. reflexivity.
  - cbn [drop_while]. destruct (Z.eqb_spec 10 c) as [<-|N].
    + exfalso. apply H1. apply in_rev. rewrite E. left. reflexivity.
    + rewrite <- E. apply rev_involutive.
Qed.

Lemma take_digits_all : forall base s acc n v, num_value base acc s = Some v -> fst (fst (take_digits base acc n s)) = v.
Proof.
  intros base s. induction s as [|c s IH]; intros acc n v H; cbn [num_value take_digits] in *; [cbn; congruence|].
  destruct (digit_in base c); [|discriminate]. apply IH, H.
Qed.
Lemma printf_d_mark : forall m, 0 < m -> printf_d (mark_str m) = m.
Proof.
  intros m H. unfold mark_str. destruct (Z.eqb_spec m 0) as [->|_]; [lia|].
  change (fst (fst (take_digits 16 0 0 (print_hex m))) = m). apply take_digits_all, print_hex_value. lia.
Qed.

(** ** Honest histories *)
Section Honest.
Variable ifc : list Z.
Variable used : list Z -> Z -> Prop.
Notation honest := (honest ifc used).

Lemma honest_app : forall m h1 h2 m2, honest m (h1 ++ h2) m2 -> exists m1, honest m h1 m1 /\ honest m1 h2 m2.
Proof.
  intros m h1. revert m. induction h1 as [|[c a] h1 IH]; intros m h2 m2 H; [exists m; split; [constructor|exact H]|].
  inversion H as [|? ? ? m1 ? ? H1 H2 H3 H4]; subst. destruct (IH _ _ _ H4) as (m3 & H5 & H6). exists m3. split; [econstructor; eauto|exact H6].
Qed.
Lemma honest_pos : forall m h m', honest m h m' -> 0 <= m -> 0 <= m'.
Proof.
  intros m h m' H. induction H as [|m c a m1 h m2 H1 H2 H3 H4 IH]; intro Hm; [exact Hm|]. apply IH.
  destruct H3 as [(t & Ht & _ & _ & ->)|(_ & ->)]; [lia|exact Hm].
Qed.
Lemma honest_other : forall m c a m', honest m [(c, a)] m' -> (forall t, c <> set_mark ifc t) -> m' = m.
Proof.
  intros m c a m' H N. inversion H as [|? ? ? m1 ? ? H1 H2 H3 H4]; subst. inversion H4; subst.
  destruct H3 as [(t & _ & E & _)|(_ & E)]; [exfalso; exact (N t E)|exact E].
Qed.
Lemma honest_others : forall h, Forall (fun ev => forall t, fst ev <> set_mark ifc t) h -> forall m m', honest m h m' -> m' = m.
Proof.
  intros h H. induction H as [|[c a] h Hc H IH]; intros m m' Hh; [inversion Hh; reflexivity|].
  change ((c, a) :: h) with ([(c, a)] ++ h) in Hh. apply honest_app in Hh as (m1 & H1 & H2). apply honest_other in H1 as ->; [|exact Hc]. apply IH, H2.
Qed.
End Honest.

Section Routes.
Variable sys : system.
Variable fuel : nat.
Variable ifc : list Z.
Variable o : options.
Variable used : list Z -> Z -> Prop.
Notation honest := (honest ifc used).

Definition any (c : command) : Prop := True.
Ltac ask := split; [exact I|reflexivity].

Lemma get_fwmark_value : good any (get_fwmark sys ifc) (fun r h => changes h = [] /\ forall m m', 0 <= m -> honest m h m' ->
  m' = m /\ r = if m =? 0 then None else Some m).
Proof.
  unfold get_fwmark. fold (show_mark ifc). eapply good_bind; [apply run_ask; [exact I|reflexivity]|]. cbn beta. intros a h ->.
  assert (K : forall r, (forall m, 0 <= m -> a_status a = 0 -> a_output a = mark_str m ++ [10] -> r = if m =? 0 then None else Some m) ->
     good any (ret r) (fun r h2 => changes ([(show_mark ifc, a)] ++ h2) = [] /\ (forall m m', 0 <= m -> honest m ([(show_mark ifc, a)] ++ h2) m' -> m' = m /\ r = if m =? 0 then None else Some m))).
  { intros r Hr. apply good_ret. split; [reflexivity|]. intros m m' Hm Hh. rewrite app_nil_r in Hh. split.
    - apply honest_other in Hh; [exact Hh|discriminate].
    - inversion Hh as [|? ? ? m1 ? ? H1 H2 H3 H4]; subst. destruct (H1 eq_refl) as [S O]. apply Hr; assumption. }
  assert (CM : forall m, 0 <= m -> captured (mark_str m ++ [10]) = mark_str m).
  { intros m Hm. apply captured_line; unfold mark_str; destruct (m =? 0); try (cbn; intuition discriminate);
      rewrite in_app_iff; intros [Hi|Hi]; try (cbn in Hi; intuition discriminate);
      pose proof (print_hex_digits m Hm) as D; rewrite Forall_forall in D; specialize (D _ Hi); lia. }
  destruct (Z.eqb_spec (a_status a) 0) as [Z0|N]; cbn [negb].
  2:{ apply K. intros m _ S. contradiction. }
  destruct (beq (captured (a_output a)) [] || beq (captured (a_output a)) (str "off")) eqn:E.
  - apply K. intros m Hm _ O. rewrite O, CM in E by exact Hm. unfold mark_str in E. destruct (m =? 0); [reflexivity|]. discriminate E.
  - apply K. intros m Hm _ O. rewrite O, CM in * by exact Hm. destruct (Z.eqb_spec m 0) as [->|Nm]; [discriminate E|].
    rewrite printf_d_mark by lia. reflexivity.
Qed.

Lemma show_table_fact : forall f t a h m m', 0 <= t -> honest m ((show_table f t, a) :: h) m' -> m = 0 ->
  (captured (a_output a) <> [] <-> used f t) /\ honest 0 h m'.
Proof.
  intros f t a h m m' Ht H Hm. inversion H as [|? ? ? m1 ? ? H1 H2 H3 H4]; subst. split.
  - rewrite captured_silent. symmetry. apply (H2 eq_refl f t Ht eq_refl).
  - destruct H3 as [(x & _ & E & _)|(_ & ->)]; [discriminate E|]. exact H4.
Qed.

Lemma free_table_value : forall n t, 0 <= t -> good any (free_table sys n t) (fun t' h => changes h = [] /\ forall m', honest 0 h m' ->
  m' = 0 /\ t <= t' /\ ~ used (str "-4") t' /\ ~ used (str "-6") t' /\ forall k, t <= k < t' -> in_use used k).
Proof.
  induction n as [|n IH]; intros t Ht; cbn [free_table].
  - intro s. exists []. rewrite app_nil_r. split; [reflexivity|constructor].
  - fold (show_table (str "-4") t) (show_table (str "-6") t).
    eapply good_bind; [apply query_good; ask|]. cbn beta. intros r4 h1 (a & -> & ->).
    destruct (beq (captured (a_output a)) []) eqn:E4; cbn [negb].
    + apply beq_eq in E4. eapply good_bind; [apply query_good; ask|]. cbn beta. intros r6 h2 (b & -> & ->).
      destruct (beq (captured (a_output b)) []) eqn:E6; cbn [negb].
      * apply beq_eq in E6. apply good_ret. split; [reflexivity|]. intros m' Hh. cbn [app] in Hh.
        apply show_table_fact in Hh as [F4 Hh]; [|exact Ht|reflexivity]. apply show_table_fact in Hh as [F6 Hh]; [|exact Ht|reflexivity].
        inversion Hh; subst. split; [reflexivity|]. split; [lia|]. split; [rewrite <- F4; tauto|]. split; [rewrite <- F6; tauto|]. intros k Hk. lia.
      * apply beq_neq in E6. eapply good_conseq; [apply IH; lia|]. cbn beta. intros t' h _ (C & H). split; [exact C|]. intros m' Hh. cbn [app] in Hh.
        apply show_table_fact in Hh as [F4 Hh]; [|exact Ht|reflexivity]. apply show_table_fact in Hh as [F6 Hh]; [|exact Ht|reflexivity].
        destruct (H _ Hh) as (-> & H1 & H2 & H3 & H4). split; [reflexivity|]. split; [lia|]. split; [exact H2|]. split; [exact H3|].
        intros k Hk. destruct (Z.eq_dec k t) as [->|Nk]; [|apply H4; lia]. right. apply F6, E6.
    + apply beq_neq in E4. eapply good_conseq; [apply IH; lia|]. cbn beta. intros t' h _ (C & H). split; [exact C|]. intros m' Hh. cbn [app] in Hh.
      apply show_table_fact in Hh as [F4 Hh]; [|exact Ht|reflexivity].
      destruct (H _ Hh) as (-> & H1 & H2 & H3 & H4). split; [reflexivity|]. split; [lia|]. split; [exact H2|]. split; [exact H3|].
      intros k Hk. destruct (Z.eq_dec k t) as [->|Nk]; [|apply H4; lia]. left. apply F4, E4.
Qed.

Lemma set_mark_fact : forall t a m m', 0 < t -> a_status a = 0 -> honest m [(set_mark ifc t, a)] m' -> m' = t.
Proof.
  intros t a m m' Ht S H. inversion H as [|? ? ? m1 ? ? H1 H2 H3 H4]; subst. inversion H4; subst.
  destruct H3 as [(x & Hx & E & _ & ->)|(N & _)]; [|exfalso; exact (N t Ht eq_refl S)].
  injection E as E. symmetry. apply dec_inj; [lia|lia|exact E].
Qed.

Lemma choose_table_value : good any (choose_table sys fuel ifc true) (fun t h => forall m m', 0 <= m -> honest m h m' ->
  (0 < m /\ t = m /\ m' = m /\ changes h = []) \/ (m = 0 /\ first_free used t /\ m' = t /\ changes h = [set_mark ifc t])).
Proof.
  unfold choose_table. eapply good_bind; [apply get_fwmark_value|]. cbn beta. intros [t|] h1 (C1 & H1).
  - apply good_ret. intros m m' Hm Hh. rewrite app_nil_r in *. destruct (H1 _ _ Hm Hh) as (-> & E).
    destruct (Z.eqb_spec m 0) as [_|N]; [discriminate|]. injection E as ->. left. repeat split; auto; lia.
  - eapply good_bind; [apply free_table_value; lia|]. cbn beta. intros t h2 (C2 & H2).
    eapply good_bind; [apply step_good; [exact I|reflexivity]|]. cbn beta. intros _ h3 (_ & a & -> & Ha). apply good_ret.
    intros m m' Hm Hh. rewrite app_nil_r in *. apply honest_app in Hh as (m1 & G1 & Hh). apply honest_app in Hh as (m2 & G2 & G3).
    destruct (H1 _ _ Hm G1) as (-> & E). destruct (Z.eqb_spec m 0) as [->|N]; [|discriminate].
    destruct (H2 _ G2) as (-> & K1 & K2 & K3 & K4). right. split; [reflexivity|].
    split; [split; [exact K1|split; [intros [U|U]; contradiction|exact K4]]|].
    split; [|rewrite !changes_app, C1, C2; reflexivity]. apply (set_mark_fact t a 0 m'); [lia|exact Ha|exact G3].
Qed.

(** One command that does not touch the fwmark. *)
Lemma step_same : forall ws input, asks (mk_cmd ws input) = false -> (forall t, mk_cmd ws input <> set_mark ifc t) ->
  good any (step_in sys true ws input) (fun _ h => changes h = [mk_cmd ws input] /\ forall m m', honest m h m' -> m' = m).
Proof.
  intros ws input Ha N. eapply good_conseq; [apply step_good; [exact I|exact Ha]|]. cbn beta. intros _ h _ (_ & a & -> & _).
  split; [apply changes_step, Ha|]. intros m m' Hh. apply honest_other in Hh; assumption.
Qed.

Lemma add_default_value : forall r, good any (add_default sys fuel ifc true r) (fun _ h => forall m m', 0 <= m -> honest m h m' ->
  exists g, 0 < m' /\ default_commands ifc m' r g /\
    ((0 < m /\ m' = m /\ changes h = g) \/ (m = 0 /\ first_free used m' /\ changes h = set_mark ifc m' :: g))).
Proof.
  intro r. unfold add_default, step. eapply good_bind; [apply choose_table_value|]. cbn beta. intros t h0 H0.
  assert (P : proto r = str "-4" \/ proto r = str "-6") by apply proto_cases.
  eapply good_bind; [apply step_same; [destruct P as [-> | ->]; reflexivity|destruct P as [-> | ->]; discriminate]|]. cbn beta. intros _ h1 (C1 & H1).
  eapply good_bind; [apply step_same; [destruct P as [-> | ->]; reflexivity|destruct P as [-> | ->]; discriminate]|]. cbn beta. intros _ h2 (C2 & H2).
  eapply good_bind; [apply step_same; [destruct P as [-> | ->]; reflexivity|destruct P as [-> | ->]; discriminate]|]. cbn beta. intros _ h3 (C3 & H3).
  eapply good_bind with (Q := fun _ h => changes h = [] /\ forall m m', honest m h m' -> m' = m).
  { eapply good_conseq; [apply output_good; split; [exact I|destruct P as [-> | ->]; reflexivity]|]. cbn beta. intros out h _ (a & -> & _). split.
    - destruct P as [-> | ->]; reflexivity.
    - intros m m' Hh. apply honest_other in Hh; [exact Hh|discriminate]. }
  cbn beta. intros out h4 (C4 & H4).
  eapply good_bind with (Q := fun _ h => changes h = (if has_char 58 r then [] else [argv [str "sysctl"; str "-q"; str "net.ipv4.conf.all.src_valid_mark=1"]]) /\
                                        forall m m', honest m h m' -> m' = m).
  { destruct (has_char 58 r).
    - apply good_ret. split; [reflexivity|]. intros m m' Hh. inversion Hh. reflexivity.
    - apply step_same; [reflexivity|discriminate]. }
  cbn beta. intros _ h5 (C5 & H5).
  eapply good_bind with (Q := fun _ h => changes h = [] /\ forall m m', honest m h m' -> m' = m).
  { eapply good_conseq; [apply cond_good; ask|]. cbn beta. intros b h _ (a & -> & _). split; [reflexivity|].
    intros m m' Hh. apply honest_other in Hh; [exact Hh|discriminate]. }
  cbn beta. intros nft h6 (C6 & H6).
  eapply good_bind with (Q := fun _ h => (exists fw, firewall_load fw /\ changes h = [fw]) /\ forall m m', honest m h m' -> m' = m).
  { destruct nft.
    - eapply good_conseq; [apply step_same; [reflexivity|discriminate]|]. cbn beta. intros _ h _ (C & H). split; [|exact H]. eexists. split; [|exact C]. left. reflexivity.
    - eapply good_conseq; [apply step_same; [destruct (has_char 58 r); reflexivity|destruct (has_char 58 r); discriminate]|]. cbn beta. intros _ h _ (C & H).
      split; [|exact H]. eexists. split; [|exact C]. right. destruct (has_char 58 r); [right|left]; reflexivity. }
  cbn beta. intros _ h7 ((fw & F7 & C7) & H7). intro s. exists []. split; [symmetry; apply app_nil_r|]. split; [constructor|].
  intros m m' Hm Hh. rewrite app_nil_r in *.
  apply honest_app in Hh as (m0 & G0 & Hh). apply honest_app in Hh as (m1 & G1 & Hh). apply honest_app in Hh as (m2 & G2 & Hh).
  apply honest_app in Hh as (m3 & G3 & Hh). apply honest_app in Hh as (m4 & G4 & Hh). apply honest_app in Hh as (m5 & G5 & Hh).
  apply honest_app in Hh as (m6 & G6 & G7).
  apply H1 in G1 as ->. apply H2 in G2 as ->. apply H3 in G3 as ->. apply H4 in G4 as ->. apply H5 in G5 as ->. apply H6 in G6 as ->. apply H7 in G7 as ->.
  set (g := changes h1 ++ changes h2 ++ changes h3 ++ changes h5 ++ changes h7).
  assert (Eg : changes (h0 ++ h1 ++ h2 ++ h3 ++ h4 ++ h5 ++ h6 ++ h7) = changes h0 ++ g) by (unfold g; rewrite !changes_app, C4, C6; reflexivity).
  assert (Dg : t = m0 -> default_commands ifc m0 r g).
  { intros ->. exists (proto r), (changes h5), fw. split; [apply proto_family|]. split; [exact F7|]. split.
    - unfold proto in *. destruct (has_char 58 r); [left|right]; auto.
    - unfold g. rewrite C1, C2, C3, C7. cbn [app]. reflexivity. }
  exists g. destruct (H0 _ _ Hm G0) as [(K1 & K2 & K3 & K4)|(K1 & K2 & K3 & K4)].
  - split; [lia|]. split; [apply Dg; lia|]. left. split; [exact K1|]. split; [exact K3|]. rewrite Eg, K4. reflexivity.
  - subst t. split; [destruct K2; lia|]. split; [apply Dg; reflexivity|]. right. split; [exact K1|]. split; [exact K2|]. rewrite Eg, K4. reflexivity.
Qed.

Lemma ends_with_iff : forall p s, ends_with p s = true <-> exists a, s = a ++ p.
Proof.
  intros p s. induction s as [|c s IH]; cbn [ends_with].
  - rewrite orb_false_r, beq_eq. split; [intros ->; exists []; reflexivity|]. intros (a & E). destruct a; [exact (eq_sym E)|discriminate].
  - rewrite orb_true_iff, beq_eq, IH. split.
    + intros [-> |(a & ->)]; [exists []; reflexivity|exists (c :: a); reflexivity].
    + intros (a & E). destruct a as [|x a]; [left; exact (eq_sym E)|right]. injection E as -> ->. exists a. reflexivity.
Qed.

Lemma add_routes_value : auto_table o = true -> forall rs, good any (for_each (add_route sys fuel ifc o true) rs) (fun _ h => forall m m', 0 <= m -> honest m h m' ->
  routed ifc used m rs (changes h)).
Proof.
  intros Ho rs. induction rs as [|r rs IH]; cbn [for_each].
  - apply good_ret. intros. constructor.
  - unfold add_route at 1, step. rewrite Ho. cbn [negb].
    assert (Hoff : beq (o_table o) (str "off") = false).
    { unfold auto_table in Ho. apply orb_true_iff in Ho as [E|E]; apply beq_eq in E; rewrite E; reflexivity. }
    rewrite Hoff. destruct (ends_with (str "/0") r) eqn:Ed.
    + assert (Dr : is_default r) by (apply ends_with_iff, Ed).
      eapply good_bind; [apply add_default_value|]. cbn beta. intros _ h1 H1.
      eapply good_conseq; [apply IH|]. cbn beta. intros _ h2 _ H2 m m' Hm Hh. apply honest_app in Hh as (m1 & G1 & G2).
      destruct (H1 _ _ Hm G1) as (g & Hp & Hd & [(K1 & -> & K3)|(-> & K2 & K3)]); rewrite changes_app, K3.
      * apply rt_later; auto. apply (H2 _ m'); [lia|exact G2].
      * apply (rt_first ifc used m1); auto. apply (H2 _ m'); [lia|exact G2].
    + assert (Dr : ~ is_default r) by (intro D; apply ends_with_iff in D; congruence).
      assert (P : proto r = str "-4" \/ proto r = str "-6") by apply proto_cases.
      eapply good_bind with (Q := fun _ h => (changes h = [] \/ exists c, plain_route ifc r c /\ changes h = [c]) /\ forall m m', honest m h m' -> m' = m).
      * eapply good_bind; [apply query_good; split; [exact I|destruct P as [-> | ->]; reflexivity]|]. cbn beta. intros out h1 (a & -> & _).
        match goal with |- context [changes ([(?c, a)] ++ _)] => set (c0 := c) end.
        assert (C0 : changes [(c0, a)] = []) by (unfold c0; destruct P as [-> | ->]; reflexivity).
        assert (N0 : forall m m', honest m [(c0, a)] m' -> m' = m) by (intros m m' Hh; apply honest_other in Hh; [exact Hh|discriminate]).
        destruct (beq out []).
        -- eapply good_conseq; [apply step_same; [destruct P as [-> | ->]; reflexivity|discriminate]|]. cbn beta. intros _ h2 _ (C2 & H2).
           split; [right; eexists; split; [exists (proto r); split; [apply proto_family|reflexivity]|rewrite changes_app, C0, C2; reflexivity]|].
           intros m m' Hh. apply honest_app in Hh as (m1 & G1 & G2). apply N0 in G1 as ->. apply H2, G2.
        -- apply good_ret. rewrite app_nil_r. split; [left; exact C0|exact N0].
      * cbn beta. intros _ h1 (C1 & H1). eapply good_conseq; [apply IH|]. cbn beta. intros _ h2 _ H2 m m' Hm Hh. apply honest_app in Hh as (m1 & G1 & G2).
        apply H1 in G1 as ->. rewrite changes_app. apply rt_other; [exact Dr|exact C1|]. apply (H2 _ m'); [exact Hm|exact G2].
Qed.

(** ** The search ends *)
Definition ends {A} (m : prog A) (P : history -> Prop) : Prop := forall s s1, m s = Loops s1 -> exists h, sh_hist s1 = sh_hist s ++ h /\ P h.
Lemma ends_bind : forall A B (m : prog A) (f : A -> prog B) Q P, good any m Q -> ends m P ->
  (forall a h1, Q a h1 -> ends (f a) (fun h2 => P (h1 ++ h2))) -> ends (bind m f) P.
Proof.
  intros A B m f Q P Hg Hm Hf s s1 E. unfold bind in E. specialize (Hg s). specialize (Hm s). destruct (m s) as [a s2|st s2|st s2|s2]; try discriminate.
  - destruct Hg as (h1 & E1 & _ & HQ). destruct (Hf a h1 HQ s2 s1 E) as (h2 & E2 & HP). exists (h1 ++ h2). rewrite E2, E1, app_assoc. auto.
  - apply Hm. injection E as ->. reflexivity.
Qed.
Lemma ends_never : forall A (m : prog A) P, (forall s s1, m s <> Loops s1) -> ends m P.
Proof. intros A m P H s s1 E. exfalso. exact (H s s1 E). Qed.
Lemma run_never : forall c s s1, run sys c s <> Loops s1.
Proof. intros c s s1. unfold run. destruct (a_signal _); discriminate. Qed.
Lemma bind_never : forall A B (m : prog A) (f : A -> prog B), (forall s s1, m s <> Loops s1) -> (forall a s s1, f a s <> Loops s1) ->
  forall s s1, bind m f s <> Loops s1.
Proof. intros A B m f Hm Hf s s1. unfold bind. specialize (Hm s). destruct (m s) as [a s2|st s2|st s2|s2]; try discriminate; [apply Hf|]. intro E. apply (Hm s1). injection E as ->. reflexivity. Qed.
Ltac never := repeat (apply bind_never; [first [apply run_never | idtac]|intro]); try discriminate; try (intros; discriminate).
Lemma step_never : forall ws input s s1, step_in sys true ws input s <> Loops s1.
Proof. intros ws input. unfold step_in. apply bind_never; [apply run_never|]. intros a s s1. destruct (_ && _); discriminate. Qed.
Lemma query_never : forall ws s s1, query sys ws s <> Loops s1.
Proof. intros ws. unfold query. apply bind_never; [apply run_never|]. discriminate. Qed.
Lemma output_never : forall ws s s1, output sys ws s <> Loops s1.
Proof. intros ws. unfold output. apply bind_never; [apply run_never|]. discriminate. Qed.
Lemma cond_never : forall ws s s1, cond sys ws s <> Loops s1.
Proof. intros ws. unfold cond. apply bind_never; [apply run_never|]. discriminate. Qed.
Lemma get_fwmark_never : forall s s1, get_fwmark sys ifc s <> Loops s1.
Proof. unfold get_fwmark. apply bind_never; [apply run_never|]. intros a s s1. destruct (negb _); [discriminate|]. destruct (_ || _); discriminate. Qed.

Lemma free_table_ends : forall n t, 0 <= t -> ends (free_table sys n t) (fun h => forall m', honest 0 h m' -> forall k, t <= k < t + Z.of_nat n -> in_use used k).
Proof.
  induction n as [|n IH]; intros t Ht; cbn [free_table].
  - intros s s1 E. injection E as <-. exists []. split; [symmetry; apply app_nil_r|]. intros m' _ k Hk. lia.
  - fold (show_table (str "-4") t) (show_table (str "-6") t).
    eapply ends_bind; [apply query_good; ask|apply ends_never, query_never|]. cbn beta. intros r4 h1 (a & -> & ->).
    destruct (beq (captured (a_output a)) []) eqn:E4; cbn [negb].
    + apply beq_eq in E4. eapply ends_bind; [apply query_good; ask|apply ends_never, query_never|]. cbn beta. intros r6 h2 (b & -> & ->).
      destruct (beq (captured (a_output b)) []) eqn:E6; cbn [negb]; [apply ends_never; discriminate|].
      apply beq_neq in E6. intros s s1 E. destruct (IH (t + 1) ltac:(lia) s s1 E) as (h & Eh & H). exists h. split; [exact Eh|]. intros m' Hh k Hk. cbn [app] in Hh.
      apply show_table_fact in Hh as [F4 Hh]; [|exact Ht|reflexivity]. apply show_table_fact in Hh as [F6 Hh]; [|exact Ht|reflexivity].
      destruct (Z.eq_dec k t) as [->|Nk]; [right; apply F6, E6|]. apply (H _ Hh). lia.
    + apply beq_neq in E4. intros s s1 E. destruct (IH (t + 1) ltac:(lia) s s1 E) as (h & Eh & H). exists h. split; [exact Eh|]. intros m' Hh k Hk. cbn [app] in Hh.
      apply show_table_fact in Hh as [F4 Hh]; [|exact Ht|reflexivity].
      destruct (Z.eq_dec k t) as [->|Nk]; [left; apply F4, E4|]. apply (H _ Hh). lia.
Qed.

Definition exhausted (h : history) : Prop := forall m m', 0 <= m -> honest m h m' -> forall k, 51820 <= k < 51820 + Z.of_nat fuel -> in_use used k.
Lemma exhausted_after : forall h1 h2, exhausted h2 -> exhausted (h1 ++ h2).
Proof. intros h1 h2 H m m' Hm Hh. apply honest_app in Hh as (m1 & G1 & G2). apply (H m1 m'); [eapply honest_pos; eauto|exact G2]. Qed.
Lemma ends_conseq : forall A (m : prog A) (P R : history -> Prop), ends m P -> (forall h, P h -> R h) -> ends m R.
Proof. intros A m P R H HR s s1 E. destruct (H s s1 E) as (h & Eh & HP). exists h. auto. Qed.

Lemma add_default_ends : forall r, ends (add_default sys fuel ifc true r) exhausted.
Proof.
  intro r. unfold add_default, step. eapply ends_bind; [apply choose_table_value| |].
  - unfold choose_table. eapply ends_bind; [apply get_fwmark_value|apply ends_never, get_fwmark_never|]. cbn beta. intros [t|] h1 (_ & H1); [apply ends_never; discriminate|].
    eapply ends_bind with (Q := fun _ _ => True).
    + eapply good_conseq; [apply free_table_value; lia|]. auto.
    + eapply ends_conseq; [apply free_table_ends; lia|]. cbn beta. intros h H m m' Hm Hh k Hk. apply honest_app in Hh as (m1 & G1 & G2).
      destruct (H1 _ _ Hm G1) as (-> & E). destruct (Z.eqb_spec m 0) as [->|N]; [|discriminate]. apply (H _ G2 k Hk).
    + intros t h _. apply ends_never. unfold step. apply bind_never; [apply step_never|discriminate].
  - intros t h _. apply ends_never.
    apply bind_never; [apply step_never|intro]. apply bind_never; [apply step_never|intro]. apply bind_never; [apply step_never|intro].
    apply bind_never; [apply output_never|intro]. apply bind_never; [destruct (has_char 58 r); [discriminate|apply step_never]|intro].
    apply bind_never; [apply cond_never|intro]. apply bind_never; [match goal with |- context [if ?b then _ else _] => destruct b end; apply step_never|intro].
    discriminate.
Qed.

Lemma add_routes_ends : forall rs, ends (for_each (add_route sys fuel ifc o true) rs) exhausted.
Proof.
  assert (D : forall r, good any (add_route sys fuel ifc o true r) (fun _ _ => True)).
  { intro r. unfold add_route, step. destruct (beq _ _); [apply good_ret; exact I|].
    assert (P : proto r = str "-4" \/ proto r = str "-6") by apply proto_cases.
    destruct (negb _).
    - eapply good_conseq; [apply step_good; [exact I|destruct P as [-> | ->]; reflexivity]|]. auto.
    - destruct (ends_with _ _); [eapply good_conseq; [apply add_default_value|]; auto|].
      eapply good_bind; [apply query_good; split; [exact I|destruct P as [-> | ->]; reflexivity]|]. intros out h _. cbn beta.
      destruct (beq out []); [|apply good_ret; exact I]. eapply good_conseq; [apply step_good; [exact I|destruct P as [-> | ->]; reflexivity]|]. auto. }
  assert (E : forall r, ends (add_route sys fuel ifc o true r) exhausted).
  { intro r. unfold add_route, step. destruct (beq _ _); [apply ends_never; discriminate|]. destruct (negb _); [apply ends_never, step_never|].
    destruct (ends_with _ _); [apply add_default_ends|]. apply ends_never. apply bind_never; [apply query_never|]. intros out s s1.
    destruct (beq out []); [apply step_never|discriminate]. }
  induction rs as [|r rs IH]; cbn [for_each]; [apply ends_never; discriminate|].
  eapply ends_bind; [apply D|apply E|]. intros _ h1 _. eapply ends_conseq; [apply IH|]. intros h. apply exhausted_after.
Qed.
End Routes.

(** ** Word splitting *)
Definition token (w : list Z) : Prop := w <> [] /\ Forall (fun c => ifsb c = false) w.
Lemma words_sep : forall s cur c t, ifsb c = true -> words_go cur (s ++ c :: t) = words_go cur s ++ words_go [] t.
Proof.
  induction s as [|x s IH]; intros cur c t Hc; cbn [app words_go].
  - rewrite Hc. reflexivity.
  - destruct (ifsb x); [rewrite IH by exact Hc; rewrite app_assoc; reflexivity|apply IH, Hc].
Qed.
Lemma words_tok_go : forall w cur, Forall (fun c => ifsb c = false) w -> words_go cur w = match rev cur ++ w with [] => [] | x => [x] end.
Proof.
  induction w as [|c w IH]; intros cur H; cbn [words_go].
  - rewrite app_nil_r. destruct cur as [|x cur]; [reflexivity|]. destruct (rev (x :: cur)) eqn:E; [|reflexivity].
    apply (f_equal (@length Z)) in E. rewrite rev_length in E. discriminate.
  - inversion H; subst. rewrite H2. rewrite IH by assumption. cbn [rev]. rewrite <- app_assoc. reflexivity.
Qed.
Lemma words_token : forall w, token w -> words w = [w].
Proof. intros w [N H]. unfold words. rewrite words_tok_go by exact H. cbn [rev app]. destruct w; [contradiction|reflexivity]. Qed.
Lemma words_glue : forall ws, Forall token ws -> words (glue [32] ws) = ws.
Proof.
  intros ws H. induction H as [|w ws Hw H IH]; [reflexivity|]. destruct ws as [|v ws].
  - apply words_token, Hw.
  - change (glue [32] (w :: v :: ws)) with (w ++ 32 :: glue [32] (v :: ws)). unfold words in *. rewrite words_sep by reflexivity. rewrite IH. change (words_go [] w) with (words w). rewrite words_token by exact Hw. reflexivity.
Qed.
Lemma words_unlines : forall ws, Forall token ws -> words (unlines ws) = ws.
Proof.
  intros ws H. induction H as [|w ws Hw H IH]; [reflexivity|]. unfold unlines in *. cbn [map concat]. rewrite <- app_assoc. cbn [app].
  unfold words in *. rewrite words_sep by reflexivity. rewrite IH. change (words_go [] w) with (words w). rewrite words_token by exact Hw. reflexivity.
Qed.
Lemma words_ifs : forall b, Forall (fun c => ifsb c = true) b -> words b = [].
Proof. intros b H. induction H as [|c b Hc H IH]; [reflexivity|]. unfold words in *. cbn [words_go]. rewrite Hc. exact IH. Qed.
Lemma words_app_ifs : forall s b, Forall (fun c => ifsb c = true) b -> words (s ++ b) = words s.
Proof.
  intros s b H. destruct H as [|c b Hc H]; [rewrite app_nil_r; reflexivity|]. unfold words. rewrite words_sep by exact Hc.
  change (words_go [] b) with (words b). rewrite (words_ifs b H). apply app_nil_r.
Qed.
Lemma words_captured : forall s, ~ In 0 s -> words (captured s) = words s.
Proof.
  intros s H. unfold captured. rewrite no_nul_id by exact H. destruct (rtrim_split (Z.eqb 10) s) as (b & E & Hb & _). rewrite E at 2.
  symmetry. apply words_app_ifs. eapply Forall_impl; [|exact Hb]. intros c Hc. apply Z.eqb_eq in Hc as <-. reflexivity.
Qed.

(** ** The routes of a device *)
Lemma trim_id : forall s x y u v, s = x :: u -> s = v ++ [y] -> blankb x = false -> blankb y = false -> trim blankb s = s.
Proof.
  intros s x y u v E1 E2 Hx Hy. symmetry. apply (trimmed_iff blankb blank blankb_blank). exists [], []. rewrite app_nil_r. split; [reflexivity|].
  split; [constructor|]. split; [constructor|]. right. exists x, y, u, v. split; [exact E1|]. split; [exact E2|].
  rewrite <- !blankb_blank. split; congruence.
Qed.

Lemma read_complete_unlines : forall ls, Forall (fun l => ~ In 10 l) ls -> Forall (fun l => ~ In 0 l) ls ->
  read_complete (unlines ls) = map (trim blankb) ls.
Proof.
  intros ls H1 H2. unfold read_complete, raw_lines. rewrite no_nul_id.
  - pose proof (split_all_lines ls [] H1 (fun x => x)) as E. rewrite app_nil_r in E. unfold unlines. rewrite E. cbn [fst]. rewrite removelast_last. reflexivity.
  - unfold unlines. intro Hi. apply in_concat in Hi as (x & Hx & Hi). apply in_map_iff in Hx as (l & <- & Hl). rewrite Forall_forall in H2.
    apply in_app_or in Hi as [Hi|[Hi|[]]]; [apply (H2 l Hl Hi)|discriminate].
Qed.

Lemma visible_token : forall t, t <> [] -> visible t -> token t.
Proof.
  intros t N V. split; [exact N|]. eapply Forall_impl; [|exact V]. intros c Hc. cbv beta in Hc. unfold ifsb, blankb.
  destruct (Z.eqb_spec c 32), (Z.eqb_spec c 9), (Z.eqb_spec c 10); try reflexivity; lia.
Qed.
Lemma visible_no0 : forall t, visible t -> ~ In 0 t /\ ~ In 10 t.
Proof. intros t V. unfold visible in V. rewrite Forall_forall in V. split; intro Hi; specialize (V _ Hi); cbv beta in V; lia. Qed.

Lemma aip_addr : forall a, wf_aip a -> ip_str a <> [] /\ Forall addr_char (ip_str a) /\ 0 <= a_cidr a.
Proof.
  intros [fam ip c] W. unfold wf_aip in W. cbn [a_family a_ip a_cidr] in *. unfold ip_str. cbn [a_family a_ip].
  destruct W as [(-> & L & B & H)|(-> & L & B & H)].
  - change (AF_INET =? AF_INET) with true. cbv iota. split; [|split; [apply ntop4_addr, B|lia]].
    apply ntop4_ne. split; assumption.
  - change (AF_INET6 =? AF_INET) with false. change (AF_INET6 =? AF_INET6) with true. cbv iota. split; [|split; [apply ntop6_chars, B|lia]].
    assert (Ba : bytes_n 16 ip) by (split; assumption). pose proof (ntop6_colon_in ip Ba) as Hi. intro E. rewrite E in Hi. destruct Hi.
Qed.

(** A line of "wg show INTERFACE allowed-ips". *)
Definition aips_line (p : peer) : list Z := rfc4648 (p_pub p) ++ 9 :: match p_aips p with [] => str "(none)" | l => glue [32] (map aip_text l) end.
Lemma join_is_glue : forall l : list (list Z), join [32] l = glue [32] l.
Proof. induction l as [|x l IH]; [reflexivity|]. destruct l as [|y l]; [reflexivity|]. rewrite join_cons2, IH. reflexivity. Qed.
Lemma aips_output : forall E d, wf_device d -> ugly_print E d (str "allowed-ips") false = Some (unlines (map aips_line (d_peers d))).
Proof.
  intros E d (_ & _ & _ & _ & W).
  change (ugly_print E d (str "allowed-ips") false) with
    (Some (flat_map (fun p => [] ++ key_to_base64 (p_pub p) ++ tab ++ (match p_aips p with [] => str "(none)" ++ [10] | l => list_aips 32 10 l end)) (d_peers d))).
  f_equal. unfold unlines. induction W as [|p l Hp W IH]; [reflexivity|]. cbn [flat_map map concat]. rewrite IH. f_equal. clear IH.
  destruct Hp as (Hk & _). rewrite key_to_base64_rfc by exact Hk. unfold aips_line. cbn [app]. rewrite <- app_assoc. f_equal. cbn [app]. unfold tab. cbn [app]. f_equal.
  destruct (p_aips p) as [|a al]; [reflexivity|]. rewrite list_aips_join by discriminate. rewrite join_is_glue. reflexivity.
Qed.

Lemma aip_text_token : forall a, wf_aip a -> token (aip_text a) /\ visible (aip_text a).
Proof.
  intros a W. destruct (aip_visible a W) as (V & _). split; [|exact V]. apply visible_token; [|exact V]. intro E. apply app_eq_nil in E as [_ E]. discriminate.
Qed.
Lemma aip_text_plain : forall a, wf_aip a -> plain_word (aip_text a).
Proof.
  intros a W. destruct (aip_addr a W) as (_ & A & P). apply Forall_app. split; [|constructor].
  - eapply Forall_impl; [|exact A]. intros c Hc Hi. unfold TextProofs.addr_char in Hc. cbn in Hi. intuition lia.
  - cbn. intuition lia.
  - eapply Forall_impl; [|apply print_dec_digits, P]. intros c Hc Hi. cbn in Hc, Hi. intuition lia.
Qed.
Lemma split_first_at : forall c a b, ~ In c a -> split_first c (a ++ c :: b) = Some (a, b).
Proof.
  intros c a b. induction a as [|x a IH]; intro H; cbn [app split_first]; [rewrite Z.eqb_refl; reflexivity|].
  destruct (Z.eqb_spec x c) as [->|N]; [exfalso; apply H; left; reflexivity|]. rewrite IH; [reflexivity|]. intro Hi. apply H. right. exact Hi.
Qed.
Lemma aip_text_route : forall a, wf_aip a -> route_word (aip_text a) = true.
Proof.
  intros a W. destruct (aip_addr a W) as (N & A & P). unfold route_word, aip_text. rewrite split_first_at.
  2:{ apply (not_in_by _ _ _ A). unfold TextProofs.addr_char. lia. }
  assert (D : forallb digit (print_dec (a_cidr a)) = true).
  { apply forallb_forall. intros c Hc. pose proof (print_dec_digits _ P) as Q. rewrite Forall_forall in Q. specialize (Q c Hc). cbv beta in Q. unfold digit. lia. }
  assert (D1 : forallb (fun c => digit c || ((97 <=? c) && (c <=? 122)) || (c =? 58) || (c =? 46)) (ip_str a) = true).
  { apply forallb_forall. intros c Hc. rewrite Forall_forall in A. specialize (A c Hc). unfold TextProofs.addr_char in A. unfold digit. lia. }
  rewrite D, D1. cbn [andb]. assert (print_dec (a_cidr a) <> []).
  { intro E. pose proof (print_dec_value _ P) as Q. rewrite E in Q. cbn in Q. injection Q as Q.
    unfold print_dec in E. rewrite <- Q in E. discriminate. }
  apply beq_neq in N, H. rewrite N, H. reflexivity.
Qed.

Lemma second_field_tab : forall k v, token k -> (exists x u, v = x :: u /\ blankb x = false) -> second_field (k ++ 9 :: v) = v.
Proof.
  intros k v [_ H] (x & u & -> & Hx). unfold second_field.
  assert (E : drop_while (fun c => negb (blankb c)) (k ++ 9 :: x :: u) = 9 :: x :: u).
  { induction H as [|c k Hc H IH]; [reflexivity|]. cbn [app drop_while]. unfold ifsb in Hc. apply orb_false_iff in Hc as [Hc _]. rewrite Hc. exact IH. }
  rewrite E. unfold ltrim. cbn [drop_while]. change (blankb 9) with true. cbv iota. rewrite Hx. reflexivity.
Qed.

Lemma last_split : forall (t : list Z), t <> [] -> exists v y, t = v ++ [y].
Proof. intros t N. destruct (exists_last N) as (v & y & E). eauto. Qed.

(** The words of the output are the routes of the device. *)
Lemma route_lines_device : forall glob E d out, glob_plain glob -> glob (str "(none)") = [str "(none)"] -> wf_device d ->
  ugly_print E d (str "allowed-ips") false = Some out -> route_lines glob (read_complete out) = device_routes d.
Proof.
  intros glob E d out Hg Hn W Ho. rewrite (aips_output E d W) in Ho. injection Ho as <-. destruct W as (_ & _ & _ & _ & W).
  assert (V : Forall (fun p => let v := match p_aips p with [] => str "(none)" | l => glue [32] (map aip_text l) end in
              ~ In 0 v /\ ~ In 10 v /\ (exists x u, v = x :: u /\ blankb x = false) /\ (exists u y, v = u ++ [y] /\ blankb y = false) /\
              filter route_word (expand glob v) = map aip_text (p_aips p)) (d_peers d)).
  { eapply Forall_impl; [|exact W]. cbv zeta. intros p (_ & _ & _ & _ & Wa & _). destruct (p_aips p) as [|a al] eqn:Ea.
    - split; [cbn; intuition discriminate|]. split; [cbn; intuition discriminate|]. split; [exists 40, (str "none)"); auto|].
      split; [exists (str "(none"), 41; auto|]. unfold expand. rewrite (words_token (str "(none)")) by (apply visible_token; [discriminate|apply visible_b; reflexivity]).
      cbn [flat_map]. rewrite Hn. reflexivity.
    - rewrite <- Ea in *. assert (Ne : p_aips p <> []) by congruence. clear Ea a al.
      assert (T : Forall token (map aip_text (p_aips p))).
      { apply Forall_forall. intros t Ht. apply in_map_iff in Ht as (a & <- & Ha). rewrite Forall_forall in Wa. apply aip_text_token, Wa, Ha. }
      assert (G : forall l, l <> [] -> Forall wf_aip l -> ~ In 0 (glue [32] (map aip_text l)) /\ ~ In 10 (glue [32] (map aip_text l)) /\
                 (exists x u, glue [32] (map aip_text l) = x :: u /\ blankb x = false) /\ (exists u y, glue [32] (map aip_text l) = u ++ [y] /\ blankb y = false)).
      { clear. intros l Nl Wl. induction Wl as [|a l Ha Wl IH]; [contradiction|]. destruct (aip_text_token a Ha) as ([Nt Tt] & V). destruct (visible_no0 _ V) as [V0 V1].
        assert (H1 : exists x u, aip_text a = x :: u /\ blankb x = false).
        { destruct (aip_text a) as [|x u]; [contradiction|]. inversion Tt; subst. exists x, u. split; [reflexivity|]. unfold ifsb in *. apply orb_false_iff in H1 as [H1 _]. exact H1. }
        destruct l as [|b l].
        - cbn [map glue]. split; [exact V0|]. split; [exact V1|]. split; [exact H1|]. destruct (last_split _ Nt) as (u & y & Ey). exists u, y. split; [exact Ey|].
          rewrite Ey in Tt. apply Forall_app in Tt as [_ Tt]. inversion Tt; subst. unfold ifsb in *. apply orb_false_iff in H2 as [H2 _]. exact H2.
        - destruct IH as (I0 & I1 & _ & (u & y & Iy & Hy)); [discriminate|].
          change (glue [32] (map aip_text (a :: b :: l))) with (aip_text a ++ 32 :: glue [32] (map aip_text (b :: l))).
          split; [rewrite in_app_iff; cbn [In]; intuition discriminate|]. split; [rewrite in_app_iff; cbn [In]; intuition discriminate|]. split.
          + destruct H1 as (x & v & Ex & Hx). exists x. eexists. split; [rewrite Ex; reflexivity|exact Hx].
          + exists (aip_text a ++ 32 :: u), y. split; [rewrite Iy, <- app_assoc; reflexivity|exact Hy]. }
      destruct (G (p_aips p) Ne Wa) as (G0 & G1 & G2 & G3).
      split; [exact G0|]. split; [exact G1|]. split; [exact G2|]. split; [exact G3|].
      unfold expand. rewrite words_glue by exact T. clear - Wa Hg. induction Wa as [|a l Ha Wl IH]; [reflexivity|]. cbn [map flat_map].
      rewrite Hg by (apply aip_text_plain, Ha). cbn [app filter]. rewrite aip_text_route by exact Ha. f_equal. exact IH. }
  assert (K : Forall (fun p => visible (rfc4648 (p_pub p)) /\ rfc4648 (p_pub p) <> []) (d_peers d)).
  { eapply Forall_impl; [|exact W]. intros p (Hk & _). split; [apply key_visible, Hk|]. destruct Hk as [L _]. destruct (p_pub p) as [|a [|b [|c k]]]; discriminate. }
  rewrite read_complete_unlines.
  - unfold route_lines, device_routes. induction (d_peers d) as [|p l IH]; [reflexivity|].
    inversion W; subst. inversion V; subst. inversion K; subst. cbn [map flat_map]. rewrite filter_app, IH by assumption. f_equal.
    destruct H3 as (V0 & V1 & (x & u & Ex & Hx) & (w & y & Ey & Hy) & Hf). destruct H5 as (Kv & Kn). unfold aips_line.
    set (v := match p_aips p with [] => str "(none)" | l => glue [32] (map aip_text l) end) in *.
    destruct (visible_token _ Kn Kv) as [_ Kt].
    rewrite (trim_id _ (hd 0 (rfc4648 (p_pub p))) y (tl (rfc4648 (p_pub p)) ++ 9 :: v) (rfc4648 (p_pub p) ++ 9 :: w)).
    + rewrite second_field_tab; [exact Hf|split; assumption|exists x, u; auto].
    + destruct (rfc4648 (p_pub p)); [contradiction|reflexivity].
    + rewrite <- app_assoc. cbn [app]. rewrite Ey. reflexivity.
    + destruct (rfc4648 (p_pub p)) as [|c k]; [contradiction|]. inversion Kt; subst. cbn [hd]. unfold ifsb in *. apply orb_false_iff in H3 as [H3 _]. exact H3.
    + exact Hy.
  - apply Forall_forall. intros t Ht. apply in_map_iff in Ht as (p & <- & Hp). rewrite Forall_forall in V, K. destruct (V p Hp) as (_ & V1 & _). destruct (K p Hp) as (Kv & _).
    unfold aips_line. rewrite in_app_iff. intros [Hi|[Hi|Hi]]; [apply (proj2 (visible_no0 _ Kv) Hi)|discriminate|exact (V1 Hi)].
  - apply Forall_forall. intros t Ht. apply in_map_iff in Ht as (p & <- & Hp). rewrite Forall_forall in V, K. destruct (V p Hp) as (V0 & _ & _). destruct (K p Hp) as (Kv & _).
    unfold aips_line. rewrite in_app_iff. intros [Hi|[Hi|Hi]]; [apply (proj1 (visible_no0 _ Kv) Hi)|discriminate|exact (V0 Hi)].
Qed.
