(** wg-quick up. *)
From Coq Require Import String ZArith List Bool Lia.
From Verif Require Import Base Cstr Bash Quick QuickRun QuickRunSpec QuickRunProofs.
Import ListNotations.
Open Scope Z_scope.

Section Up.
Variable sys : system.
Variable glob : list Z -> list (list Z).
Variable fuel : nat.
Variable ifc : list Z.
Variable o : options.
Variable us : list Z.

Hypothesis Hus : known us = false.
(** Neither the creation nor the deletion of the interface. *)
Definition nodel (c : command) : Prop := c <> link_delete ifc /\ c <> link_add ifc /\ c <> start_userspace us ifc.
Lemma nodel_argv : forall w ws input, known w = true -> begins [str "ip"; str "link"; str "delete"] (w :: ws) = false ->
  begins [str "ip"; str "link"; str "add"] (w :: ws) = false -> nodel (mk_cmd (w :: ws) input).
Proof.
  intros w ws input Hk Hd Ha. split; [intro E; injection E as -> E _; subst; discriminate Hd|].
  split; intro E; injection E as -> E _; [subst; discriminate Ha|congruence].
Qed.
Ltac ask := split; [apply nodel_argv; reflexivity|reflexivity].
Ltac st := first [apply nodel_argv; reflexivity | reflexivity].

(** The commands of the simple phases. *)
Definition hook_cmd (h : list Z) : command := argv [str "eval"; hook_text ifc h].
Definition addr_cmd (a : list Z) : command := argv [str "ip"; proto a; str "address"; str "add"; a; str "dev"; ifc].
Definition setconf_cmd : command := mk_cmd [str "wg"; str "setconf"; ifc; str "/dev/fd/63"] (handed o).

Lemma for_each_one : forall A (f : A -> prog Z) (c : A -> command),
  (forall x, good nodel (f x) (fun _ h => changes h = [c x])) ->
  forall l, good nodel (for_each f l) (fun _ h => changes h = map c l).
Proof.
  intros A f c H l. eapply good_conseq; [apply (for_each_good _ nodel f (fun x h => changes h = [c x]) H)|]. cbn beta.
  intros _ h _ (hs & H2 & ->). induction H2 as [|x h l hs Hx H2 IH]; [reflexivity|]. cbn [concat map]. rewrite changes_app, Hx, IH. reflexivity.
Qed.

Lemma step_one : forall ws input, nodel (mk_cmd ws input) -> asks (mk_cmd ws input) = false ->
  good nodel (step_in sys true ws input) (fun _ h => changes h = [mk_cmd ws input]).
Proof.
  intros ws input H1 H2. eapply good_conseq; [apply step_good; assumption|]. cbn beta. intros _ h _ (_ & a & -> & _). apply changes_step, H2.
Qed.

Lemma hooks_good : forall hooks, good nodel (execute_hooks sys ifc true hooks) (fun _ h => changes h = map hook_cmd hooks).
Proof. intro hooks. unfold execute_hooks. apply for_each_one. intro x. apply step_one; st. Qed.
Lemma set_config_good : good nodel (set_config sys ifc o true) (fun _ h => changes h = [setconf_cmd]).
Proof. apply step_one; st. Qed.
Lemma addrs_good : forall l, good nodel (for_each (add_addr sys ifc true) l) (fun _ h => changes h = map addr_cmd l).
Proof.
  intro l. apply for_each_one. intro x. unfold add_addr, step. apply step_one; destruct (proto_cases x) as [E|E]; rewrite E; st.
Qed.

(** The MTU. *)
Definition mtu_cmd (c : command) : Prop := exists n, c = argv [str "ip"; str "link"; str "set"; str "mtu"; n; str "up"; str "dev"; ifc].
Lemma route_mtu_good : forall out, good nodel (route_mtu sys out) (fun _ h => changes h = []).
Proof.
  intro out. unfold route_mtu. destruct (mtu_field out); [apply good_ret; reflexivity|]. destruct (dev_field out) as [d|]; [|apply good_ret; reflexivity].
  eapply good_bind; [apply query_good; ask|]. cbn beta. intros l h (a & -> & _). apply good_ret. reflexivity.
Qed.
Lemma endpoints_mtu_good : forall lines mtu, good nodel (endpoints_mtu sys lines mtu) (fun _ h => changes h = []).
Proof.
  induction lines as [|l lines IH]; intro mtu; cbn [endpoints_mtu]; [apply good_ret; reflexivity|].
  destruct (endpoint_host (second_field l)) as [x|]; [|apply IH].
  eapply good_bind; [apply query_good; ask|]. cbn beta. intros out h (a & -> & _).
  eapply good_bind; [apply route_mtu_good|]. cbn beta. intros m h1 H1. eapply good_conseq; [apply IH|]. cbn beta.
  intros _ h2 _ H2. rewrite !changes_app, H1, H2. reflexivity.
Qed.
Lemma set_mtu_good : good nodel (set_mtu_up sys ifc o true) (fun _ h => exists c, changes h = [c] /\ mtu_cmd c).
Proof.
  unfold set_mtu_up. destruct (o_mtu o) as [|x xs] eqn:E.
  - eapply good_bind; [apply output_good; ask|]. cbn beta. intros eps h (a & -> & _).
    eapply good_bind; [apply endpoints_mtu_good|]. cbn beta. intros m1 h1 H1.
    eapply good_bind with (Q := fun _ h => changes h = []).
    + destruct (m1 =? 0); [|apply good_ret; reflexivity].
      eapply good_bind; [apply output_good; ask|]. cbn beta. intros out h2 (b & -> & _).
      eapply good_bind; [apply route_mtu_good|]. cbn beta. intros m h2 H2. apply good_ret. rewrite !changes_app, H2. reflexivity.
    + cbn beta. intros m2 h2 H2. eapply good_conseq; [apply step_one; st|]. cbn beta. intros _ h3 _ H3.
      eexists. split; [rewrite !changes_app, H1, H2, H3; reflexivity|]. eexists. reflexivity.
  - eapply good_conseq; [apply step_one; st|]. cbn beta. intros _ h _ ->. eexists. split; [reflexivity|]. eexists. reflexivity.
Qed.

(** Routes. *)
Lemma free_table_good : forall n t, good nodel (free_table sys n t) (fun _ h => changes h = []).
Proof.
  induction n as [|n IH]; intro t; cbn [free_table].
  - intro s. exists []. rewrite app_nil_r. split; [reflexivity|constructor].
  - eapply good_bind; [apply query_good; ask|]. cbn beta. intros r4 h1 (a & -> & _).
    destruct (negb (beq r4 [])); [eapply good_conseq; [apply IH|]; cbn beta; intros _ h _ H; rewrite changes_app, H; reflexivity|].
    eapply good_bind; [apply query_good; ask|]. cbn beta. intros r6 h2 (b & -> & _).
    destruct (negb (beq r6 [])); [eapply good_conseq; [apply IH|]; cbn beta; intros _ h _ H; rewrite !changes_app, H; reflexivity|].
    apply good_ret. reflexivity.
Qed.
Lemma get_fwmark_nodel : good nodel (get_fwmark sys ifc) (fun _ h => changes h = []).
Proof. eapply get_fwmark_good. exact nodel_argv. Qed.

Lemma choose_table_good : good nodel (choose_table sys fuel ifc true) (fun _ h => Forall routing_cmd (changes h)).
Proof.
  unfold choose_table. eapply good_bind; [apply get_fwmark_nodel|]. cbn beta. intros [t|] h1 H1.
  - apply good_ret. rewrite app_nil_r, H1. constructor.
  - eapply good_bind; [apply free_table_good|]. cbn beta. intros t h2 H2.
    eapply good_bind; [apply step_one; st|]. cbn beta. intros _ h3 H3. apply good_ret. rewrite !changes_app, H1, H2, H3.
    constructor; [reflexivity|constructor].
Qed.

Lemma routing_one : forall h c, changes h = [c] -> routing_cmd c -> Forall routing_cmd (changes h).
Proof. intros h c -> H. constructor; [exact H|constructor]. Qed.
Lemma routing_app : forall h1 h2, Forall routing_cmd (changes h1) -> Forall routing_cmd (changes h2) -> Forall routing_cmd (changes (h1 ++ h2)).
Proof. intros. rewrite changes_app. apply Forall_app. auto. Qed.

Lemma step_routing : forall ws input, nodel (mk_cmd ws input) -> asks (mk_cmd ws input) = false -> routing_cmd (mk_cmd ws input) ->
  good nodel (step_in sys true ws input) (fun _ h => Forall routing_cmd (changes h)).
Proof. intros. eapply good_conseq; [apply step_one; assumption|]. cbn beta. intros _ h _ Hh. eapply routing_one; eauto. Qed.

Lemma add_default_good : forall r, good nodel (add_default sys fuel ifc true r) (fun _ h => Forall routing_cmd (changes h)).
Proof.
  intro r. unfold add_default, step. eapply good_bind; [apply choose_table_good|]. cbn beta. intros t h0 H0.
  eapply good_bind; [apply step_routing; destruct (proto_cases r) as [E|E]; rewrite E; st|]. cbn beta. intros _ h1 H1.
  eapply good_bind; [apply step_routing; destruct (proto_cases r) as [E|E]; rewrite E; st|]. cbn beta. intros _ h2 H2.
  eapply good_bind; [apply step_routing; destruct (proto_cases r) as [E|E]; rewrite E; st|]. cbn beta. intros _ h3 H3.
  eapply good_bind with (Q := fun _ h => Forall routing_cmd (changes h)).
  { eapply good_conseq; [apply output_good; destruct (proto_cases r) as [E|E]; rewrite E; ask|]. cbn beta. intros out h _ (a & -> & _).
    destruct (proto_cases r) as [E|E]; rewrite E; constructor. }
  cbn beta. intros out h4 H4.
  eapply good_bind with (Q := fun _ h => Forall routing_cmd (changes h)).
  { destruct (has_char 58 r); [apply good_ret; constructor|apply step_routing; st]. }
  cbn beta. intros _ h5 H5.
  eapply good_bind with (Q := fun _ h => Forall routing_cmd (changes h)).
  { eapply good_conseq; [apply cond_good; ask|]. cbn beta. intros b h _ (a & -> & _). constructor. }
  cbn beta. intros nft h6 H6.
  eapply good_bind with (Q := fun _ h => Forall routing_cmd (changes h)).
  { destruct nft; [apply step_routing; st|]. apply step_routing; destruct (has_char 58 r); st. }
  cbn beta. intros _ h7 H7. intro s. exists []. split; [symmetry; apply app_nil_r|]. split; [constructor|].
  repeat (apply routing_app; [assumption|]). constructor.
Qed.

Lemma add_route_good : forall r, good nodel (add_route sys fuel ifc o true r) (fun _ h => Forall routing_cmd (changes h)).
Proof.
  intro r. unfold add_route, step. destruct (beq (o_table o) (str "off")); [apply good_ret; constructor|].
  destruct (negb (auto_table o)); [apply step_routing; destruct (proto_cases r) as [E|E]; rewrite E; st|].
  destruct (ends_with (str "/0") r); [apply add_default_good|].
  eapply good_bind with (Q := fun _ h => changes h = []).
  { eapply good_conseq; [apply query_good; destruct (proto_cases r) as [E|E]; rewrite E; ask|]. cbn beta. intros b h _ (a & -> & _).
    destruct (proto_cases r) as [E|E]; rewrite E; reflexivity. }
  cbn beta. intros out h1 H1. destruct (beq out []).
  - eapply good_conseq; [apply step_routing; destruct (proto_cases r) as [E|E]; rewrite E; st|]. cbn beta. intros _ h2 _ H2.
    rewrite changes_app, H1. exact H2.
  - apply good_ret. rewrite app_nil_r, H1. constructor.
Qed.

Lemma add_routes_good : forall rs, good nodel (for_each (add_route sys fuel ifc o true) rs) (fun _ h => Forall routing_cmd (changes h)).
Proof.
  intro rs. eapply good_conseq; [apply (for_each_good _ nodel _ (fun _ h => Forall routing_cmd (changes h)) add_route_good)|]. cbn beta.
  intros _ h _ (hs & H & ->). induction H as [|x h l hs Hx H IH]; [constructor|]. cbn [concat]. apply routing_app; assumption.
Qed.

Lemma all_routes_good : good nodel (all_routes sys glob ifc) (fun _ h => changes h = []).
Proof.
  unfold all_routes. eapply good_bind; [apply output_good; ask|]. cbn beta. intros out h1 (a & -> & _).
  eapply good_bind; [apply run_ask; [apply nodel_argv; reflexivity|reflexivity]|]. cbn beta. intros b h2 ->.
  apply good_ret. reflexivity.
Qed.

Definition dns_cmds (cs : list command) : Prop :=
  (o_dns o = [] /\ cs = []) \/
  (o_dns o <> [] /\ exists p, cs = [mk_cmd [str "resolvconf"; str "-a"; p ++ ifc; str "-m"; str "0"; str "-x"] (dns_text o)]).

(** The guarded part after the creation of the interface. *)
Definition rest_body : prog Z :=
  execute_hooks sys ifc true (o_preup o) ;;;
  set_config sys ifc o true ;;;
  for_each (add_addr sys ifc true) (o_addresses o) ;;;
  set_mtu_up sys ifc o true ;;;
  set_dns sys ifc o true ;;;
  add_routes sys glob fuel ifc o true ;;;
  execute_hooks sys ifc true (o_postup o).

Definition up_order (cs : list command) : Prop :=
  exists mtu dns routes, mtu_cmd mtu /\ dns_cmds dns /\ Forall routing_cmd routes /\
    cs = map hook_cmd (o_preup o) ++ [setconf_cmd] ++ map addr_cmd (o_addresses o) ++ [mtu] ++ dns ++ routes ++ map hook_cmd (o_postup o).

Lemma rest_body_good : good nodel rest_body (fun _ h => up_order (changes h)).
Proof.
  unfold rest_body. eapply good_bind; [apply hooks_good|]. cbn beta. intros _ h1 H1.
  eapply good_bind; [apply set_config_good|]. cbn beta. intros _ h2 H2.
  eapply good_bind; [apply addrs_good|]. cbn beta. intros _ h3 H3.
  eapply good_bind; [apply set_mtu_good|]. cbn beta. intros _ h4 (m & H4 & Hm).
  eapply good_bind; [eapply set_dns_good; exact nodel_argv|]. cbn beta. intros _ h5 H5.
  eapply good_bind with (Q := fun _ h => Forall routing_cmd (changes h)).
  { unfold add_routes. eapply good_bind; [apply all_routes_good|]. cbn beta. intros rs h6 H6.
    eapply good_conseq; [apply add_routes_good|]. cbn beta. intros _ h7 _ H7. rewrite changes_app, H6. exact H7. }
  cbn beta. intros _ h7 H7.
  eapply good_conseq; [apply hooks_good|]. cbn beta. intros _ h8 _ H8.
  exists m, (changes h5), (changes h7). split; [exact Hm|]. split; [exact H5|]. split; [exact H7|].
  rewrite !changes_app, H1, H2, H3, H4, H8. cbn [app]. reflexivity.
Qed.

(** ** The order, in the words of the specification *)
Lemma strip_prefix_some : forall p s r, strip_prefix p s = Some r <-> s = p ++ r.
Proof.
  induction p as [|x p IH]; intros s r; cbn [strip_prefix app]; [split; congruence|].
  destruct s as [|y s]; [split; discriminate|]. destruct (Z.eqb_spec x y) as [->|N].
  - rewrite IH. split; congruence.
  - split; [discriminate|]. intro E. injection E as -> _. contradiction.
Qed.

Lemma replace_go_substituted : forall p r, p <> [] -> forall n s, (length s <= n)%nat ->
  exists x xs, Forall (fun x => ~ occurs p x) (x :: xs) /\ s = glue p (x :: xs) /\ replace_all_go n p r s = glue r (x :: xs).
Proof.
  intros p r Hp. assert (Hnil : ~ occurs p []).
  { intros (a & b & E). destruct a; [|discriminate]. destruct p; [contradiction|discriminate]. }
  assert (G : forall sep c x xs, glue sep ((c :: x) :: xs) = c :: glue sep (x :: xs)) by (intros sep c x [|y ys]; reflexivity).
  induction n as [|n IH]; intros s Hn.
  - destruct s; [|cbn in Hn; lia]. exists [], []. split; [constructor; [exact Hnil|constructor]|]. split; reflexivity.
  - destruct s as [|c s]; [exists [], []; split; [constructor; [exact Hnil|constructor]|]; split; reflexivity|].
    cbn [replace_all_go]. destruct (strip_prefix p (c :: s)) as [rest|] eqn:E.
    + apply strip_prefix_some in E. assert (Hl : (length rest <= n)%nat).
      { apply (f_equal (@length Z)) in E. rewrite app_length in E. destruct p; [contradiction|]. cbn in *. lia. }
      destruct (IH rest Hl) as (x & xs & H1 & H2 & H3). exists [], (x :: xs). split; [constructor; assumption|].
      split; [rewrite E; cbn [glue app]; f_equal; exact H2|]. cbn [glue app]. f_equal. exact H3.
    + cbn in Hn. destruct (IH s) as (x & xs & H1 & H2 & H3); [lia|]. exists (c :: x), xs. inversion H1; subst.
      split; [|split; [rewrite G; reflexivity|rewrite G; f_equal; exact H3]]. constructor; [|assumption].
      intros (a & b & Eo). destruct a as [|y a].
      * cbn [app] in Eo. assert (X : exists u, c :: glue p (x :: xs) = p ++ u).
        { rewrite <- G, Eo. destruct xs as [|z zs]; [exists b; reflexivity|]. cbn [glue]. rewrite <- app_assoc. eexists. reflexivity. }
        destruct X as (u & X). apply strip_prefix_some in X. congruence.
      * injection Eo as -> Eo. apply H4. exists a, b. exact Eo.
Qed.
Lemma replace_all_substituted : forall p r s, p <> [] -> substituted p r s (replace_all p r s).
Proof.
  intros p r s Hp. destruct (replace_go_substituted p r Hp (length s) s (le_n _)) as (x & xs & H1 & H2 & H3).
  exists (x :: xs). split; [discriminate|]. auto.
Qed.

Lemma proto_family : forall a, family a (proto a).
Proof.
  intro a. unfold proto, has_char. destruct (existsb (Z.eqb 58) a) eqn:E; constructor.
  - apply existsb_exists in E as (x & Hx & Ex). apply Z.eqb_eq in Ex as ->. exact Hx.
  - intro Hi. assert (existsb (Z.eqb 58) a = true); [|congruence]. apply existsb_exists. exists 58. auto.
Qed.
Lemma join_glue : forall l, join_sp l = glue [32] l.
Proof. induction l as [|w l IH]; [reflexivity|]. cbn [join_sp glue]. destruct l; [reflexivity|]. rewrite IH. reflexivity. Qed.

Lemma up_order_documented : forall cs, up_order cs -> documented_order ifc o cs.
Proof.
  intros cs (m & dns & routes & (n & ->) & Hd & Hr & ->).
  assert (HK : forall hs, Forall2 (substituted (str "%i") ifc) hs (map (hook_text ifc) hs)).
  { intro hs. induction hs; constructor; [apply replace_all_substituted; discriminate|assumption]. }
  exists (map (hook_text ifc) (o_preup o)), (map (hook_text ifc) (o_postup o)), (map addr_cmd (o_addresses o)), n, dns, routes.
  split; [apply HK|]. split; [apply HK|].
  split; [induction (o_addresses o) as [|a l IH]; constructor; [exists (proto a); split; [apply proto_family|reflexivity]|exact IH]|].
  split.
  - destruct Hd as [Hd|(H1 & p & H2)]; [left; exact Hd|right]. split; [exact H1|]. exists p. rewrite H2. unfold dns_text, resolv_text.
    destruct (o_search o) as [|d ds]; [reflexivity|]. rewrite join_glue. reflexivity.
  - split; [exact Hr|]. rewrite !map_map. reflexivity.
Qed.
End Up.
