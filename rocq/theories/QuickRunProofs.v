(** Reasoning about the command runner. *)
From Coq Require Import String ZArith List Bool Lia.
From Verif Require Import Base Cstr Bash Quick QuickRun QuickRunSpec.
Import ListNotations.
Open Scope Z_scope.

(** Commands all satisfying [C]; every change succeeded; no signal. *)
Definition quiet (C : command -> Prop) (h : history) : Prop :=
  Forall (fun ev => C (fst ev) /\ a_signal (snd ev) = None /\ (asks (fst ev) = true \/ a_status (snd ev) = 0)) h.
Definition bad (C : command -> Prop) (ev : event) (st : Z) : Prop := C (fst ev) /\ a_signal (snd ev) = None /\ failed ev st.

Definition good {A} (C : command -> Prop) (m : prog A) (Q : A -> history -> Prop) : Prop := forall s,
  match m s with
  | Done a s1 => exists h, sh_hist s1 = sh_hist s ++ h /\ quiet C h /\ Q a h
  | Exited st s1 => exists h ev, sh_hist s1 = sh_hist s ++ h ++ [ev] /\ quiet C h /\ bad C ev st
  | Signalled st s1 => exists h ev, sh_hist s1 = sh_hist s ++ h ++ [ev] /\ quiet C h /\ C (fst ev) /\ a_signal (snd ev) = Some st
  | Loops s1 => exists h, sh_hist s1 = sh_hist s ++ h /\ quiet C h
  end.

Lemma quiet_app : forall C h1 h2, quiet C (h1 ++ h2) <-> quiet C h1 /\ quiet C h2.
Proof. intros. apply Forall_app. Qed.

Lemma good_ret : forall A C (a : A) (Q : A -> history -> Prop), Q a [] -> good C (ret a) Q.
Proof. intros A C a Q H s. exists []. rewrite app_nil_r. split; [reflexivity|]. split; [constructor|exact H]. Qed.

Lemma good_conseq : forall A C (m : prog A) (Q R : A -> history -> Prop),
  good C m Q -> (forall a h, quiet C h -> Q a h -> R a h) -> good C m R.
Proof.
  intros A C m Q R H HR s. specialize (H s). destruct (m s); try exact H.
  destruct H as (h & E & Hq & HQ). exists h. auto.
Qed.

Lemma good_bind : forall A B C (m : prog A) (f : A -> prog B) (Q : A -> history -> Prop) (R : B -> history -> Prop),
  good C m Q ->
  (forall a h1, Q a h1 -> good C (f a) (fun b h2 => R b (h1 ++ h2))) ->
  good C (bind m f) R.
Proof.
  intros A B C m f Q R Hm Hf s. unfold bind. specialize (Hm s). destruct (m s) as [a s1|st s1|st s1|s1]; try exact Hm.
  destruct Hm as (h1 & E1 & Hq1 & HQ). specialize (Hf a h1 HQ s1). rewrite E1 in Hf. destruct (f a s1) as [b s2|st s2|st s2|s2].
  - destruct Hf as (h2 & E2 & Hq2 & HR). exists (h1 ++ h2). split; [rewrite E2, app_assoc; reflexivity|]. split; [apply quiet_app; auto|exact HR].
  - destruct Hf as (h2 & ev & E2 & Hq2 & HR). exists (h1 ++ h2), ev. split; [rewrite E2, <- !app_assoc; reflexivity|]. split; [apply quiet_app; auto|exact HR].
  - destruct Hf as (h2 & ev & E2 & Hq2 & HR). exists (h1 ++ h2), ev. split; [rewrite E2, <- !app_assoc; reflexivity|]. split; [apply quiet_app; auto|exact HR].
  - destruct Hf as (h2 & E2 & Hq2). exists (h1 ++ h2). split; [rewrite E2, app_assoc; reflexivity|]. apply quiet_app; auto.
Qed.

Section Rules.
Variable sys : system.
Notation run := (run sys).

Lemma run_ask : forall (C : command -> Prop) c, C c -> asks c = true -> good C (run c) (fun a h => h = [(c, a)]).
Proof.
  intros C c HC Ha s. unfold QuickRun.run. destruct (a_signal (sys (sh_hist s) c)) as [st|] eqn:E; cbn [sh_hist].
  - exists [], (c, sys (sh_hist s) c). split; [reflexivity|]. split; [constructor|]. cbn [fst snd]. auto.
  - eexists. split; [reflexivity|]. split; [|reflexivity]. constructor; [cbn [fst snd]; auto|constructor].
Qed.

(** The changes a program makes when it ends normally. *)
Lemma changes_app : forall h1 h2, changes (h1 ++ h2) = changes h1 ++ changes h2.
Proof. intros. unfold changes. rewrite map_app, filter_app. reflexivity. Qed.
Lemma changes_ask : forall c a, asks c = true -> changes [(c, a)] = [].
Proof. intros c a H. unfold changes. cbn [map fst filter]. rewrite H. reflexivity. Qed.
Lemma changes_step : forall c a, asks c = false -> changes [(c, a)] = [c].
Proof. intros c a H. unfold changes. cbn [map fst filter]. rewrite H. reflexivity. Qed.

Definition asking (C : command -> Prop) (ws : list (list Z)) : Prop := C (argv ws) /\ asks (argv ws) = true.

Lemma query_good : forall (C : command -> Prop) ws, asking C ws -> good C (query sys ws) (fun out h => exists a, h = [(argv ws, a)] /\ out = captured (a_output a)).
Proof.
  intros C ws [HC Ha]. unfold query. eapply good_bind; [apply run_ask; assumption|]. cbn beta. intros a h ->. apply good_ret. rewrite app_nil_r. eauto.
Qed.
Lemma output_good : forall (C : command -> Prop) ws, asking C ws -> good C (output sys ws) (fun out h => exists a, h = [(argv ws, a)] /\ out = a_output a).
Proof.
  intros C ws [HC Ha]. unfold output. eapply good_bind; [apply run_ask; assumption|]. cbn beta. intros a h ->. apply good_ret. rewrite app_nil_r. eauto.
Qed.
Lemma cond_good : forall (C : command -> Prop) ws, asking C ws -> good C (cond sys ws) (fun b h => exists a, h = [(argv ws, a)] /\ b = (a_status a =? 0)).
Proof.
  intros C ws [HC Ha]. unfold cond. eapply good_bind; [apply run_ask; assumption|]. cbn beta. intros a h ->. apply good_ret. rewrite app_nil_r. eauto.
Qed.

Lemma step_good : forall (C : command -> Prop) ws input, C (mk_cmd ws input) -> asks (mk_cmd ws input) = false ->
  good C (step_in sys true ws input) (fun st h => st = 0 /\ exists a, h = [(mk_cmd ws input, a)] /\ a_status a = 0).
Proof.
  intros C ws input HC Ha s. unfold step_in, bind, QuickRun.run. set (c := mk_cmd ws input) in *. set (a := sys (sh_hist s) c).
  destruct (a_signal a) as [st|] eqn:E; cbn [sh_hist].
  - exists [], (c, a). split; [reflexivity|]. split; [constructor|]. auto.
  - cbn [andb]. destruct (Z.eqb_spec (a_status a) 0) as [Z0|N]; cbn [negb exit_with ret sh_hist].
    + exists [(c, a)]. split; [reflexivity|]. split; [constructor; [cbn [fst snd]; auto|constructor]|]. split; [exact Z0|]. eauto.
    + exists [], (c, a). split; [reflexivity|]. split; [constructor|]. split; [exact HC|]. split; [exact E|]. split; [exact Ha|]. auto.
Qed.

Lemma for_each_good : forall A (C : command -> Prop) (f : A -> prog Z) (Q : A -> history -> Prop), (forall x, good C (f x) (fun _ h => Q x h)) ->
  forall l, good C (for_each f l) (fun _ h => exists hs, Forall2 Q l hs /\ h = concat hs).
Proof.
  intros A C f Q Hf l. induction l as [|x l IH]; cbn [for_each].
  - apply good_ret. exists []. split; [constructor|reflexivity].
  - eapply good_bind; [apply Hf|]. cbn beta. intros _ h1 H1. eapply good_conseq; [apply IH|]. cbn beta.
    intros _ h _ (hs & H2 & ->). exists (h1 :: hs). split; [constructor; assumption|reflexivity].
Qed.
End Rules.

(** ** The pieces of the script *)
Section Pieces.
Variable sys : system.
Variable ifc : list Z.
Variable o : options.
Variable C : command -> Prop.

(** [C] holds of all commands except, perhaps, the creation and deletion of the interface. *)
Hypothesis HC : forall w ws input, known w = true -> begins [str "ip"; str "link"; str "delete"] (w :: ws) = false ->
  begins [str "ip"; str "link"; str "add"] (w :: ws) = false -> C (mk_cmd (w :: ws) input).

Ltac ask := split; [apply HC; try reflexivity|try reflexivity].
Ltac st := first [apply HC; reflexivity | reflexivity].

Lemma proto_cases : forall a, proto a = str "-4" \/ proto a = str "-6".
Proof. intro a. unfold proto. destruct (has_char 58 a); auto. Qed.

Lemma order_prefix_good : good C (resolvconf_iface_prefix sys) (fun _ h => changes h = []).
Proof.
  unfold resolvconf_iface_prefix. eapply good_bind; [apply cond_good; ask|]. cbn beta. intros [] h (a & -> & _).
  - eapply good_bind; [apply output_good; ask|]. cbn beta. intros text h (b & -> & _). apply good_ret. reflexivity.
  - apply good_ret. reflexivity.
Qed.

(** What set_dns and unset_dns change. *)
Lemma set_dns_good : good C (set_dns sys ifc o true) (fun _ h =>
  (o_dns o = [] /\ changes h = []) \/
  (o_dns o <> [] /\ exists p, changes h = [mk_cmd [str "resolvconf"; str "-a"; p ++ ifc; str "-m"; str "0"; str "-x"] (dns_text o)])).
Proof.
  unfold set_dns. destruct (o_dns o) as [|d ds] eqn:E.
  - apply good_ret. auto.
  - eapply good_bind; [apply order_prefix_good|]. cbn beta. intros p h1 H1.
    eapply good_bind; [apply step_good; st|]. cbn beta. intros _ h2 (_ & a & -> & _).
    intro s. unfold bind, set_dns_flag, ret. exists []. split; [symmetry; apply app_nil_r|]. split; [constructor|].
    right. split; [discriminate|]. exists p. rewrite !changes_app, H1. reflexivity.
Qed.

Lemma unset_dns_good : good C (unset_dns sys ifc o true) (fun _ h =>
  (o_dns o = [] /\ changes h = []) \/
  (o_dns o <> [] /\ exists p, changes h = [argv [str "resolvconf"; str "-d"; p ++ ifc; str "-f"]])).
Proof.
  unfold unset_dns. destruct (o_dns o) as [|d ds] eqn:E.
  - apply good_ret. auto.
  - eapply good_bind; [apply order_prefix_good|]. cbn beta. intros p h1 H1.
    eapply good_conseq; [apply step_good; st|]. cbn beta. intros _ h2 _ (_ & a & -> & _).
    right. split; [discriminate|]. exists p. rewrite changes_app, H1. reflexivity.
Qed.

(** remove_firewall changes nothing but the firewall. *)
Definition firewall_command (c : command) : Prop :=
  exists p, begins [str p] (c_argv c) = true /\ In p ["nft"; "iptables-restore"; "ip6tables-restore"]%string.

Lemma remove_iptables_good : forall i, i = str "iptables" \/ i = str "ip6tables" ->
  good C (remove_iptables sys ifc true i) (fun _ h => Forall firewall_command (changes h)).
Proof.
  intros i Hi. unfold remove_iptables. eapply good_bind.
  - apply output_good. destruct Hi as [-> | ->]; ask.
  - cbn beta. intros text h1 (a & -> & _). destruct (restore_found _ _).
    + eapply good_conseq; [apply step_good; destruct Hi as [-> | ->]; st|]. cbn beta. intros _ h2 _ (_ & b & -> & _).
      rewrite changes_app. destruct Hi as [-> | ->]; (constructor; [|constructor]);
        [exists "iptables-restore"%string|exists "ip6tables-restore"%string]; (split; [reflexivity|cbn; tauto]).
    + apply good_ret. rewrite app_nil_r. destruct Hi as [-> | ->]; constructor.
Qed.

Lemma remove_firewall_good : good C (remove_firewall sys ifc true) (fun _ h => Forall firewall_command (changes h)).
Proof.
  unfold remove_firewall. eapply good_bind; [apply cond_good; ask|]. cbn beta. intros nft h0 (a & -> & _).
  eapply good_bind with (Q := fun _ h => Forall firewall_command (changes h)).
  - destruct nft; [|apply good_ret; constructor].
    eapply good_bind; [apply output_good; ask|]. cbn beta. intros t h1 (b & -> & _).
    destruct (nft_deletes ifc (read_complete t)) as [|x xs]; [apply good_ret; constructor|].
    eapply good_conseq; [apply step_good; st|]. cbn beta. intros _ h2 _ (_ & d & -> & _).
    constructor; [|constructor]. exists "nft"%string. split; [reflexivity|cbn; tauto].
  - cbn beta. intros _ h1 H1. eapply good_bind; [apply cond_good; ask|]. cbn beta. intros ipt h2 (b & -> & _).
    assert (P : changes [(argv [str "type"; str "-p"; str "nft"], a)] = []) by reflexivity.
    assert (P2 : changes [(argv [str "type"; str "-p"; str "iptables"], b)] = []) by reflexivity.
    destruct ipt; [|apply good_ret; rewrite app_nil_r, !changes_app, P, P2, app_nil_r; exact H1].
    cbn [for_each]. eapply good_bind; [apply remove_iptables_good; auto|]. cbn beta. intros _ h3 H3.
    eapply good_bind; [apply remove_iptables_good; auto|]. cbn beta. intros _ h4 H4. apply good_ret.
    rewrite !changes_app, P, P2. cbn [app]. repeat (apply Forall_app; split); auto; constructor.
Qed.

Lemma get_fwmark_good : good C (get_fwmark sys ifc) (fun _ h => changes h = []).
Proof.
  unfold get_fwmark. eapply good_bind; [apply run_ask; [apply HC; reflexivity|reflexivity]|]. cbn beta. intros a h ->.
  destruct (negb _); [apply good_ret; reflexivity|]. destruct (_ || _); apply good_ret; reflexivity.
Qed.

Definition ip_command (c : command) : Prop := begins [str "ip"] (c_argv c) = true.

Lemma delete_rules_good : forall n pr pat del, pr = str "-4" \/ pr = str "-6" ->
  good C (delete_rules sys n true pr pat del) (fun _ h => Forall ip_command (changes h)).
Proof.
  induction n as [|n IH]; intros pr pat del Hp; cbn [delete_rules].
  - intro s. exists []. rewrite app_nil_r. split; [reflexivity|constructor].
  - eapply good_bind; [apply query_good; destruct Hp as [-> | ->]; ask|]. cbn beta. intros out h1 (a & -> & _).
    assert (P : changes [(argv [str "ip"; pr; str "rule"; str "show"], a)] = []) by (destruct Hp as [-> | ->]; reflexivity).
    destruct (contains pat out).
    + eapply good_bind; [apply step_good; destruct Hp as [-> | ->]; st|]. cbn beta. intros _ h2 (_ & b & -> & _).
      eapply good_conseq; [apply IH, Hp|]. cbn beta. intros _ h3 _ H3. rewrite !changes_app, P. cbn [app].
      apply Forall_app. split; [|exact H3]. destruct Hp as [-> | ->]; (constructor; [reflexivity|constructor]).
    + apply good_ret. rewrite app_nil_r, P. constructor.
Qed.
End Pieces.

(** ** del_if: when it finishes, the last command deleted the interface. *)
Section Cleanup.
Variable sys : system.
Variable fuel : nat.
Variable ifc : list Z.
Variable o : options.

Lemma flags_good : forall A C (f : bool -> bool -> prog A) Q, (forall x y, good C (f x y) Q) -> good C (flags f) Q.
Proof. intros A C f Q H s. exact (H (sh_dns s) (sh_fw s) s). Qed.

Variable us : list Z.
Hypothesis Hus : known us = false.

(** Not the creation of the interface. *)
Definition nocreate (c : command) : Prop := c <> link_add ifc /\ c <> start_userspace us ifc.
Lemma all_not : forall w ws input, known w = true -> begins [str "ip"; str "link"; str "delete"] (w :: ws) = false ->
  begins [str "ip"; str "link"; str "add"] (w :: ws) = false -> nocreate (mk_cmd (w :: ws) input).
Proof.
  intros w ws input Hk _ Ha. split; intro E; injection E as -> E _; [subst; discriminate Ha|congruence].
Qed.

Lemma del_if_good : good nocreate (del_if sys fuel ifc o true) (fun _ h => exists h1 a, h = h1 ++ [(link_delete ifc, a)] /\ a_status a = 0).
Proof.
  unfold del_if.
  eapply good_bind with (Q := fun _ _ => True).
  { apply flags_good. intros dns _. destruct dns; [|apply good_ret; exact I].
    eapply good_conseq; [apply (unset_dns_good sys ifc o _ all_not)|]. auto. }
  intros _ h1 _. eapply good_bind with (Q := fun _ _ => True).
  { apply flags_good. intros _ fw. destruct fw; [|apply good_ret; exact I].
    eapply good_conseq; [eapply remove_firewall_good; exact all_not|]. auto. }
  intros _ h2 _. eapply good_bind with (Q := fun _ _ => True).
  { destruct (auto_table o); [|apply good_ret; exact I].
    eapply good_bind with (Q := fun _ _ => True); [eapply good_conseq; [eapply get_fwmark_good; exact all_not|]; auto|].
    intros [t|] h3 _; [|apply good_ret; exact I].
    eapply good_bind with (Q := fun _ _ => True).
    { eapply good_conseq; [apply query_good; split; [apply all_not; reflexivity|reflexivity]|]. auto. }
    intros out h4 _. destruct (has_default out); [|apply good_ret; exact I].
    repeat (eapply good_bind with (Q := fun _ _ => True);
      [eapply good_conseq; [eapply delete_rules_good; [exact all_not|auto]|]; auto|intros]).
    eapply good_conseq; [eapply delete_rules_good; [exact all_not|auto]|]; auto. }
  intros _ h3 _. eapply good_conseq; [apply step_good; [split; [discriminate|]; intro E; injection E as E _; rewrite <- E in Hus; discriminate Hus|reflexivity]|]. cbn beta.
  intros _ h _ (_ & a & -> & Ha). exists (h1 ++ h2 ++ h3), a. rewrite <- !app_assoc. auto.
Qed.
End Cleanup.
