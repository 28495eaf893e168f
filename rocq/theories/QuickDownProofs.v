(** Following the commands of 'wg-quick down' through the script. *)
From Coq Require Import String ZArith List Bool Lia.
From Verif Require Import Base Cstr Bash Quick QuickRun QuickRunSpec QuickRunProofs QuickUpProofs QuickDoes QuickSave QuickSaveProofs QuickDownSpec.
Import ListNotations.
Open Scope Z_scope.

Section Order.
Variable sys : system.
Variable ifc : list Z.

(** Started after a history satisfying [P], with the flags of the cleanup down, [m] either ends normally having made changes as [D] says, or
    stops after a failure having made an initial part of such changes; failures were heeded. *)
Definition careful (h0 h : history) : Prop :=
  forall h1 ev h2 st, h = h1 ++ ev :: h2 -> failed ev st -> fst ev <> argv [str "umask"] ->
    deleted ifc (h0 ++ h1) /\ (begins [str "resolvconf"] (c_argv (fst ev)) = true \/ firewall_cmd (fst ev)).
Definition goes {A} (P : history -> Prop) (m : prog A) (D : A -> list command -> Prop) : Prop :=
  forall s, P (sh_hist s) -> sh_dns s = false -> sh_fw s = false ->
  match m s with
  | Done a s1 => sh_dns s1 = false /\ sh_fw s1 = false /\ exists h, sh_hist s1 = sh_hist s ++ h /\ careful (sh_hist s) h /\ D a (changes h)
  | Exited st s1 => st <> 0 /\ exists h ev, sh_hist s1 = sh_hist s ++ h ++ [ev] /\ careful (sh_hist s) h /\ a_status (snd ev) <> 0 /\
      exists a cs, D a (changes (h ++ [ev]) ++ cs)
  | Signalled _ s1 => exists ev, In ev (sh_hist s1) /\ a_signal (snd ev) <> None
  | Loops _ => True
  end.

Lemma careful_nil : forall h0, careful h0 [].
Proof. intros h0 h1 ev h2 st E. destruct h1; discriminate. Qed.
Lemma careful_app : forall h0 h1 h2, careful h0 h1 -> careful (h0 ++ h1) h2 -> careful h0 (h1 ++ h2).
Proof.
  intros h0 h1 h2 H1 H2 g1 ev g2 st E Hf Hm. apply app_eq_app in E. destruct E as (l & [[E1 E2]|[E1 E2]]).
  - destruct l as [|x l].
    + rewrite app_nil_r in E1. subst g1. cbn [app] in E2. destruct (H2 [] ev g2 st (eq_sym E2) Hf Hm) as [Hd Hc]. rewrite app_nil_r in Hd. auto.
    + cbn [app] in E2. injection E2 as -> E2. exact (H1 g1 x l st E1 Hf Hm).
  - subst g1. destruct (H2 l ev g2 st E2 Hf Hm) as [Hd Hc]. rewrite app_assoc. auto.
Qed.
Lemma careful_one : forall h0 c a, asks c = true \/ a_status a = 0 -> careful h0 [(c, a)].
Proof.
  intros h0 c a H h1 ev h2 st E (F1 & F2 & F3) _. destruct h1 as [|x h1]; [|destruct h1; discriminate]. injection E as <- _. cbn [fst snd] in *. destruct H; congruence.
Qed.
Lemma careful_heeds : forall h, careful [] h -> heeds ifc h.
Proof. intros h H. exact H. Qed.

Definition lasting (P : history -> Prop) : Prop := forall h1 h2, P h1 -> P (h1 ++ h2).

Lemma goes_ret : forall A (P : history -> Prop) (a : A) (D : A -> list command -> Prop), D a [] -> goes P (ret a) D.
Proof. intros A P a D H s _ H1 H2. cbn [ret]. split; [exact H1|]. split; [exact H2|]. exists []. rewrite app_nil_r. split; [reflexivity|]. split; [apply careful_nil|exact H]. Qed.
Lemma goes_conseq : forall A (P : history -> Prop) (m : prog A) (D D' : A -> list command -> Prop), goes P m D -> (forall a cs, D a cs -> D' a cs) -> goes P m D'.
Proof.
  intros A P m D D' H HD s Hp F1 F2. specialize (H s Hp F1 F2). destruct (m s) as [a s1|st s1|st s1|s1]; try exact H.
  - destruct H as (G1 & G2 & h & E & Hc & Hd). split; [exact G1|]. split; [exact G2|]. exists h. auto.
  - destruct H as (Hst & h & ev & E & Hc & He & a & cs & Hd). split; [exact Hst|]. exists h, ev. split; [exact E|]. split; [exact Hc|]. split; [exact He|]. exists a, cs. auto.
Qed.
Lemma goes_bind : forall A B (P P' : history -> Prop) (m : prog A) (f : A -> prog B) (D1 : A -> list command -> Prop) (D : B -> list command -> Prop),
  goes P m D1 ->
  (forall s a s1, P (sh_hist s) -> sh_dns s = false -> sh_fw s = false -> m s = Done a s1 -> P' (sh_hist s1)) ->
  (forall a c1, D1 a c1 -> goes P' (f a) (fun b c2 => D b (c1 ++ c2))) ->
  (forall a c1, D1 a c1 -> exists b c2, D b (c1 ++ c2)) ->
  goes P (bind m f) D.
Proof.
  intros A B P P' m f D1 D Hm HP Hf Hne s Hp F1 F2. unfold bind. pose proof (Hm s Hp F1 F2) as H. destruct (m s) as [a s1|st s1|st s1|s1] eqn:Em; try exact H.
  - destruct H as (G1 & G2 & h1 & E1 & C1 & H1). pose proof (Hf a _ H1 s1 (HP s a s1 Hp F1 F2 Em) G1 G2) as K. rewrite E1 in K. destruct (f a s1) as [b s2|st s2|st s2|s2]; try exact K.
    + destruct K as (K1 & K2 & h2 & E2 & C2 & H2). split; [exact K1|]. split; [exact K2|]. exists (h1 ++ h2). split; [rewrite E2, app_assoc; reflexivity|].
      split; [apply careful_app; assumption|]. rewrite changes_app. exact H2.
    + destruct K as (Hst & h2 & ev & E2 & C2 & He & b & cs & H2). split; [exact Hst|]. exists (h1 ++ h2), ev. split; [rewrite E2, <- !app_assoc; reflexivity|].
      split; [apply careful_app; assumption|]. split; [exact He|]. exists b, cs. rewrite <- app_assoc, changes_app, <- app_assoc. exact H2.
  - destruct H as (Hst & h & ev & E & Hc & He & a & cs & Hd). split; [exact Hst|]. exists h, ev. split; [exact E|]. split; [exact Hc|]. split; [exact He|].
    destruct (Hne a _ Hd) as (b & c2 & H2). exists b, (cs ++ c2). rewrite app_assoc. exact H2.
Qed.
(** The precondition lasts. *)
Lemma goes_seq : forall A B (P : history -> Prop) (m : prog A) (f : A -> prog B) (D1 : A -> list command -> Prop) (D : B -> list command -> Prop),
  lasting P -> goes P m D1 ->
  (forall a c1, D1 a c1 -> goes P (f a) (fun b c2 => D b (c1 ++ c2))) ->
  (forall a c1, D1 a c1 -> exists b c2, D b (c1 ++ c2)) ->
  goes P (bind m f) D.
Proof.
  intros A B P m f D1 D HP Hm Hf Hne. eapply goes_bind; [exact Hm| |exact Hf|exact Hne].
  intros s a s1 Hp F1 F2 Em. specialize (Hm s Hp F1 F2). rewrite Em in Hm. destruct Hm as (_ & _ & h & -> & _). apply HP, Hp.
Qed.

Lemma goes_ask : forall P c, asks c = true -> goes P (run sys c) (fun _ cs => cs = []).
Proof.
  intros P c Ha s _ F1 F2. unfold run. destruct (a_signal (sys (sh_hist s) c)) as [st|] eqn:E.
  - exists (c, sys (sh_hist s) c). split; [apply in_or_app; right; left; reflexivity|]. cbn [snd]. congruence.
  - cbn [sh_dns sh_fw sh_hist]. split; [exact F1|]. split; [exact F2|]. eexists. split; [reflexivity|]. split; [apply careful_one; auto|]. apply changes_ask. exact Ha.
Qed.
(** A command that must succeed; [st']: the status the script then ends with. *)
Lemma goes_must : forall A P c (v : answer -> A) (st' : answer -> Z), asks c = false -> (forall a, a_status a <> 0 -> st' a <> 0) ->
  goes P (a <- run sys c ;; if negb (a_status a =? 0) then exit_with (st' a) else ret (v a)) (fun _ cs => cs = [c]).
Proof.
  intros A P c v st' Ha Hst s _ F1 F2. unfold bind, run. destruct (a_signal (sys (sh_hist s) c)) as [st|] eqn:E.
  - exists (c, sys (sh_hist s) c). split; [apply in_or_app; right; left; reflexivity|]. cbn [snd]. congruence.
  - destruct (Z.eqb_spec (a_status (sys (sh_hist s) c)) 0) as [Z0|N]; cbn [negb ret exit_with sh_dns sh_fw sh_hist].
    + split; [exact F1|]. split; [exact F2|]. eexists. split; [reflexivity|]. split; [apply careful_one; auto|]. apply changes_step. exact Ha.
    + split; [apply Hst, N|]. exists [], (c, sys (sh_hist s) c). split; [reflexivity|]. split; [apply careful_nil|]. split; [exact N|].
      exists (v (sys (sh_hist s) c)), []. rewrite app_nil_r. cbn [app]. apply changes_step. exact Ha.
Qed.
(** The same for a question. *)
Lemma goes_must_ask : forall A P c (v : answer -> A), asks c = true ->
  goes P (a <- run sys c ;; if negb (a_status a =? 0) then exit_with (a_status a) else ret (v a)) (fun _ cs => cs = []).
Proof.
  intros A P c v Ha s _ F1 F2. unfold bind, run. destruct (a_signal (sys (sh_hist s) c)) as [st|] eqn:E.
  - exists (c, sys (sh_hist s) c). split; [apply in_or_app; right; left; reflexivity|]. cbn [snd]. congruence.
  - destruct (Z.eqb_spec (a_status (sys (sh_hist s) c)) 0) as [Z0|N]; cbn [negb ret exit_with sh_dns sh_fw sh_hist].
    + split; [exact F1|]. split; [exact F2|]. eexists. split; [reflexivity|]. split; [apply careful_one; auto|]. apply changes_ask. exact Ha.
    + split; [exact N|]. exists [], (c, sys (sh_hist s) c). split; [reflexivity|]. split; [apply careful_nil|]. split; [exact N|].
      exists (v (sys (sh_hist s) c)), []. rewrite app_nil_r. cbn [app]. apply changes_ask. exact Ha.
Qed.
Lemma goes_step : forall P ws input, asks (mk_cmd ws input) = false -> goes P (step_in sys true ws input) (fun _ cs => cs = [mk_cmd ws input]).
Proof. intros P ws input Ha. apply (goes_must Z P (mk_cmd ws input) a_status a_status Ha). auto. Qed.
(** After the deletion, a command whose failure does not matter. *)
Lemma goes_may : forall ws input, asks (mk_cmd ws input) = false -> begins [str "resolvconf"] ws = true \/ firewall_cmd (mk_cmd ws input) ->
  goes (deleted ifc) (step_in sys false ws input) (fun _ cs => cs = [mk_cmd ws input]).
Proof.
  intros ws input Ha Hw s Hd F1 F2. unfold step_in, bind, run. set (c := mk_cmd ws input) in *. destruct (a_signal (sys (sh_hist s) c)) as [st|] eqn:E.
  - exists (c, sys (sh_hist s) c). split; [apply in_or_app; right; left; reflexivity|]. cbn [snd]. congruence.
  - cbn [andb ret sh_dns sh_fw sh_hist]. split; [exact F1|]. split; [exact F2|]. eexists. split; [reflexivity|]. split; [|apply changes_step; exact Ha].
    intros h1 ev h2 st Eh Hf _. destruct h1 as [|x h1]; [|destruct h1; discriminate]. injection Eh as <- _. rewrite app_nil_r. auto.
Qed.
Lemma goes_unask : forall A B P (m : prog A) (v : A -> B), lasting P -> goes P m (fun _ cs => cs = []) -> goes P (a <- m ;; ret (v a)) (fun _ cs => cs = []).
Proof.
  intros A B P m v HP H. eapply goes_seq; [exact HP|exact H| |]; cbv beta.
  - intros a c1 ->. apply goes_ret. reflexivity.
  - intros a c1 ->. exists (v a), []. reflexivity.
Qed.
Lemma goes_query : forall P ws, lasting P -> asks (argv ws) = true -> goes P (query sys ws) (fun _ cs => cs = []).
Proof. intros P ws HP Ha. apply goes_unask; [exact HP|apply goes_ask, Ha]. Qed.
Lemma goes_output : forall P ws, lasting P -> asks (argv ws) = true -> goes P (output sys ws) (fun _ cs => cs = []).
Proof. intros P ws HP Ha. apply goes_unask; [exact HP|apply goes_ask, Ha]. Qed.
Lemma goes_cond : forall P ws, lasting P -> asks (argv ws) = true -> goes P (cond sys ws) (fun _ cs => cs = []).
Proof. intros P ws HP Ha. apply goes_unask; [exact HP|apply goes_ask, Ha]. Qed.
(** A question, then [D]. *)
Lemma goes_then : forall A B P (m : prog A) (f : A -> prog B) (D : B -> list command -> Prop), lasting P ->
  goes P m (fun _ cs => cs = []) -> (forall a, goes P (f a) D) -> (exists b c, D b c) -> goes P (bind m f) D.
Proof.
  intros A B P m f D HP Hm Hf Hne. eapply goes_seq; [exact HP|exact Hm| |]; cbv beta; intros a c1 ->; cbn [app]; [apply Hf|exact Hne].
Qed.
Lemma goes_any : forall A P (D : A -> list command -> Prop) (m : prog A), goes P m D -> goes P m (fun _ cs => exists a, D a cs).
Proof. intros A P D m H. eapply goes_conseq; [exact H|]. eauto. Qed.

Variable glob : list Z -> list (list Z).
Variable fuel : nat.
Variable o : options.
Variable conf : list Z.
Variable amp : bool.

Lemma goes_prefix : forall P, lasting P -> goes P (resolvconf_iface_prefix sys) (fun _ cs => cs = []).
Proof.
  intros P HP. unfold resolvconf_iface_prefix. apply goes_then; [exact HP|apply goes_cond; [exact HP|reflexivity]| |exists [], []; reflexivity].
  intros [|]; [|apply goes_ret; reflexivity]. apply goes_unask; [exact HP|]. apply goes_output; [exact HP|reflexivity].
Qed.
Lemma goes_unset_dns : goes (deleted ifc) (unset_dns sys ifc o false) (fun _ cs => unregisters_dns ifc o cs).
Proof.
  assert (HP : lasting (deleted ifc)) by (intros h1 h2 (a & Ha & Hz); exists a; split; [apply in_or_app; auto|exact Hz]).
  unfold unset_dns, unregisters_dns. destruct (o_dns o) as [|d ds] eqn:E; [apply goes_ret; auto|].
  apply goes_then; [exact HP|apply goes_prefix, HP| |].
  - intro p. eapply goes_conseq; [apply goes_may; [reflexivity|left; reflexivity]|]. cbv beta. intros _ cs ->. right. split; [discriminate|]. exists p. reflexivity.
  - exists 0. eexists. right. split; [discriminate|]. exists []. reflexivity.
Qed.
Lemma goes_remove_iptables : forall i, i = str "iptables" \/ i = str "ip6tables" ->
  goes (deleted ifc) (remove_iptables sys ifc false i) (fun _ cs => Forall firewall_cmd cs).
Proof.
  assert (HP : lasting (deleted ifc)) by (intros h1 h2 (a & Ha & Hz); exists a; split; [apply in_or_app; auto|exact Hz]).
  intros i Hi. unfold remove_iptables. apply goes_then; [exact HP|apply goes_output; [exact HP|destruct Hi as [-> | ->]; reflexivity]| |exists 0, []; constructor].
  intro dump. cbv zeta. destruct (restore_found _ _); [|apply goes_ret; constructor].
  eapply goes_conseq; [apply goes_may; [destruct Hi as [-> | ->]; reflexivity|right; destruct Hi as [-> | ->]; reflexivity]|]. cbv beta. intros _ cs ->.
  constructor; [|constructor]. destruct Hi as [-> | ->]; reflexivity.
Qed.
Lemma goes_remove_firewall : goes (deleted ifc) (remove_firewall sys ifc false) (fun _ cs => Forall firewall_cmd cs).
Proof.
  assert (HP : lasting (deleted ifc)) by (intros h1 h2 (a & Ha & Hz); exists a; split; [apply in_or_app; auto|exact Hz]).
  unfold remove_firewall. apply goes_then; [exact HP|apply goes_cond; [exact HP|reflexivity]| |exists 0, []; constructor].
  intro nft. eapply goes_seq with (D1 := fun _ cs => Forall firewall_cmd cs); [exact HP| | |].
  - destruct nft; [|apply goes_ret; constructor]. apply goes_then; [exact HP|apply goes_output; [exact HP|reflexivity]| |exists 0, []; constructor].
    intro t. destruct (nft_deletes ifc (read_complete t)); [apply goes_ret; constructor|].
    eapply goes_conseq; [apply goes_may; [reflexivity|right; reflexivity]|]. cbv beta. intros _ cs ->. constructor; [reflexivity|constructor].
  - intros _ c1 H1. apply goes_then; [exact HP|apply goes_cond; [exact HP|reflexivity]| |exists 0, []; rewrite app_nil_r; exact H1].
    intros [|]; [|apply goes_ret; rewrite app_nil_r; exact H1]. cbn [for_each].
    eapply goes_seq; [exact HP|apply goes_remove_iptables; auto| |]; cbv beta.
    + intros _ c2 H2. eapply goes_seq; [exact HP|apply goes_remove_iptables; auto| |]; cbv beta.
      * intros _ c3 H3. apply goes_ret. rewrite app_nil_r. repeat (apply Forall_app; split); assumption.
      * intros _ c3 H3. exists 0, []. rewrite app_nil_r. repeat (apply Forall_app; split); assumption.
    + intros _ c2 H2. exists 0, []. rewrite app_nil_r. apply Forall_app; split; assumption.
  - intros _ c1 H1. exists 0, []. rewrite app_nil_r. exact H1.
Qed.

Definition hooked (hooks : list (list Z)) (cs : list command) : Prop :=
  exists texts, Forall2 (substituted (str "%i") ifc) hooks texts /\ cs = map run_hook texts.
Lemma hooked_some : forall hooks, exists cs, hooked hooks cs.
Proof.
  induction hooks as [|x l (cs & t & F & E)]; [exists [], []; split; [constructor|reflexivity]|].
  exists (run_hook (replace_all (str "%i") ifc x) :: cs), (replace_all (str "%i") ifc x :: t). split; [constructor; [apply replace_all_substituted; discriminate|exact F]|]. cbn [map]. rewrite E. reflexivity.
Qed.
Lemma goes_hooks : forall P l, lasting P -> goes P (execute_hooks sys ifc true l) (fun _ cs => hooked l cs).
Proof.
  intros P l HP. unfold execute_hooks. induction l as [|x l IH]; cbn [for_each].
  - apply goes_ret. exists []. split; [constructor|reflexivity].
  - assert (K : forall cs, hooked l cs -> hooked (x :: l) (run_hook (hook_text ifc x) :: cs)).
    { intros cs (t & F & ->). exists (hook_text ifc x :: t). split; [constructor; [apply replace_all_substituted; discriminate|exact F]|reflexivity]. }
    eapply goes_seq; [exact HP|apply goes_step; reflexivity| |]; cbv beta.
    + intros _ c1 ->. eapply goes_conseq; [exact IH|]. cbv beta. intros _ cs. apply K.
    + intros _ c1 ->. destruct (hooked_some l) as (cs & H). exists 0, cs. apply K, H.
Qed.

Definition at_any (h : history) : Prop := True.
Lemma lasting_any : lasting at_any.
Proof. intros h1 h2 _. exact I. Qed.

Lemma goes_delete_rules : forall n pr pat args, pr = str "-4" \/ pr = str "-6" ->
  goes at_any (delete_rules sys n true pr pat (str "table" :: args)) (fun _ cs => Forall deletes_rule cs).
Proof.
  induction n as [|n IH]; intros pr pat args Hp; cbn [delete_rules]; [intros s _ _ _; exact I|].
  apply goes_then; [exact lasting_any|apply goes_query; [exact lasting_any|destruct Hp as [-> | ->]; reflexivity]| |exists 0, []; constructor].
  intro out. destruct (contains pat out); [|apply goes_ret; constructor].
  assert (K : deletes_rule (argv ([str "ip"; pr; str "rule"; str "delete"] ++ str "table" :: args))) by (exists pr, args; split; [exact Hp|reflexivity]).
  eapply goes_seq; [exact lasting_any|apply goes_step; destruct Hp as [-> | ->]; reflexivity| |]; cbv beta.
  - intros _ c1 ->. eapply goes_conseq; [apply IH, Hp|]. cbv beta. intros _ cs H. constructor; [exact K|exact H].
  - intros _ c1 ->. exists 0, []. constructor; [exact K|constructor].
Qed.
Lemma goes_get_fwmark : goes at_any (get_fwmark sys ifc) (fun _ cs => cs = []).
Proof.
  unfold get_fwmark. apply goes_then; [exact lasting_any|apply goes_ask; reflexivity| |exists None, []; reflexivity].
  intro a. destruct (negb _); [apply goes_ret; reflexivity|]. cbv zeta. destruct (_ || _); apply goes_ret; reflexivity.
Qed.
Lemma goes_flags_down : forall A (f : bool -> bool -> prog A) D, goes at_any (f false false) D -> goes at_any (flags f) D.
Proof. intros A f D H s Hp F1 F2. unfold flags. rewrite F1, F2. exact (H s Hp F1 F2). Qed.

Definition rules_ok (cs : list command) : Prop := Forall deletes_rule cs /\ (cs = [] \/ o_table o = [] \/ o_table o = str "auto").
Lemma goes_del_if : goes at_any (del_if sys fuel ifc o true) (fun _ cs => exists rules, rules_ok rules /\ cs = rules ++ [link_delete ifc]).
Proof.
  unfold del_if. assert (N : exists (b : Z) c, exists rules, rules_ok rules /\ c = rules ++ [link_delete ifc]).
  { exists 0, [link_delete ifc], []. split; [split; [constructor|auto]|reflexivity]. }
  apply goes_then; [exact lasting_any|apply goes_flags_down, goes_ret; reflexivity| |exact N]. intros _.
  apply goes_then; [exact lasting_any|apply goes_flags_down, goes_ret; reflexivity| |exact N]. intros _.
  eapply goes_seq with (D1 := fun _ cs => rules_ok cs); [exact lasting_any| | |].
  - destruct (auto_table o) eqn:Ea; [|apply goes_ret; split; [constructor|auto]].
    assert (T : o_table o = [] \/ o_table o = str "auto") by (unfold auto_table in Ea; apply orb_true_iff in Ea; destruct Ea as [Ea|Ea]; apply beq_eq in Ea; auto).
    assert (N0 : rules_ok []) by (split; [constructor|auto]).
    apply goes_then; [exact lasting_any|exact goes_get_fwmark| |exists 0, []; exact N0].
    intros [t|]; [|apply goes_ret; exact N0]. apply goes_then; [exact lasting_any|apply goes_query; [exact lasting_any|reflexivity]| |exists 0, []; exact N0].
    intro out. destruct (has_default out); [|apply goes_ret; exact N0]. cbv zeta.
    apply (goes_conseq _ _ _ (fun _ cs => Forall deletes_rule cs)); [|intros _ cs H; split; [exact H|auto]].
    do 3 (eapply goes_seq; [exact lasting_any|apply goes_delete_rules; auto| |]; cbv beta;
      [intros _ ? ?|intros _ ? ?; exists 0, []; rewrite ?app_nil_r; repeat (apply Forall_app; split); assumption]).
    eapply goes_conseq; [apply goes_delete_rules; auto|]. cbv beta. intros _ cs Hcs. repeat (apply Forall_app; split); assumption.
  - cbv beta. intros _ rules H. eapply goes_conseq; [apply goes_step; reflexivity|]. cbv beta. intros _ cs ->. exists rules. auto.
  - cbv beta. intros _ rules H. exists 0, [link_delete ifc], rules. auto.
Qed.
Lemma del_if_deletes : forall s v s1, del_if sys fuel ifc o true s = Done v s1 -> deleted ifc (sh_hist s1).
Proof.
  intros s v s1. unfold del_if. unfold bind at 1. destruct (flags _ s) as [a s2|a s2|a s2|s2]; try discriminate.
  unfold bind at 1. destruct (flags _ s2) as [b s3|b s3|b s3|s3]; try discriminate. unfold bind at 1.
  match goal with |- match ?x with _ => _ end = _ -> _ => destruct x as [c s4|c s4|c s4|s4]; try discriminate end.
  intro E. destruct (step_does sys _ _ _ s4 v s1 E) as (h & Eh & d & -> & -> & Hz). rewrite Eh. exists d. split; [apply in_or_app; right; left; reflexivity|apply Hz; reflexivity].
Qed.

Definition rest_order (cs : list command) : Prop := exists rules dns fw post, rules_ok rules /\ unregisters_dns ifc o dns /\ Forall firewall_cmd fw /\
  hooked (o_postdown o) post /\ cs = (rules ++ [link_delete ifc]) ++ dns ++ fw ++ post.
Lemma goes_down_rest : goes at_any (down_rest sys fuel ifc o) (fun _ => rest_order).
Proof.
  assert (HP : lasting (deleted ifc)) by (intros h1 h2 (a & Ha & Hz); exists a; split; [apply in_or_app; auto|exact Hz]).
  destruct (hooked_some (o_postdown o)) as (post0 & Hpost0).
  assert (D0 : exists dns, unregisters_dns ifc o dns).
  { unfold unregisters_dns. destruct (o_dns o); [exists []; auto|]. eexists. right. split; [discriminate|]. exists []. reflexivity. }
  destruct D0 as (dns0 & Hdns0). assert (FW0 : Forall firewall_cmd []) by constructor.
  unfold down_rest. eapply goes_bind with (P' := deleted ifc); [exact goes_del_if| | |]; cbv beta.
  - intros s v s1 _ _ _. apply del_if_deletes.
  - intros _ c1 (rules & Hr & ->). eapply goes_seq; [exact HP|exact goes_unset_dns| |]; cbv beta.
    + intros _ dns Hd. eapply goes_seq; [exact HP|exact goes_remove_firewall| |]; cbv beta.
      * intros _ fw Hf. eapply goes_conseq; [apply goes_hooks, HP|]. cbv beta. intros _ post Hp. exists rules, dns, fw, post. auto.
      * intros _ fw Hf. exists 0, post0, rules, dns, fw, post0. auto.
    + intros _ dns Hd. exists 0, ([] ++ post0), rules, dns, [], post0. auto.
  - intros _ c1 (rules & Hr & ->). exists 0, (dns0 ++ [] ++ post0), rules, dns0, [], post0. auto.
Qed.

Lemma goes_umask : goes at_any (query sys [str "umask"]) (fun _ cs => cs = [argv [str "umask"]]).
Proof.
  intros s _ F1 F2. unfold query, bind, run. destruct (a_signal _) as [st|] eqn:E.
  - eexists. split; [apply in_or_app; right; left; reflexivity|]. cbn [snd]. congruence.
  - cbn [ret sh_dns sh_fw sh_hist]. split; [exact F1|]. split; [exact F2|]. eexists. split; [reflexivity|]. split; [|reflexivity].
    intros h1 ev h2 st Eh _ Hm. destruct h1 as [|x h1]; [|destruct h1; discriminate]. injection Eh as <- _. exfalso. apply Hm. reflexivity.
Qed.
Lemma goes_gather : goes at_any (gather sys glob ifc o) (fun _ cs => cs = []).
Proof.
  unfold gather. apply goes_then; [exact lasting_any|apply goes_query; [exact lasting_any|reflexivity]| |exists [], []; reflexivity].
  intro out. apply goes_then; [exact lasting_any| | |exists [], []; reflexivity].
  - unfold resolver_text. apply goes_then; [exact lasting_any|apply goes_prefix; exact lasting_any| |exists [], []; reflexivity].
    intro p. apply goes_then; [exact lasting_any|apply goes_ask; reflexivity| |exists [], []; reflexivity].
    intro r. destruct (_ =? _); [apply goes_ret; reflexivity|]. apply goes_then; [exact lasting_any|apply goes_prefix; exact lasting_any| |exists [], []; reflexivity].
    intro p2. apply goes_unask; [exact lasting_any|]. apply goes_output; [exact lasting_any|reflexivity].
  - intro ns. apply goes_unask; [exact lasting_any|]. destruct (o_mtu o); [apply goes_ret; reflexivity|].
    apply goes_unask; [exact lasting_any|]. apply goes_query; [exact lasting_any|reflexivity].
Qed.
Definition save_head : list command := [argv [str "umask"]; argv [str "umask"; str "077"]].
Lemma goes_prepare : goes at_any (prepare sys glob ifc o amp) (fun _ cs => cs = save_head).
Proof.
  unfold prepare. apply goes_then; [exact lasting_any|exact goes_gather| |exists ([], []), save_head; reflexivity].
  intro new. eapply goes_seq; [exact lasting_any|exact goes_umask| |]; cbv beta.
  - intros old c1 ->. eapply goes_seq; [exact lasting_any|apply goes_step; reflexivity| |]; cbv beta.
    + intros _ c1 ->. eapply goes_conseq; [apply goes_must_ask; reflexivity|]. cbv beta. intros _ cs ->. reflexivity.
    + intros _ c1 ->. exists ([], []), []. reflexivity.
  - intros old c1 ->. exists ([], []), [argv [str "umask"; str "077"]]. reflexivity.
Qed.
Definition save_body (text : list Z) : list command :=
  [mk_cmd [str ">"; tmp_file conf] text; argv [str "sync"; tmp_file conf]; argv [str "mv"; tmp_file conf; conf]].
Lemma goes_replace : forall text, goes at_any (replace_file sys conf text) (fun _ cs => cs = save_body text).
Proof.
  intro text. unfold replace_file. 
  assert (K : goes at_any (bind (bind (run sys (mk_cmd [str ">"; tmp_file conf] text)) (fun w => if negb (a_status w =? 0) then exit_with 1 else ret 0))
    (fun _ => step sys true [str "sync"; tmp_file conf] ;;; m <- run sys (argv [str "mv"; tmp_file conf; conf]) ;; if negb (a_status m =? 0) then exit_with 1 else ret 0))
    (fun _ cs => cs = save_body text)).
  { eapply goes_seq; [exact lasting_any|apply (goes_must Z at_any _ (fun _ => 0) (fun _ => 1)); [reflexivity|discriminate]| |]; cbv beta.
    - intros _ c1 ->. eapply goes_seq; [exact lasting_any|apply goes_step; reflexivity| |]; cbv beta.
      + intros _ c1 ->. eapply goes_conseq; [apply (goes_must Z at_any _ (fun _ => 0) (fun _ => 1)); [reflexivity|discriminate]|]. cbv beta. intros _ cs ->. reflexivity.
      + intros _ c1 ->. exists 0, [argv [str "mv"; tmp_file conf; conf]]. reflexivity.
    - intros _ c1 ->. exists 0, (tl (save_body text)). reflexivity. }
  intros s Hp F1 F2. specialize (K s Hp F1 F2). unfold bind in K |- *. destruct (run sys (mk_cmd [str ">"; tmp_file conf] text) s) as [a s1|st s1|st s1|s1]; try exact K.
  destruct (negb _); exact K.
Qed.
End Order.
