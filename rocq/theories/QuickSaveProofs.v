(** Following the state of the disk through the script. *)
From Coq Require Import String ZArith List Bool Lia.
From Verif Require Import Base Cstr Bash Quick QuickRun QuickRunSpec QuickRunProofs QuickSave QuickSaveSpec.
Import ListNotations.
Open Scope Z_scope.

Lemma after_app : forall h1 h2 d d2, after d (h1 ++ h2) d2 <-> exists d1, after d h1 d1 /\ after d1 h2 d2.
Proof.
  induction h1 as [|[c a] h1 IH]; intros h2 d d2; cbn [app].
  - split; [intro H; exists d; split; [constructor|exact H]|]. intros (d1 & H1 & H2). inversion H1; subst. exact H2.
  - split.
    + intro H. inversion H as [|? ? ? d1 ? ? E H']; subst. apply IH in H'. destruct H' as (d3 & H3 & H4). exists d3. split; [econstructor; eauto|exact H4].
    + intros (d1 & H1 & H2). inversion H1 as [|? ? ? d3 ? ? E H']; subst. econstructor; [exact E|]. apply IH. eauto.
Qed.
Lemma instant_end : forall d h d', after d h d' -> instant d h d'.
Proof. intros d h d' H. exists h, [], d'. rewrite app_nil_r. auto. Qed.
Lemma instant_nil : forall d d', instant d [] d' -> d' = d.
Proof.
  intros d d' (h1 & h2 & d1 & E & H & K). symmetry in E. apply app_eq_nil in E. destruct E as [-> ->]. inversion H; subst.
  destruct K as [K|(c & a & h3 & K & _)]; [exact K|discriminate].
Qed.
Lemma instant_app : forall d h1 h2 d', instant d (h1 ++ h2) d' -> instant d h1 d' \/ exists d1, after d h1 d1 /\ instant d1 h2 d'.
Proof.
  intros d h1 h2 d' (g1 & g2 & d1 & E & H & K). revert d h1 E H. induction g1 as [|[c a] g1 IH]; intros d h1 E H.
  - cbn [app] in E. inversion H; subst. destruct K as [->|(c & a & h3 & E & a' & Ha)].
    + left. exists [], h1, d1. split; [reflexivity|]. split; [constructor|auto].
    + destruct h1 as [|[c1 a1] h1]; cbn [app] in E.
      * right. exists d1. split; [constructor|]. exists [], h2, d1. split; [reflexivity|]. split; [constructor|]. right. exists c, a, h3. split; [exact E|eauto].
      * left. injection E as -> -> E. exists [], ((c, a) :: h1), d1. split; [reflexivity|]. split; [constructor|]. right. exists c, a, h1. split; [reflexivity|eauto].
  - inversion H as [|? ? ? d3 ? ? Ef H']; subst. destruct h1 as [|[c1 a1] h1]; cbn [app] in E.
    + right. exists d. split; [constructor|]. exists ((c, a) :: g1), g2, d1. split; [symmetry; exact (eq_sym E)|]. auto.
    + injection E as -> -> E. destruct (IH d3 h1 E H') as [I|(d4 & A & I)].
      * left. destruct I as (k1 & k2 & d5 & Ek & Hk & Kk). exists ((c, a) :: k1), k2, d5. cbn [app]. rewrite Ek. split; [reflexivity|]. split; [econstructor; eauto|exact Kk].
      * right. exists d4. split; [econstructor; eauto|exact I].
Qed.
Lemma instant_one : forall d c a d', instant d [(c, a)] d' -> d' = d \/ exists a', effect c a' d d'.
Proof.
  intros d c a d' (h1 & h2 & d1 & E & H & K). destruct h1 as [|[c1 a1] h1]; cbn [app] in E.
  - inversion H; subst. destruct K as [K|(c2 & a2 & h3 & E2 & K)]; [auto|]. injection E2 as <- <- _. auto.
  - injection E as <- <- E. symmetry in E. apply app_eq_nil in E. destruct E as [-> ->].
    inversion H as [|? ? ? d3 ? ? Ef H']; subst. inversion H'; subst. destruct K as [->|(c2 & a2 & h3 & E2 & K)]; [eauto|discriminate].
Qed.

Definition ends {A} (r : result A) : shell := match r with Done _ s | Exited _ s | Signalled _ s | Loops s => s end.
(** Started in a state satisfying [P], [m] keeps [I] at every instant; when it ends normally [Q] holds. *)
Definition along {A} (I P : disk -> Prop) (m : prog A) (Q : A -> disk -> Prop) : Prop := forall s, exists h,
  sh_hist (ends (m s)) = sh_hist s ++ h /\
  forall d, P d -> (forall d', instant d h d' -> I d') /\ (forall v s1 d', m s = Done v s1 -> after d h d' -> Q v d').

Lemma along_ret : forall A (I P : disk -> Prop) (a : A) (Q : A -> disk -> Prop), (forall d, P d -> I d) -> (forall d, P d -> Q a d) -> along I P (ret a) Q.
Proof.
  intros A I P a Q HI HQ s. exists []. cbn [ret ends]. rewrite app_nil_r. split; [reflexivity|]. intros d Hd. split.
  - intros d' H. apply instant_nil in H. subst d'. auto.
  - intros v s1 d' E H. inversion E; subst. inversion H; subst. auto.
Qed.
Lemma along_exit : forall A (I P : disk -> Prop) st (Q : A -> disk -> Prop), (forall d, P d -> I d) -> along I P (exit_with st) Q.
Proof.
  intros A I P st Q HI s. exists []. cbn [exit_with ends]. rewrite app_nil_r. split; [reflexivity|]. intros d Hd. split.
  - intros d' H. apply instant_nil in H. subst d'. auto.
  - intros v s1 d' E H. discriminate.
Qed.
Lemma along_bind : forall A B (I P : disk -> Prop) (m : prog A) (f : A -> prog B) (Q : A -> disk -> Prop) (R : B -> disk -> Prop),
  along I P m Q -> (forall a, along I (Q a) (f a) R) -> along I P (bind m f) R.
Proof.
  intros A B I P m f Q R Hm Hf s. destruct (Hm s) as (h1 & E1 & H1). unfold bind. destruct (m s) as [a s1|st s1|st s1|s1]; cbn [ends] in *.
  - destruct (Hf a s1) as (h2 & E2 & H2). exists (h1 ++ h2). split; [rewrite E2, E1, app_assoc; reflexivity|]. intros d Hd.
    destruct (H1 d Hd) as (I1 & Q1). split.
    + intros d' Hi. apply instant_app in Hi. destruct Hi as [Hi|(d1 & Ha & Hi)]; [auto|]. exact (proj1 (H2 d1 (Q1 a s1 d1 eq_refl Ha)) d' Hi).
    + intros v s2 d' E Ha. apply after_app in Ha. destruct Ha as (d1 & Ha & Hb). exact (proj2 (H2 d1 (Q1 a s1 d1 eq_refl Ha)) v s2 d' E Hb).
  - exists h1. split; [exact E1|]. intros d Hd. split; [apply (H1 d Hd)|]. discriminate.
  - exists h1. split; [exact E1|]. intros d Hd. split; [apply (H1 d Hd)|]. discriminate.
  - exists h1. split; [exact E1|]. intros d Hd. split; [apply (H1 d Hd)|]. discriminate.
Qed.
Lemma along_conseq : forall A (I I' P P' : disk -> Prop) (m : prog A) (Q Q' : A -> disk -> Prop),
  along I P m Q -> (forall d, P' d -> P d) -> (forall d, I d -> I' d) -> (forall a d, Q a d -> Q' a d) -> along I' P' m Q'.
Proof.
  intros A I I' P P' m Q Q' H HP HI HQ s. destruct (H s) as (h & E & K). exists h. split; [exact E|]. intros d Hd.
  destruct (K d (HP d Hd)) as (K1 & K2). split; [auto|]. intros v s1 d' Ev Ha. eauto.
Qed.

Section Rules.
Variable sys : system.
Lemma along_run : forall (I P : disk -> Prop) c (Q : answer -> disk -> Prop),
  (forall d, P d -> I d) ->
  (forall d d' a, P d -> effect c a d d' -> I d' /\ Q a d') -> along I P (run sys c) Q.
Proof.
  intros I P c Q HI HQ s. exists [(c, sys (sh_hist s) c)]. split; [unfold run; destruct (a_signal _); reflexivity|]. intros d Hd. split.
  - intros d' H. apply instant_one in H. destruct H as [->|(a' & H)]; [auto|]. exact (proj1 (HQ d d' a' Hd H)).
  - intros v s1 d' E H. unfold run in E. inversion H as [|? ? ? d1 ? ? Ef H']; subst. inversion H'; subst.
    destruct (a_signal _); [discriminate|]. injection E as <- <-. exact (proj2 (HQ d d' _ Hd Ef)).
Qed.

(** A failure is reported as such. *)
Definition clean {A} (m : prog A) : Prop := forall s,
  match m s with
  | Done _ s1 | Loops s1 => exists h, sh_hist s1 = sh_hist s ++ h
  | Exited st s1 => st <> 0 /\ exists h, sh_hist s1 = sh_hist s ++ h
  | Signalled st s1 => exists h ev, sh_hist s1 = sh_hist s ++ h ++ [ev] /\ a_signal (snd ev) = Some st
  end.
Lemma clean_ret : forall A (a : A), clean (ret a).
Proof. intros A a s. exists []. rewrite app_nil_r. reflexivity. Qed.
Lemma clean_exit : forall A st, st <> 0 -> clean (exit_with (A := A) st).
Proof. intros A st H s. split; [exact H|]. exists []. rewrite app_nil_r. reflexivity. Qed.
Lemma clean_bind : forall A B (m : prog A) (f : A -> prog B), clean m -> (forall a, clean (f a)) -> clean (bind m f).
Proof.
  intros A B m f Hm Hf s. unfold bind. specialize (Hm s). destruct (m s) as [a s1|st s1|st s1|s1]; try exact Hm. destruct Hm as (h1 & E1).
  specialize (Hf a s1). rewrite E1 in Hf. destruct (f a s1) as [b s2|st s2|st s2|s2].
  - destruct Hf as (h2 & E2). exists (h1 ++ h2). rewrite E2, app_assoc. reflexivity.
  - destruct Hf as (Hst & h2 & E2). split; [exact Hst|]. exists (h1 ++ h2). rewrite E2, app_assoc. reflexivity.
  - destruct Hf as (h2 & ev & E2 & Hev). exists (h1 ++ h2), ev. split; [rewrite E2, <- !app_assoc; reflexivity|exact Hev].
  - destruct Hf as (h2 & E2). exists (h1 ++ h2). rewrite E2, app_assoc. reflexivity.
Qed.
Lemma clean_run : forall c, clean (run sys c).
Proof.
  intros c s. unfold run. destruct (a_signal (sys (sh_hist s) c)) as [st|] eqn:E.
  - exists [], (c, sys (sh_hist s) c). split; [reflexivity|exact E].
  - eexists. reflexivity.
Qed.
Lemma clean_step : forall e ws input, clean (step_in sys e ws input).
Proof.
  intros e ws input. apply clean_bind; [apply clean_run|]. intro a. destruct e; [|apply clean_ret]. cbn [andb].
  destruct (Z.eqb_spec (a_status a) 0); [apply clean_ret|apply clean_exit; assumption].
Qed.

(** Every command run satisfies [C]. *)
Definition only {A} (C : command -> Prop) (m : prog A) : Prop := forall s, exists h, sh_hist (ends (m s)) = sh_hist s ++ h /\ Forall (fun ev => C (fst ev)) h.
Lemma only_ret : forall A C (a : A), only C (ret a).
Proof. intros A C a s. exists []. rewrite app_nil_r. split; [reflexivity|constructor]. Qed.
Lemma only_exit : forall A C st, only C (exit_with (A := A) st).
Proof. intros A C st s. exists []. rewrite app_nil_r. split; [reflexivity|constructor]. Qed.
Lemma only_bind : forall A B C (m : prog A) (f : A -> prog B), only C m -> (forall a, only C (f a)) -> only C (bind m f).
Proof.
  intros A B C m f Hm Hf s. destruct (Hm s) as (h1 & E1 & F1). unfold bind. destruct (m s) as [a s1|st s1|st s1|s1]; cbn [ends] in E1; [|exists h1; auto..].
  destruct (Hf a s1) as (h2 & E2 & F2). exists (h1 ++ h2). split; [rewrite E2, E1, app_assoc; reflexivity|]. apply Forall_app. auto.
Qed.
Lemma only_run : forall (C : command -> Prop) c, C c -> only C (run sys c).
Proof.
  intros C c H s. exists [(c, sys (sh_hist s) c)]. split; [unfold run; destruct (a_signal _); reflexivity|]. constructor; [exact H|constructor].
Qed.

(** Commands that leave the files alone. *)
Definition bystander (c : command) : Prop := deed_of c = Bystands.
Definition calm {A} (m : prog A) : Prop := (forall (P : disk -> Prop), along P P m (fun _ => P)) /\ clean m /\ only bystander m.
Lemma calm_ret : forall A (a : A), calm (ret a).
Proof. intros A a. split; [intro P; apply along_ret; auto|split; [apply clean_ret|apply only_ret]]. Qed.
Lemma calm_exit : forall A st, st <> 0 -> calm (exit_with (A := A) st).
Proof. intros A st H. split; [intro P; apply along_exit; auto|split; [apply clean_exit; exact H|apply only_exit]]. Qed.
Lemma calm_bind : forall A B (m : prog A) (f : A -> prog B), calm m -> (forall a, calm (f a)) -> calm (bind m f).
Proof.
  intros A B m f (Hm & Cm & Om) Hf. split; [|split; [apply clean_bind; [exact Cm|intro a; apply Hf]|apply only_bind; [exact Om|intro a; apply Hf]]]. intro P. eapply along_bind; [apply Hm|]. intro a. apply Hf.
Qed.
Lemma calm_run : forall c, deed_of c = Bystands -> calm (run sys c).
Proof.
  intros c H. split; [|split; [apply clean_run|apply only_run; exact H]]. intro P. apply along_run; [auto|]. intros d d' a Hd He. unfold effect in He. rewrite H in He. subst d'. auto.
Qed.
Lemma calm_query : forall ws, deed_of (argv ws) = Bystands -> calm (query sys ws).
Proof. intros ws H. apply calm_bind; [apply calm_run; exact H|]. intro a. apply calm_ret. Qed.
Lemma calm_output : forall ws, deed_of (argv ws) = Bystands -> calm (output sys ws).
Proof. intros ws H. apply calm_bind; [apply calm_run; exact H|]. intro a. apply calm_ret. Qed.
Lemma calm_cond : forall ws, deed_of (argv ws) = Bystands -> calm (cond sys ws).
Proof. intros ws H. apply calm_bind; [apply calm_run; exact H|]. intro a. apply calm_ret. Qed.
Lemma calm_step : forall e ws input, deed_of (mk_cmd ws input) = Bystands -> calm (step_in sys e ws input).
Proof. intros e ws input H. apply calm_bind; [apply calm_run; exact H|]. intro a. destruct e; [|apply calm_ret]. cbn [andb]. destruct (Z.eqb_spec (a_status a) 0); [apply calm_ret|apply calm_exit; assumption]. Qed.
Lemma calm_for_each : forall A (f : A -> prog Z) l, (forall x, In x l -> calm (f x)) -> calm (for_each f l).
Proof.
  induction l as [|x l IH]; intro H; cbn [for_each]; [apply calm_ret|]. apply calm_bind; [apply H; left; reflexivity|]. intros _. apply IH. intros y Hy. apply H. right. exact Hy.
Qed.
Lemma calm_flags : forall A (f : bool -> bool -> prog A), (forall x y, calm (f x y)) -> calm (flags f).
Proof. intros A f H. split; [intros P s; exact (proj1 (H (sh_dns s) (sh_fw s)) P s)|split; intro s; [exact (proj1 (proj2 (H (sh_dns s) (sh_fw s))) s)|exact (proj2 (proj2 (H (sh_dns s) (sh_fw s))) s)]]. Qed.

Variable glob : list Z -> list (list Z).
Variable fuel : nat.
Variable ifc : list Z.
Variable o : options.
Variable conf : list Z.
Variable amp : bool.

Ltac by_word := reflexivity.
Lemma calm_prefix : calm (resolvconf_iface_prefix sys).
Proof.
  unfold resolvconf_iface_prefix. apply calm_bind; [apply calm_cond; by_word|]. intros [|]; [|apply calm_ret].
  apply calm_bind; [apply calm_output; by_word|]. intro. apply calm_ret.
Qed.
Lemma calm_unset_dns : forall e, calm (unset_dns sys ifc o e).
Proof.
  intro e. unfold unset_dns. destruct (o_dns o); [apply calm_ret|]. apply calm_bind; [apply calm_prefix|]. intro p. apply calm_step. by_word.
Qed.
Lemma calm_remove_firewall : forall e, calm (remove_firewall sys ifc e).
Proof.
  intro e. unfold remove_firewall. apply calm_bind; [apply calm_cond; by_word|]. intro nft. apply calm_bind.
  - destruct nft; [|apply calm_ret]. apply calm_bind; [apply calm_output; by_word|]. intro t. destruct (nft_deletes ifc (read_complete t)); [apply calm_ret|apply calm_step; by_word].
  - intros _. apply calm_bind; [apply calm_cond; by_word|]. intros [|]; [|apply calm_ret]. apply calm_for_each. intros i Hi.
    unfold remove_iptables. destruct Hi as [<-|[<-|[]]].
    + apply calm_bind; [apply calm_output; by_word|]. intro dump. cbv zeta. destruct (restore_found _ _); [apply calm_step; by_word|apply calm_ret].
    + apply calm_bind; [apply calm_output; by_word|]. intro dump. cbv zeta. destruct (restore_found _ _); [apply calm_step; by_word|apply calm_ret].
Qed.
Lemma calm_get_fwmark : calm (get_fwmark sys ifc).
Proof.
  unfold get_fwmark. apply calm_bind; [apply calm_run; by_word|]. intro a. destruct (negb _); [apply calm_ret|]. cbv zeta. destruct (_ || _); apply calm_ret.
Qed.
Lemma calm_delete_rules : forall n e pr pat del, calm (delete_rules sys n e pr pat del).
Proof.
  induction n as [|n IH]; intros e pr pat del; cbn [delete_rules].
  - split; [|split; intro s; exists []; rewrite app_nil_r; [reflexivity|split; [reflexivity|constructor]]]. intros P s. exists []. cbn [ends]. rewrite app_nil_r. split; [reflexivity|]. intros d Hd. split; [intros d' H; apply instant_nil in H; subst; exact Hd|discriminate].
  - apply calm_bind; [apply calm_query; by_word|]. intro out. destruct (contains pat out); [|apply calm_ret].
    apply calm_bind; [apply calm_step; by_word|]. intros _. apply IH.
Qed.
Lemma calm_hooks : forall e l, calm (execute_hooks sys ifc e l).
Proof. intros e l. unfold execute_hooks. apply calm_for_each. intros x _. apply calm_step. by_word. Qed.
Lemma calm_del_if : forall e, calm (del_if sys fuel ifc o e).
Proof.
  intro e. unfold del_if. apply calm_bind; [apply calm_flags; intros [|] y; [apply calm_unset_dns|apply calm_ret]|]. intros _.
  apply calm_bind; [apply calm_flags; intros x [|]; [apply calm_remove_firewall|apply calm_ret]|]. intros _.
  apply calm_bind; [|intros _; apply calm_step; by_word]. destruct (auto_table o); [|apply calm_ret].
  apply calm_bind; [apply calm_get_fwmark|]. intros [t|]; [|apply calm_ret]. apply calm_bind; [apply calm_query; by_word|]. intro out.
  destruct (has_default out); [|apply calm_ret]. cbv zeta. repeat (apply calm_bind; [apply calm_delete_rules|]; intros _). apply calm_delete_rules.
Qed.
Lemma calm_down_rest : calm (down_rest sys fuel ifc o).
Proof.
  unfold down_rest. apply calm_bind; [apply calm_del_if|]. intros _. apply calm_bind; [apply calm_unset_dns|]. intros _.
  apply calm_bind; [apply calm_remove_firewall|]. intros _. apply calm_hooks.
Qed.
Lemma calm_check : calm (check_interface sys ifc).
Proof.
  unfold check_interface, is_wireguard. apply calm_bind; [|intros [|]; [apply calm_ret|apply calm_exit; discriminate]].
  apply calm_bind; [apply calm_query; by_word|]. intro. apply calm_ret.
Qed.
Lemma calm_gather : calm (gather sys glob ifc o).
Proof.
  unfold gather. apply calm_bind; [apply calm_query; by_word|]. intro out. apply calm_bind.
  - unfold resolver_text. apply calm_bind; [apply calm_prefix|]. intro p. apply calm_bind; [apply calm_run; by_word|]. intro r.
    destruct (a_status r =? 0); [apply calm_ret|]. apply calm_bind; [apply calm_prefix|]. intro p2. apply calm_bind; [apply calm_output; by_word|]. intro. apply calm_ret.
  - intro ns. apply calm_bind; [|intro; apply calm_ret]. destruct (o_mtu o); [apply calm_ret|].
    apply calm_bind; [apply calm_query; by_word|]. intro. apply calm_ret.
Qed.
End Rules.
