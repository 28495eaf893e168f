(** C42: bringing an interface up.  Statements use [cmd_up] (QuickRun.v) and QuickRunSpec; they hold for every system, that is, whatever the
    commands answer and whenever they fail. *)
From Coq Require Import String ZArith List Bool Lia.
From Verif Require Import Base Cstr Bash Quick QuickRun QuickRunSpec QuickRunProofs QuickUpProofs.
Import ListNotations.
Open Scope Z_scope.

(** ** [present] determines whether the interface exists. *)
Lemma command_eq_dec : forall a b : command, {a = b} + {a <> b}.
Proof. decide equality; [apply list_Z_eq_dec|apply list_eq_dec, list_Z_eq_dec]. Qed.

Lemma present_total : forall us ifc h, exists b, present us ifc h b.
Proof.
  intros us ifc h. induction h as [|[c a] h IH] using rev_ind; [exists false; constructor|]. destruct IH as (b & IH).
  destruct (Z.eq_dec (a_status a) 0) as [Z0|N].
  - destruct (command_eq_dec c (link_delete ifc)) as [->|N1]; [exists false; econstructor; eauto; reflexivity|].
    destruct (command_eq_dec c (link_add ifc)) as [->|N2]; [exists true; econstructor; eauto; left; reflexivity|].
    destruct (command_eq_dec c (start_userspace us ifc)) as [->|N3]; [exists true; econstructor; eauto; right; reflexivity|].
    exists b. apply pr_other; [exact IH|]. left. repeat split; assumption.
  - exists b. apply pr_other; [exact IH|]. right. exact N.
Qed.

Lemma present_fun : forall us ifc h b b', present us ifc h b -> present us ifc h b' -> b = b'.
Proof.
  intros us ifc h b b' H. revert b'. induction H as [|h b c a H IH Hm Hs|h b c a H IH Hm Hs|h b c a H IH Hm]; intros b' H'.
  - inversion H' as [|h0 b0 c0 a0 ? ? ? E|h0 b0 c0 a0 ? ? ? E|h0 b0 c0 a0 ? ? E]; [reflexivity| | |]; destruct h0; discriminate.
  - inversion H' as [E|h0 b0 c0 a0 P M S E|h0 b0 c0 a0 P M S E|h0 b0 c0 a0 P M E]; [destruct h; discriminate| | |];
      apply app_inj_tail in E as [-> E]; injection E as -> ->; [reflexivity| |].
    + exfalso. cbn in Hm, M. rewrite M in Hm. destruct Hm as [Hm|Hm]; discriminate Hm.
    + exfalso. cbn in Hm, M. tauto.
  - inversion H' as [E|h0 b0 c0 a0 P M S E|h0 b0 c0 a0 P M S E|h0 b0 c0 a0 P M E]; [destruct h; discriminate| | |];
      apply app_inj_tail in E as [-> E]; injection E as -> ->; [|reflexivity|].
    + exfalso. cbn in Hm, M. rewrite Hm in M. destruct M as [M|M]; discriminate M.
    + exfalso. cbn in Hm, M. tauto.
  - inversion H' as [E|h0 b0 c0 a0 P M S E|h0 b0 c0 a0 P M S E|h0 b0 c0 a0 P M E]; [destruct h; discriminate| | |];
      apply app_inj_tail in E as [-> E]; injection E as -> ->; [| |apply IH, P]; exfalso; cbn in Hm, M; tauto.
Qed.

Lemma present_other : forall us ifc h1 h2 b, present us ifc h1 b ->
  Forall (fun ev => nodel ifc us (fst ev)) h2 -> present us ifc (h1 ++ h2) b.
Proof.
  intros us ifc h1 h2 b H. induction h2 as [|[c a] h2 IH] using rev_ind; intro HF; [rewrite app_nil_r; exact H|].
  apply Forall_app in HF as [HF Hc]. inversion Hc as [|? ? (N1 & N2 & N3) _]; subst. cbn [fst] in *. rewrite app_assoc. apply pr_other; [apply IH, HF|].
  left. split; [exact N2|]. split; [exact N3|exact N1].
Qed.

Lemma present_nocreate : forall us ifc h1 h2, present us ifc h1 false ->
  Forall (fun ev => nocreate ifc us (fst ev)) h2 -> present us ifc (h1 ++ h2) false.
Proof.
  intros us ifc h1 h2 H. induction h2 as [|[c a] h2 IH] using rev_ind; intro HF; [rewrite app_nil_r; exact H|].
  apply Forall_app in HF as [HF Hc]. inversion Hc as [|? ? (N1 & N2) _]; subst. cbn [fst] in *. rewrite app_assoc. specialize (IH HF).
  destruct (Z.eq_dec (a_status a) 0) as [Z0|N].
  - destruct (command_eq_dec c (link_delete ifc)) as [->|N3]; [eapply pr_deletes; eauto; reflexivity|].
    apply pr_other; [exact IH|]. left. repeat split; assumption.
  - apply pr_other; [exact IH|]. right. exact N.
Qed.

(** ** Creation *)
Definition exists_question (ifc : list Z) : command := argv [str "ip"; str "link"; str "show"; str "dev"; ifc].

(** The interface was made by the kernel, or, failing that and without the kernel module, by the userspace implementation. *)
Definition creation (us ifc : list Z) (h : history) : Prop :=
  (exists a, h = [(link_add ifc, a)] /\ a_status a = 0) \/
  (exists a b c d, h = [(link_add ifc, a); (argv [str "test"; str "-e"; str "/sys/module/wireguard"], b);
                        (argv [str "command"; str "-v"; us], c); (start_userspace us ifc, d)] /\
                   a_status a <> 0 /\ a_status b <> 0 /\ a_status c = 0 /\ a_status d = 0).
(** It could not be made: then there is something to clean up only if someone else made it. *)
Definition no_creation (us ifc : list Z) (h : history) (st : Z) : Prop :=
  (exists a b, h = [(link_add ifc, a); (argv [str "test"; str "-e"; str "/sys/module/wireguard"], b)] /\
               a_status a <> 0 /\ a_status b = 0 /\ st = 0) \/
  (exists a b c, h = [(link_add ifc, a); (argv [str "test"; str "-e"; str "/sys/module/wireguard"], b);
                      (argv [str "command"; str "-v"; us], c)] /\
                 a_status a <> 0 /\ a_status b <> 0 /\ a_status c <> 0 /\ st = 0) \/
  (exists a b c d, h = [(link_add ifc, a); (argv [str "test"; str "-e"; str "/sys/module/wireguard"], b);
                        (argv [str "command"; str "-v"; us], c); (start_userspace us ifc, d)] /\
                   a_status a <> 0 /\ a_status b <> 0 /\ a_status c = 0 /\ a_status d = st /\ st <> 0).

Lemma add_if_cases : forall sys ifc us s,
  match add_if sys ifc us true s with
  | Done _ s1 => exists h, sh_hist s1 = sh_hist s ++ h /\ undisturbed h /\ creation us ifc h
  | Exited st s1 => exists h, sh_hist s1 = sh_hist s ++ h /\ undisturbed h /\ no_creation us ifc h st
  | Signalled st s1 => exists h ev, sh_hist s1 = sh_hist s ++ h ++ [ev] /\ a_signal (snd ev) = Some st /\ undisturbed h
  | Loops s1 => False
  end.
Proof.
  intros sys ifc us s. unfold add_if, cond, step, step_in, bind, run, ret, exit_with.
  set (c1 := argv [str "ip"; str "link"; str "add"; ifc; str "type"; str "wireguard"]). set (a1 := sys (sh_hist s) c1).
  destruct (a_signal a1) as [x1|] eqn:S1.
  { exists [], (c1, a1). split; [reflexivity|]. split; [exact S1|intros ev []]. }
  destruct (Z.eqb_spec (a_status a1) 0) as [E1|E1].
  { cbn [sh_hist]. exists [(c1, a1)]. split; [reflexivity|]. split.
    - intros ev [<-|[]]. exact S1.
    - left. exists a1. auto. }
  cbn [sh_hist]. set (c2 := argv [str "test"; str "-e"; str "/sys/module/wireguard"]). set (a2 := sys _ c2).
  destruct (a_signal a2) as [x2|] eqn:S2.
  { cbn [sh_hist]. exists [(c1, a1)], (c2, a2). split; [rewrite <- app_assoc; reflexivity|]. split; [exact S2|]. intros ev [<-|[]]; assumption. }
  destruct (Z.eqb_spec (a_status a2) 0) as [E2|E2].
  { cbn [sh_hist]. exists [(c1, a1); (c2, a2)]. split; [rewrite <- app_assoc; reflexivity|]. split.
    - intros ev [<-|[<-|[]]]; assumption.
    - left. exists a1, a2. auto. }
  cbn [sh_hist]. set (c3 := argv [str "command"; str "-v"; us]). set (a3 := sys _ c3).
  destruct (a_signal a3) as [x3|] eqn:S3.
  { cbn [sh_hist]. exists [(c1, a1); (c2, a2)], (c3, a3). split; [rewrite <- !app_assoc; reflexivity|]. split; [exact S3|]. intros ev [<-|[<-|[]]]; assumption. }
  destruct (Z.eqb_spec (a_status a3) 0) as [E3|E3]; cbn [negb].
  2:{ cbn [sh_hist]. exists [(c1, a1); (c2, a2); (c3, a3)]. split; [rewrite <- !app_assoc; reflexivity|]. split.
      - intros ev [<-|[<-|[<-|[]]]]; assumption.
      - right. left. exists a1, a2, a3. auto. }
  cbn [sh_hist]. fold (argv [us; ifc]). set (c4 := argv [us; ifc]). set (a4 := sys _ c4).
  destruct (a_signal a4) as [x4|] eqn:S4.
  { cbn [sh_hist]. exists [(c1, a1); (c2, a2); (c3, a3)], (c4, a4). split; [rewrite <- !app_assoc; reflexivity|]. split; [exact S4|]. intros ev [<-|[<-|[<-|[]]]]; assumption. }
  destruct (Z.eqb_spec (a_status a4) 0) as [E4|E4]; cbn [negb andb].
  - cbn [sh_hist]. exists [(c1, a1); (c2, a2); (c3, a3); (c4, a4)]. split; [rewrite <- !app_assoc; reflexivity|]. split.
    + intros ev [<-|[<-|[<-|[<-|[]]]]]; assumption.
    + right. exists a1, a2, a3, a4. auto.
  - cbn [sh_hist]. exists [(c1, a1); (c2, a2); (c3, a3); (c4, a4)]. split; [rewrite <- !app_assoc; reflexivity|]. split.
    + intros ev [<-|[<-|[<-|[<-|[]]]]]; assumption.
    + right. right. exists a1, a2, a3, a4. repeat split; auto.
Qed.

Lemma quiet_all_well : forall C h, quiet C h -> all_well h.
Proof.
  intros C h H ev st Hi (Ha & Hs & Hn). unfold quiet in H. rewrite Forall_forall in H. destruct (H ev Hi) as (_ & _ & [D|D]); congruence.
Qed.
Lemma quiet_C : forall C h, quiet C h -> Forall (fun ev => C (fst ev)) h.
Proof. intros C h. apply Forall_impl. tauto. Qed.

Lemma present_creation : forall us ifc q a h, a_status a = 0 \/ True -> creation us ifc h -> q = exists_question ifc -> known us = false ->
  present us ifc ((q, a) :: h) true.
Proof.
  intros us ifc q a h _ Hc -> Hk.
  assert (P0 : present us ifc [(exists_question ifc, a)] false).
  { apply (pr_other us ifc [] false); [constructor|]. left. split; [discriminate|]. split; [|discriminate].
    intro E. injection E as E _. rewrite <- E in Hk. discriminate. }
  destruct Hc as [(x & -> & Hx)|(x & b & c & d & -> & Hx & Hb & Hcc & Hd)].
  - apply (pr_creates us ifc [_] false); [exact P0|left; reflexivity|exact Hx].
  - apply (pr_creates us ifc [_; _; _; _] false); [|right; reflexivity|exact Hd].
    apply (pr_other us ifc [_; _; _] false).
    + apply (pr_other us ifc [_; _] false); [|right; exact Hb]. apply (pr_other us ifc [_] false); [exact P0|right; exact Hx].
    + left. split; [discriminate|]. split; discriminate.
Qed.

(** ** What 'wg-quick up' does: either every command succeeds, in the documented order, and the interface is there; or the first failure is
    followed by the cleanup alone.  If the cleanup does not fail, the interface is gone and the first failure is the exit status; if it does,
    its failure is the exit status. *)
Definition no_creating (us ifc : list Z) (h : history) : Prop := Forall (fun ev => ~ means us ifc (fst ev) Creates) h.
Inductive undone (us ifc : list Z) (before : history) (st0 : Z) : history -> Z -> Prop :=
| un_done : forall cl, all_well cl -> no_creating us ifc cl -> present us ifc (before ++ cl) false -> undone us ifc before st0 cl st0
| un_failed : forall cl ev st, all_well cl -> no_creating us ifc (cl ++ [ev]) -> failed ev st -> undone us ifc before st0 (cl ++ [ev]) st.

Lemma no_creating_of : forall us ifc h, Forall (fun ev => nocreate ifc us (fst ev)) h -> no_creating us ifc h.
Proof. intros us ifc h. apply Forall_impl. intros ev (N1 & N2) [E|E]; contradiction. Qed.
Lemma nodel_creating : forall us ifc h, Forall (fun ev => nodel ifc us (fst ev)) h -> no_creating us ifc h.
Proof. intros us ifc h. apply Forall_impl. intros ev (N0 & N1 & N2) [E|E]; contradiction. Qed.

(** The cleanup. *)
Lemma exit_trap_undone : forall sys fuel ifc o us st st0 s1 h, known us = false ->
  exit_trap (del_if sys fuel ifc o true) st0 s1 = (Some st, h) ->
  exists cl, h = sh_hist s1 ++ cl /\ (undisturbed cl -> undone us ifc (sh_hist s1) st0 cl st).
Proof.
  intros sys fuel ifc o us st st0 s1 h Hk HX. pose proof (del_if_good sys fuel ifc o us Hk s1) as D. unfold exit_trap in HX.
  destruct (del_if sys fuel ifc o true s1) as [v s2|st2 s2|st2 s2|s2]; [| | |discriminate]; injection HX as <- <-.
  - destruct D as (hd & -> & Hq & hl & x & -> & Hx). exists (hl ++ [(link_delete ifc, x)]). split; [reflexivity|]. intros _.
    apply un_done; [eapply quiet_all_well; exact Hq|apply no_creating_of; eapply quiet_C; exact Hq|]. rewrite app_assoc.
    destruct (present_total us ifc (sh_hist s1 ++ hl)) as (b & Pb). eapply pr_deletes; [exact Pb|reflexivity|exact Hx].
  - destruct D as (hd & ev & -> & Hq & HC & _ & Hf). exists (hd ++ [ev]). split; [reflexivity|]. intros _.
    apply un_failed; [eapply quiet_all_well; exact Hq| |exact Hf]. apply no_creating_of. apply Forall_app. split; [eapply quiet_C; exact Hq|].
    constructor; [exact HC|constructor].
  - destruct D as (hd & ev & E & _ & _ & Hs). exists (hd ++ [ev]). split; [exact E|]. intro Hu. specialize (Hu ev). rewrite Hs in Hu.
    discriminate Hu. apply in_or_app. right. left. reflexivity.
Qed.

Lemma undisturbed_app : forall h1 h2, undisturbed (h1 ++ h2) <-> undisturbed h1 /\ undisturbed h2.
Proof.
  intros h1 h2. unfold undisturbed. split.
  - intro H. split; intros ev Hi; apply H, in_or_app; auto.
  - intros [H1 H2] ev Hi. apply in_app_or in Hi as [Hi|Hi]; auto.
Qed.

Theorem C42_up : forall sys glob fuel ifc o us st h, known us = false ->
  cmd_up sys glob fuel ifc o us = (Some st, h) -> undisturbed h ->
  exists a rest, h = (exists_question ifc, a) :: rest /\
    ((captured (a_output a) <> [] /\ rest = [] /\ st = 1) \/
     (captured (a_output a) = [] /\
      ((exists cr body, rest = cr ++ body /\ creation us ifc cr /\ all_well body /\ no_creating us ifc body /\ documented_order ifc o (changes body) /\
                        st = 0 /\ present us ifc h true) \/
       (exists cr body ev st0 cl, rest = cr ++ body ++ ev :: cl /\ creation us ifc cr /\ all_well body /\ no_creating us ifc (body ++ [ev]) /\ failed ev st0 /\
                        undone us ifc ((exists_question ifc, a) :: cr ++ body ++ [ev]) st0 cl st) \/
       (exists cr st0 cl, rest = cr ++ cl /\ no_creation us ifc cr st0 /\
                        undone us ifc ((exists_question ifc, a) :: cr) st0 cl st)))).
Proof.
  intros sys glob fuel ifc o us st h Hk H Hu. unfold cmd_up, query, bind, run, ret in H.
  set (q := argv [str "ip"; str "link"; str "show"; str "dev"; ifc]) in H. change q with (exists_question ifc) in *.
  set (a := sys _ (exists_question ifc)) in H. cbn [sh_hist sh_dns sh_fw app] in H.
  destruct (a_signal a) as [x|] eqn:S.
  { injection H as <- <-. specialize (Hu _ (or_introl eq_refl)). cbn in Hu. congruence. }
  destruct (negb (beq (captured (a_output a)) [])) eqn:E0.
  { injection H as <- <-. exists a, []. split; [reflexivity|]. left. apply negb_true_iff, beq_neq in E0. auto. }
  apply negb_false_iff, beq_eq in E0.
  set (s0 := mk_shell [(exists_question ifc, a)] false false) in *.
  (* the cleanup *)
  assert (CL : forall st0 s1, exit_trap (del_if sys fuel ifc o true) st0 s1 = (Some st, h) ->
                 exists cl, h = sh_hist s1 ++ cl /\ undone us ifc (sh_hist s1) st0 cl st).
  { intros st0 s1 HX. destruct (exit_trap_undone sys fuel ifc o us st st0 s1 h Hk HX) as (cl & E & HU). exists cl. split; [exact E|]. apply HU.
    rewrite E in Hu. apply undisturbed_app in Hu as [_ Hu]. exact Hu. }
  assert (SG : forall s1 st1 hx evx, sh_hist s1 = hx ++ [evx] -> a_signal (snd evx) = Some st1 ->
     match del_if sys fuel ifc o true s1 with
      | Done _ s2 => exit_trap (del_if sys fuel ifc o true) st1 s2
      | Exited st2 s2 | Signalled st2 s2 => exit_trap (del_if sys fuel ifc o true) st2 s2
      | Loops s2 => (None, sh_hist s2)
      end = (Some st, h) -> False).
  { intros s1 st1 hx evx E Hs HX.
    assert (HI : forall st2 s2, (exists t, sh_hist s2 = sh_hist s1 ++ t) -> exit_trap (del_if sys fuel ifc o true) st2 s2 = (Some st, h) -> False).
    { intros st2 s2 (t & Et) HY. destruct (CL _ _ HY) as (cl & -> & _). specialize (Hu evx). rewrite Hs in Hu. discriminate Hu.
      rewrite Et, E. apply in_or_app. left. apply in_or_app. left. apply in_or_app. right. left. reflexivity. }
    pose proof (del_if_good sys fuel ifc o us Hk s1) as D. destruct (del_if sys fuel ifc o true s1) as [v s2|st2 s2|st2 s2|s2]; [| | |discriminate].
    - destruct D as (hd & Ed & _). apply (HI _ _ (ex_intro _ _ Ed) HX).
    - destruct D as (hd & ev & Ed & _). apply (HI _ _ (ex_intro _ _ Ed) HX).
    - destruct D as (hd & ev & Ed & _). apply (HI _ _ (ex_intro _ _ Ed) HX). }
  unfold guarded in H.
  change (up_body sys glob fuel ifc o us) with (bind (add_if sys ifc us true) (fun _ => rest_body sys glob fuel ifc o)) in H.
  unfold bind in H.
  pose proof (add_if_cases sys ifc us s0) as A. destruct (add_if sys ifc us true s0) as [v s1|st1 s1|st1 s1|s1]; [| | |contradiction].
  - (* created *)
    cbv beta iota in H. destruct A as (cr & E1 & Hu1 & Hcr). pose proof (rest_body_good sys glob fuel ifc o us Hk s1) as G.
    destruct (rest_body sys glob fuel ifc o s1) as [v2 s2|st2 s2|st2 s2|s2]; [| | |discriminate].
    + cbn [ret] in H. injection H as <- <-. destruct G as (body & E2 & Hq & Ho). exists a, (cr ++ body).
      assert (Eh : sh_hist s2 = (exists_question ifc, a) :: cr ++ body) by (rewrite E2, E1; reflexivity).
      split; [exact Eh|]. right. split; [exact E0|]. left. exists cr, body. split; [reflexivity|]. split; [exact Hcr|].
      split; [eapply quiet_all_well; exact Hq|]. split; [eapply nodel_creating, quiet_C; exact Hq|]. split; [apply up_order_documented, Ho|]. split; [reflexivity|]. rewrite Eh.
      apply (present_other us ifc ((exists_question ifc, a) :: cr) body true); [|eapply quiet_C; exact Hq].
      apply present_creation; auto.
    + destruct G as (body & ev & E2 & Hq & HC & _ & Hf). destruct (CL _ _ H) as (cl & -> & Hun).
      rewrite E2, E1 in Hun |- *. cbn [s0 sh_hist app] in Hun |- *. exists a, (cr ++ body ++ ev :: cl).
      split; [rewrite <- !app_assoc; reflexivity|]. right. split; [exact E0|]. right. left.
      exists cr, body, ev, st2, cl. split; [reflexivity|]. split; [exact Hcr|]. split; [eapply quiet_all_well; exact Hq|].
      split; [eapply nodel_creating; apply Forall_app; split; [eapply quiet_C; exact Hq|constructor; [exact HC|constructor]]|]. split; [exact Hf|]. exact Hun.
    + exfalso. destruct G as (body & ev & E2 & Hq & _ & Hs). eapply (SG s2 st2 (sh_hist s1 ++ body) ev); [rewrite E2, app_assoc; reflexivity|exact Hs|exact H].
  - destruct A as (cr & E1 & Hu1 & Hcr). destruct (CL _ _ H) as (cl & -> & Hun). rewrite E1 in Hun |- *. cbn [s0 sh_hist app] in Hun |- *.
    exists a, (cr ++ cl). split; [reflexivity|]. right. split; [exact E0|]. right. right. exists cr, st1, cl. auto.
  - exfalso. destruct A as (hx & ev & E1 & Hs & _). eapply (SG s1 st1 (sh_hist s0 ++ hx) ev); [rewrite E1, app_assoc; reflexivity|exact Hs|exact H].
Qed.

(** A creation lies in the creation phase only. *)
Lemma creation_split : forall us ifc a cr p c x q, creation us ifc cr -> known us = false ->
  (exists_question ifc, a) :: cr = p ++ (c, x) :: q -> means us ifc c Creates -> a_status x = 0 -> q = [].
Proof.
  intros us ifc a cr p c x q Hcr Hk E Hm Hx.
  assert (NQ : c <> exists_question ifc).
  { intros ->. destruct Hm as [E1|E1]; [discriminate|]. injection E1 as E1 _. rewrite <- E1 in Hk. discriminate. }
  destruct p as [|e0 p]; [injection E as E0 _ _; congruence|]. injection E as _ E.
  destruct Hcr as [(b & -> & Hb)|(b & b1 & b2 & b3 & -> & Hb & Hb1 & Hb2 & Hb3)].
  - destruct p as [|e1 p]; [injection E; intros; subst; reflexivity|]. injection E as _ E. destruct p; discriminate.
  - destruct p as [|e1 p]; [injection E; intros; subst; congruence|]. injection E as _ E.
    destruct p as [|e2 p]; [injection E; intros; subst; congruence|]. injection E as _ E.
    destruct p as [|e3 p].
    { injection E; intros; subst. exfalso. destruct Hm as [E1|E1]; [discriminate|]. injection E1 as E1 _. rewrite <- E1 in Hk. discriminate. }
    injection E as _ E. destruct p as [|e4 p]; [injection E; intros; subst; reflexivity|]. injection E as _ E. destruct p; discriminate.
Qed.

Lemma no_creation_split : forall us ifc a cr st p c x q, no_creation us ifc cr st -> known us = false ->
  (exists_question ifc, a) :: cr = p ++ (c, x) :: q -> means us ifc c Creates -> a_status x = 0 -> False.
Proof.
  intros us ifc a cr st p c x q Hcr Hk E Hm Hx.
  assert (HI : In (c, x) ((exists_question ifc, a) :: cr)) by (rewrite E; apply in_or_app; right; left; reflexivity).
  assert (NT : forall w ws, known w = true -> begins [str "ip"; str "link"; str "add"] (w :: ws) = false -> c <> argv (w :: ws)).
  { intros w ws Hw Hn ->. destruct Hm as [E1|E1]; injection E1; intros; subst; [discriminate Hn|congruence]. }
  destruct HI as [HI|HI]; [injection HI as <- <-; (refine (NT _ _ _ _ eq_refl); reflexivity)|].
  destruct Hcr as [(b & b1 & -> & Hb & Hb1 & _)|[(b & b1 & b2 & -> & Hb & Hb1 & Hb2 & _)|(b & b1 & b2 & b3 & -> & Hb & Hb1 & Hb2 & Hb3 & Hst)]].
  - destruct HI as [HI|[HI|[]]]; injection HI as <- <-; [congruence|(refine (NT _ _ _ _ eq_refl); reflexivity)].
  - destruct HI as [HI|[HI|[HI|[]]]]; injection HI as <- <-; [congruence| |]; (refine (NT _ _ _ _ eq_refl); reflexivity).
  - destruct HI as [HI|[HI|[HI|[HI|[]]]]]; injection HI as <- <-; [congruence| | |congruence]; (refine (NT _ _ _ _ eq_refl); reflexivity).
Qed.

Lemma app_split : forall (A : Type) (a b p q : list A) x, a ++ b = p ++ x :: q ->
  (exists q', a = p ++ x :: q' /\ q = q' ++ b) \/ (exists p', b = p' ++ x :: q /\ p = a ++ p').
Proof.
  intros A a. induction a as [|y a IH]; intros b p q x E; [right; exists p; auto|]. destruct p as [|z p].
  - injection E as -> <-. left. exists a. auto.
  - injection E as -> E. destruct (IH _ _ _ _ E) as [(q' & -> & ->)|(p' & -> & ->)]; [left; exists q'; auto|right; exists p'; auto].
Qed.

(** Where the creation is. *)
Lemma not_creating : forall us ifc h p c x q, no_creating us ifc h -> h = p ++ (c, x) :: q -> means us ifc c Creates -> False.
Proof. intros us ifc h p c x q H -> Hm. apply Forall_app in H as [_ H]. inversion H; subst. contradiction. Qed.

Lemma undone_creating : forall us ifc b st0 cl st, undone us ifc b st0 cl st -> no_creating us ifc cl.
Proof. intros us ifc b st0 cl st H. destruct H; assumption. Qed.

(** If a change fails after the interface was created, 'wg-quick up' fails; and if that is the only failure, the interface is gone and the
    exit status is that of the failed command. *)
Theorem C42_reported : forall sys glob fuel ifc o us st h h0 c a h1 ev st0 h2, known us = false ->
  cmd_up sys glob fuel ifc o us = (Some st, h) -> undisturbed h ->
  h = h0 ++ (c, a) :: h1 ++ ev :: h2 -> means us ifc c Creates -> a_status a = 0 -> failed ev st0 ->
  st <> 0 /\ (all_well h1 -> all_well h2 -> st = st0 /\ present us ifc h false).
Proof.
  intros sys glob fuel ifc o us st h h0 c a h1 ev st0 h2 Hk H Hu Eh Hm Ha Hf.
  assert (NW : forall l, all_well l -> In ev l -> False) by (intros l Hw Hi; exact (Hw _ _ Hi Hf)).
  destruct (C42_up sys glob fuel ifc o us st h Hk H Hu) as (qa & rest & E & [(_ & -> & _)|(_ & HC)]).
  { rewrite E in Eh. destruct h0 as [|e h0]; [injection Eh; intros; destruct h1; discriminate|]. injection Eh as _ Eh. destruct h0; discriminate. }
  destruct HC as [(cr & body & -> & Hcr & Hw & Hn & _)|[(cr & body & e & s0 & cl & -> & Hcr & Hw & Hn & He & Hun)|(cr & s0 & cl & -> & Hcr & Hun)]].
  - exfalso. rewrite E in Eh. rewrite app_comm_cons in Eh. apply app_split in Eh as [(q' & E1 & E2)|(p' & E1 & _)].
    + pose proof (creation_split _ _ _ _ _ _ _ _ Hcr Hk E1 Hm Ha) as ->. cbn [app] in E2. apply (NW body Hw). rewrite <- E2. apply in_or_app. right. left. reflexivity.
    + eapply not_creating; [exact Hn|exact E1|exact Hm].
  - rewrite E in Eh. rewrite app_comm_cons in Eh. apply app_split in Eh as [(q' & E1 & E2)|(p' & E1 & _)].
    2:{ exfalso. eapply not_creating; [|exact E1|exact Hm]. change (e :: cl) with ([e] ++ cl). rewrite app_assoc. apply Forall_app.
        split; [exact Hn|eapply undone_creating; exact Hun]. }
    pose proof (creation_split _ _ _ _ _ _ _ _ Hcr Hk E1 Hm Ha) as ->. cbn [app] in E2. symmetry in E2.
    apply app_split in E2 as [(q' & E2 & _)|(p' & E2 & E3)]; [exfalso; apply (NW body Hw); rewrite E2; apply in_or_app; right; left; reflexivity|].
    assert (Hs0 : s0 <> 0) by (destruct He as (_ & _ & He); exact He).
    split.
    { destruct Hun as [cl Hcl _ _|cl e2 st2 Hcl _ (_ & _ & N2)]; [exact Hs0|exact N2]. }
    intros W1 W2. destruct p' as [|e' p'].
    + injection E2 as -> ->. assert (s0 = st0) by (destruct He as (_ & He & _), Hf as (_ & Hf & _); congruence). subst s0.
      destruct Hun as [cl Hcl _ HP|cl e2 st2 Hcl _ Hf2].
      * split; [reflexivity|]. rewrite E. rewrite <- app_comm_cons in HP. rewrite <- !app_assoc in HP. exact HP.
      * exfalso. apply (W2 e2 st2); [apply in_or_app; right; left; reflexivity|exact Hf2].
    + injection E2 as -> E2. exfalso. apply (W1 e' s0); [|exact He]. rewrite E3. apply in_or_app. right. left. reflexivity.
  - exfalso. rewrite E in Eh. rewrite app_comm_cons in Eh. apply app_split in Eh as [(q' & E1 & E2)|(p' & E1 & _)].
    + eapply no_creation_split; eauto.
    + eapply not_creating; [eapply undone_creating; exact Hun|exact E1|exact Hm].
Qed.

(** ** Interruption: a signal at any moment after the first question runs the cleanup, and then once more (the [exit] of the trap runs the
    trap for EXIT again; bash only waits for the command being run). *)
Theorem C42_interrupted : forall sys glob fuel ifc o us st h h1 ev x h2, known us = false ->
  cmd_up sys glob fuel ifc o us = (Some st, h) ->
  h = h1 ++ ev :: h2 -> h1 <> [] -> undisturbed h1 -> a_signal (snd ev) = Some x -> undisturbed h2 ->
  all_well h1 ->
  exists cl1 cl2 st1, h2 = cl1 ++ cl2 /\ undone us ifc (h1 ++ [ev]) x cl1 st1 /\ undone us ifc (h1 ++ ev :: cl1) st1 cl2 st.
Proof.
  intros sys glob fuel ifc o us st h h1 ev x h2 Hk H Eh Hne Hu1 Hx Hu2 Hw1. unfold cmd_up, query, bind, run, ret in H.
  set (q := argv [str "ip"; str "link"; str "show"; str "dev"; ifc]) in H.
  set (a := sys _ q) in H. cbn [sh_hist sh_dns sh_fw app] in H.
  destruct (a_signal a) as [y|] eqn:S.
  { exfalso. injection H as <- <-. destruct h1 as [|e h1]; [contradiction|]. injection Eh as _ Eh. destruct h1; discriminate. }
  assert (UNQ : forall p e z t, h = p ++ e :: t -> undisturbed p -> a_signal (snd e) = Some z -> p = h1 /\ e = ev /\ t = h2).
  { intros p e z t E Hp He. rewrite E in Eh. apply app_split in Eh as [(q' & E1 & E2)|(p' & E1 & E2)].
    - exfalso. specialize (Hp ev). rewrite E1 in Hp. rewrite Hp in Hx; [discriminate|]. apply in_or_app. right. left. reflexivity.
    - destruct p' as [|e' p']; [injection E1 as -> ->; rewrite app_nil_r in E2; auto|]. injection E1 as -> E1. exfalso.
      specialize (Hu1 e'). rewrite E2 in Hu1. rewrite Hu1 in He; [discriminate|]. apply in_or_app. right. left. reflexivity. }
  destruct (negb (beq (captured (a_output a)) [])).
  { exfalso. injection H as <- <-. destruct h1 as [|e h1]; [contradiction|]. injection Eh as _ Eh. destruct h1; discriminate. }
  set (s0 := mk_shell [(q, a)] false false) in *.
  assert (US0 : undisturbed (sh_hist s0)) by (intros e [<-|[]]; exact S).
  (* a run that ends without a signal in the body *)
  assert (EX : forall st0 s1 hd e, sh_hist s1 = hd ++ [e] -> undisturbed (hd ++ [e]) -> (exists z, failed e z) ->
                 exit_trap (del_if sys fuel ifc o true) st0 s1 = (Some st, h) -> False).
  { intros st0 s1 hd e E Hd (z & Hz) HX. destruct (exit_trap_undone sys fuel ifc o us st st0 s1 h Hk HX) as (cl & E2 & _).
    rewrite E2, E in Eh. apply app_split in Eh as [(q' & E3 & _)|(p' & _ & E3)].
    - specialize (Hd ev). rewrite E3 in Hd. rewrite Hd in Hx; [discriminate|]. apply in_or_app. right. left. reflexivity.
    - apply (Hw1 e z); [|exact Hz]. rewrite E3. apply in_or_app. left. apply in_or_app. right. left. reflexivity. }
  assert (SG : forall s1 st1 hx evx, sh_hist s1 = hx ++ [evx] -> undisturbed hx -> a_signal (snd evx) = Some st1 ->
     match del_if sys fuel ifc o true s1 with
      | Done _ s2 => exit_trap (del_if sys fuel ifc o true) st1 s2
      | Exited st2 s2 | Signalled st2 s2 => exit_trap (del_if sys fuel ifc o true) st2 s2
      | Loops s2 => (None, sh_hist s2)
      end = (Some st, h) ->
     exists cl1 cl2 st1, h2 = cl1 ++ cl2 /\ undone us ifc (h1 ++ [ev]) x cl1 st1 /\ undone us ifc (h1 ++ ev :: cl1) st1 cl2 st).
  { intros s1 st1 hx evx E Hhx Hs HX.
    assert (HI : forall st2 s2 t, sh_hist s2 = sh_hist s1 ++ t -> exit_trap (del_if sys fuel ifc o true) st2 s2 = (Some st, h) ->
                   exists cl2, hx = h1 /\ evx = ev /\ st1 = x /\ h2 = t ++ cl2 /\ undone us ifc (h1 ++ ev :: t) st2 cl2 st).
    { intros st2 s2 t Et HY. destruct (exit_trap_undone sys fuel ifc o us st st2 s2 h Hk HY) as (cl & E2 & HU).
      assert (E3 : h = hx ++ evx :: t ++ cl) by (rewrite E2, Et, E, <- !app_assoc; reflexivity).
      destruct (UNQ _ _ _ _ E3 Hhx Hs) as (-> & -> & <-). exists cl. split; [reflexivity|]. split; [reflexivity|]. split; [congruence|].
      split; [reflexivity|]. rewrite Et, E, <- app_assoc in HU. apply HU. apply undisturbed_app in Hu2 as [_ Hu2]. exact Hu2. }
    pose proof (del_if_good sys fuel ifc o us Hk s1) as D. destruct (del_if sys fuel ifc o true s1) as [v s2|st2 s2|st2 s2|s2]; [| | |discriminate].
    - destruct D as (hd & Ed & Hq & hl & y & -> & Hy). destruct (HI _ _ _ Ed HX) as (cl2 & -> & -> & -> & Eh2 & HU).
      exists (hl ++ [(link_delete ifc, y)]), cl2, x. split; [exact Eh2|]. split; [|exact HU].
      apply un_done; [eapply quiet_all_well; exact Hq|apply no_creating_of; eapply quiet_C; exact Hq|]. rewrite app_assoc.
      destruct (present_total us ifc ((h1 ++ [ev]) ++ hl)) as (b & Pb). eapply pr_deletes; [exact Pb|reflexivity|exact Hy].
    - destruct D as (hd & e & Ed & Hq & HC & _ & Hf). destruct (HI _ _ _ Ed HX) as (cl2 & -> & -> & -> & Eh2 & HU).
      exists (hd ++ [e]), cl2, st2. split; [exact Eh2|]. split; [|exact HU].
      apply un_failed; [eapply quiet_all_well; exact Hq| |exact Hf]. apply no_creating_of. apply Forall_app. split; [eapply quiet_C; exact Hq|].
      constructor; [exact HC|constructor].
    - exfalso. destruct D as (hd & e & Ed & Hq & HC & Hs2). destruct (HI _ _ _ Ed HX) as (cl2 & -> & -> & -> & Eh2 & HU).
      specialize (Hu2 e). rewrite Eh2, Hs2 in Hu2. discriminate Hu2. apply in_or_app. left. apply in_or_app. right. left. reflexivity. }
  unfold guarded in H.
  change (up_body sys glob fuel ifc o us) with (bind (add_if sys ifc us true) (fun _ => rest_body sys glob fuel ifc o)) in H.
  unfold bind in H.
  pose proof (add_if_cases sys ifc us s0) as A. destruct (add_if sys ifc us true s0) as [v s1|st1 s1|st1 s1|s1]; [| | |contradiction].
  - cbv beta iota in H. destruct A as (cr & E1 & Uc & Hcr). pose proof (rest_body_good sys glob fuel ifc o us Hk s1) as G.
    assert (UQ : forall b, quiet (nodel ifc us) b -> undisturbed (sh_hist s1 ++ b)).
    { intros b Hb. rewrite E1. apply undisturbed_app. split; [apply undisturbed_app; auto|]. intros e Hi.
      unfold quiet in Hb. rewrite Forall_forall in Hb. apply (Hb e Hi). }
    destruct (rest_body sys glob fuel ifc o s1) as [v2 s2|st2 s2|st2 s2|s2]; [| | |discriminate].
    + exfalso. cbn [ret] in H. injection H as _ E. destruct G as (body & E2 & Hq & _). specialize (UQ body Hq). rewrite <- E2, E, Eh in UQ.
      specialize (UQ ev). rewrite UQ in Hx; [discriminate|]. apply in_or_app. right. left. reflexivity.
    + exfalso. destruct G as (body & e & E2 & Hq & HC & Hs & Hf). eapply (EX st2 s2 (sh_hist s1 ++ body) e); [rewrite E2, app_assoc; reflexivity| |exists st2; exact Hf|exact H].
      apply undisturbed_app. split; [apply UQ, Hq|]. intros e' [<-|[]]. exact Hs.
    + destruct G as (body & e & E2 & Hq & HC & Hs). eapply (SG s2 st2 (sh_hist s1 ++ body) e); [rewrite E2, app_assoc; reflexivity|apply UQ, Hq|exact Hs|exact H].
  - exfalso. destruct A as (cr & E1 & Uc & Hcr).
    destruct (exit_trap_undone sys fuel ifc o us st st1 s1 h Hk H) as (cl & E2 & _). rewrite E2, E1 in Eh.
    apply app_split in Eh as [(q' & E3 & _)|(p' & _ & E3)].
    + assert (UU : undisturbed (sh_hist s0 ++ cr)) by (apply undisturbed_app; auto). rewrite E3 in UU. specialize (UU ev). rewrite UU in Hx; [discriminate|].
      apply in_or_app. right. left. reflexivity.
    + assert (IN : exists e z, In e cr /\ failed e z).
      { destruct Hcr as [(b & b1 & -> & Hb & _)|[(b & b1 & b2 & -> & Hb & _)|(b & b1 & b2 & b3 & -> & Hb & _)]]; exists (link_add ifc, b), (a_status b);
          (split; [left; reflexivity|]; split; [reflexivity|]; split; [reflexivity|exact Hb]). }
      destruct IN as (e & z & Hi & Hz). apply (Hw1 e z); [|exact Hz]. rewrite E3. apply in_or_app. left. apply in_or_app. right. exact Hi.
  - destruct A as (hx & e & E1 & Hs & Hhx).
    assert (UH : undisturbed (sh_hist s0 ++ hx)) by (apply undisturbed_app; auto).
    eapply (SG s1 st1 (sh_hist s0 ++ hx) e); [rewrite E1, app_assoc; reflexivity|exact UH|exact Hs|exact H].
Qed.

(** ** Concrete systems *)
(** A system answering by the first words of the command; by default success and no output. *)
Fixpoint lookup (l : list (list string * answer)) (ws : list (list Z)) : answer :=
  match l with
  | [] => mk_answer 0 [] None
  | (p, a) :: l' => if begins (words_of p) ws then a else lookup l' ws
  end.
Definition table_system (l : list (list string * answer)) : system := fun _ c => lookup l (c_argv c).
Definition says (s : string) : answer := mk_answer 0 (str s ++ [10]) None.
Definition fails (st : Z) : answer := mk_answer st [] None.

Definition wg0 : list Z := str "wg0".
Definition example_options : options :=
  mk_options (str "[Interface]" ++ [10]) [str "10.0.0.2/24"; str "fd00::2/64"] [] [str "10.0.0.1"] [str "corp"] []
             [str "echo %i; echo %i"] [str "touch /run/%i"] [] [] false.
Definition healthy : list (list string * answer) :=
  [(["wg"; "show"; "wg0"; "allowed-ips"]%string, says ("k1 0.0.0.0/0 10.1.0.0/16"));
   (["sort"]%string, mk_answer 0 (str "10.1.0.0/16" ++ [10] ++ str "0.0.0.0/0" ++ [10]) None);
   (["wg"; "show"; "wg0"; "fwmark"]%string, says "off");
   (["test"]%string, fails 1)].
Definition no_glob (w : list Z) : list (list Z) := [w].
Definition up (l : list (list string * answer)) (o : options) : outcome :=
  cmd_up (table_system l) no_glob 5 wg0 o (str "wireguard-go").

(** Everything succeeds: the hypotheses of [C42_up] are met, with hooks, addresses, DNS, a default route and a firewall. *)
Example C42_up_case : known (str "wireguard-go") = false /\ fst (up healthy example_options) = Some 0 /\
  forallb (fun ev => match a_signal (snd ev) with None => true | _ => false end) (snd (up healthy example_options)) = true /\
  map (fun c => c_argv c) (changes (snd (up healthy example_options))) = map words_of
   [["ip"; "link"; "add"; "wg0"; "type"; "wireguard"]; ["eval"; "echo wg0; echo wg0"]; ["wg"; "setconf"; "wg0"; "/dev/fd/63"];
    ["ip"; "-4"; "address"; "add"; "10.0.0.2/24"; "dev"; "wg0"]; ["ip"; "-6"; "address"; "add"; "fd00::2/64"; "dev"; "wg0"];
    ["ip"; "link"; "set"; "mtu"; "1420"; "up"; "dev"; "wg0"]; ["resolvconf"; "-a"; "wg0"; "-m"; "0"; "-x"];
    ["ip"; "-4"; "route"; "add"; "10.1.0.0/16"; "dev"; "wg0"]; ["wg"; "set"; "wg0"; "fwmark"; "51820"];
    ["ip"; "-4"; "rule"; "add"; "not"; "fwmark"; "51820"; "table"; "51820"];
    ["ip"; "-4"; "rule"; "add"; "table"; "main"; "suppress_prefixlength"; "0"];
    ["ip"; "-4"; "route"; "add"; "0.0.0.0/0"; "dev"; "wg0"; "table"; "51820"];
    ["sysctl"; "-q"; "net.ipv4.conf.all.src_valid_mark=1"]; ["nft"; "-f"; "/dev/fd/63"]; ["eval"; "touch /run/wg0"]]%string.
Proof. repeat split; vm_compute; reflexivity. Qed.

(** A failing PostUp hook: the interface is deleted again, the hook's status reported. *)
Definition bad_hook : list (list string * answer) := (["eval"; "touch /run/wg0"]%string, fails 3) :: healthy.
Example C42_failing_case : fst (up bad_hook example_options) = Some 3 /\
  map (fun c => c_argv c) (skipn 15 (changes (snd (up bad_hook example_options)))) = map words_of
   [["resolvconf"; "-d"; "wg0"; "-f"]; ["ip"; "link"; "delete"; "dev"; "wg0"]]%string.
Proof. split; vm_compute; reflexivity. Qed.

(** An interrupted PreUp hook: the cleanup runs twice. *)
Definition interrupted_hook : list (list string * answer) := (["eval"]%string, mk_answer 0 [] (Some 130)) :: healthy.
Example C42_interrupted_case : fst (up interrupted_hook example_options) = Some 130 /\
  map (fun c => c_argv c) (changes (snd (up interrupted_hook example_options))) = map words_of
   [["ip"; "link"; "add"; "wg0"; "type"; "wireguard"]; ["eval"; "echo wg0; echo wg0"]; ["ip"; "link"; "delete"; "dev"; "wg0"];
    ["ip"; "link"; "delete"; "dev"; "wg0"]]%string.
Proof. split; vm_compute; reflexivity. Qed.

(** *** What is not guaranteed *)
(** If the interface cannot be created although the kernel module is there (say, because somebody else created it after the question), the
    script deletes that interface and reports success: [ret=$?] on line 91 is the status of "!", always 0. *)
Theorem C42_creation_failure_refuted : exists sys st h, cmd_up sys no_glob 5 wg0 example_options (str "wireguard-go") = (Some st, h) /\
  undisturbed h /\ (exists ev x, In ev h /\ failed ev x) /\ st = 0 /\ In (link_delete wg0) (changes h).
Proof.
  set (l := [(["ip"; "link"; "add"]%string, fails 2)]). exists (table_system l), 0, (snd (up l example_options)).
  split; [vm_compute; reflexivity|]. split.
  { intros ev Hi. vm_compute in Hi. destruct Hi as [<-|[<-|[<-|[<-|[<-|[]]]]]]; reflexivity. }
  split; [|split; [reflexivity|vm_compute; tauto]].
  exists (link_add wg0, fails 2), 2. split; [vm_compute; tauto|]. split; [reflexivity|]. split; [reflexivity|discriminate].
Qed.

(** If the cleanup itself fails early (here resolvconf -d), the interface stays. *)
Theorem C42_cleanup_failure_refuted : exists sys st h, cmd_up sys no_glob 5 wg0 example_options (str "wireguard-go") = (Some st, h) /\
  undisturbed h /\ (exists ev x, In ev h /\ failed ev x) /\ st = 1 /\ present (str "wireguard-go") wg0 h true.
Proof.
  set (l := (["resolvconf"; "-d"]%string, fails 1) :: bad_hook). exists (table_system l), 1, (snd (up l example_options)).
  split; [vm_compute; reflexivity|].
  assert (U : Forall (fun ev => a_signal (snd ev) = None) (snd (up l example_options))) by (vm_compute; repeat constructor).
  rewrite Forall_forall in U. split; [exact U|].
  split; [|split; [reflexivity|]].
  - exists (argv [str "resolvconf"; str "-d"; wg0; str "-f"], fails 1), 1. split; [vm_compute; repeat (try (left; reflexivity); right); fail|].
    split; [reflexivity|]. split; [reflexivity|discriminate].
  - assert (E : exists a t, snd (up l example_options) = [(exists_question wg0, a); (link_add wg0, fails 0)] ++ t /\
                Forall (fun ev => nodel wg0 (str "wireguard-go") (fst ev)) t).
    { eexists. exists (skipn 2 (snd (up l example_options))). split; [vm_compute; reflexivity|].
      vm_compute skipn. repeat (constructor; [split; [|split]; discriminate|]). constructor. }
    destruct E as (a & t & E & Ht). rewrite E. apply present_other; [|exact Ht].
    apply (pr_creates _ _ [_] false); [|left; reflexivity|reflexivity]. apply (pr_other _ _ [] false); [constructor|].
    left. split; [|split]; discriminate.
Qed.

(** A failing question goes unnoticed: without the allowed IPs no routes are added, yet the script succeeds. *)
Theorem C42_failing_question_refuted : exists sys h, cmd_up sys no_glob 5 wg0 example_options (str "wireguard-go") = (Some 0, h) /\
  undisturbed h /\ (exists ev, In ev h /\ c_argv (fst ev) = words_of ["wg"; "show"; "wg0"; "allowed-ips"]%string /\ a_status (snd ev) <> 0) /\
  Forall (fun c => ~ routing_cmd c) (changes h).
Proof.
  set (l := (["wg"; "show"; "wg0"; "allowed-ips"]%string, fails 1) :: (["sort"]%string, says "") :: healthy).
  exists (table_system l), (snd (up l example_options)).
  split; [vm_compute; reflexivity|].
  assert (U : Forall (fun ev => a_signal (snd ev) = None) (snd (up l example_options))) by (vm_compute; repeat constructor).
  rewrite Forall_forall in U. split; [exact U|]. split.
  - exists (argv [str "wg"; str "show"; wg0; str "allowed-ips"], fails 1). split; [vm_compute; tauto|]. split; [reflexivity|discriminate].
  - vm_compute. repeat (constructor; [discriminate|]). constructor.
Qed.

(** A script stopped by a signal can report success. *)
Theorem C42_signal_status_refuted : exists sys h, cmd_up sys no_glob 5 wg0 example_options (str "wireguard-go") = (Some 0, h) /\
  (exists ev, In ev h /\ a_signal (snd ev) <> None) /\ present (str "wireguard-go") wg0 h false.
Proof.
  set (l := (["wg"; "setconf"]%string, mk_answer 0 [] (Some 0)) :: healthy). exists (table_system l), (snd (up l example_options)).
  split; [vm_compute; reflexivity|]. split.
  - exists (mk_cmd [str "wg"; str "setconf"; wg0; str "/dev/fd/63"] (handed example_options), mk_answer 0 [] (Some 0)).
    split; [vm_compute; tauto|discriminate].
  - assert (E : exists t a, snd (up l example_options) = t ++ [(link_delete wg0, a)] /\ a_status a = 0).
    { exists (removelast (snd (up l example_options))). eexists. split; [vm_compute; reflexivity|reflexivity]. }
    destruct E as (t & a & E & Ha). rewrite E. destruct (present_total (str "wireguard-go") wg0 t) as (b & Pb).
    eapply pr_deletes; [exact Pb|reflexivity|exact Ha].
Qed.

Print Assumptions C42_up.
Print Assumptions C42_reported.
Print Assumptions C42_interrupted.
