(** C52: the DNS servers wg-quick registers, and what a failed 'wg-quick up' takes back. *)
From Coq Require Import String ZArith List Bool Lia.
From Verif Require Import Base Cstr Bash Quick QuickRun QuickRunSpec QuickFirewallSpec QuickUndoSpec QuickDoes QuickSaveProofs PropQuickFirewall PropQuickReload PropQuickUp.
Import ListNotations.
Open Scope Z_scope.

(** ** The prefix *)
Lemma order_char_iff : forall c, order_char c = true <-> prefix_char c.
Proof. intro c. unfold order_char, prefix_char. rewrite !orb_true_iff, !andb_true_iff, !Z.leb_le, Z.eqb_eq. lia. Qed.
Lemma order_prefix_iff : forall line p, order_prefix line = Some p <-> order_line line p.
Proof.
  intros line p. unfold order_prefix, order_line. split.
  - intro H. destruct (rev line) as [|c r] eqn:E; [discriminate|].
    destruct (Z.eq_dec c 42) as [->|N].
    + destruct (forallb order_char r && negb (beq r [])) eqn:F; [|discriminate]. injection H as <-. apply andb_true_iff in F as [F1 F2]. apply negb_true_iff, beq_neq in F2.
      split; [rewrite <- (rev_involutive line), E; reflexivity|]. split; [intro R; apply F2; rewrite <- (rev_involutive r), R; reflexivity|].
      apply Forall_rev. rewrite Forall_forall. rewrite forallb_forall in F1. intros x Hx. apply order_char_iff, F1, Hx.
    + exfalso. clear - H N. destruct c as [|c|c]; try discriminate. do 6 (destruct c as [c|c|]; try discriminate). congruence.
  - intros (-> & N & F). rewrite rev_unit. assert (F1 : forallb order_char (rev p) = true).
    { apply forallb_forall. intros x Hx. apply order_char_iff. rewrite Forall_forall in F. apply F. apply in_rev. exact Hx. }
    assert (F2 : beq (rev p) [] = false) by (apply beq_neq; intro R; apply N; rewrite <- (rev_involutive p), R; reflexivity). rewrite F1, F2. cbn [andb negb]. rewrite rev_involutive. reflexivity.
Qed.
Lemma first_prefix_preferred : forall lines, preferred lines (first_prefix lines).
Proof.
  induction lines as [|l ls IH]; [right; split; [intros l []|reflexivity]|]. cbn [first_prefix]. destruct (order_prefix l) as [p|] eqn:E.
  - left. exists [], l, ls, p. split; [reflexivity|]. split; [intros x []|]. split; [apply order_prefix_iff, E|reflexivity].
  - assert (N : forall x, ~ order_line l x) by (intros x H; apply order_prefix_iff in H; congruence).
    destruct IH as [(l1 & line & l2 & q & -> & H1 & H2 & ->)|[H ->]].
    + left. exists (l :: l1), line, l2, q. split; [reflexivity|]. split; [intros y [<-|Hy]; [exact N|apply H1, Hy]|]. auto.
    + right. split; [|reflexivity]. intros y [<-|Hy]; [exact N|apply H, Hy].
Qed.
Lemma preferred_unique : forall lines p q, preferred lines p -> preferred lines q -> p = q.
Proof.
  intros lines p q P Q. assert (U : forall r, preferred lines r -> r = first_prefix lines).
  { clear. intros r H. destruct H as [(l1 & line & l2 & q & -> & H1 & H2 & ->)|[H ->]].
    - induction l1 as [|l l1 IH]; cbn [app first_prefix].
      + apply order_prefix_iff in H2. rewrite H2. reflexivity.
      + destruct (order_prefix l) as [x|] eqn:E; [exfalso; apply order_prefix_iff in E; exact (H1 l (or_introl eq_refl) x E)|]. apply IH. intros y Hy. apply H1. right. exact Hy.
    - induction lines as [|l ls IH]; [reflexivity|]. cbn [first_prefix]. destruct (order_prefix l) as [x|] eqn:E; [exfalso; apply order_prefix_iff in E; exact (H l (or_introl eq_refl) x E)|]. apply IH. intros y Hy. apply H. right. exact Hy. }
  rewrite (U p P), (U q Q). reflexivity.
Qed.
Lemma prefix_does : forall sys, does (resolvconf_iface_prefix sys) (fun p qs => looked_up qs p).
Proof.
  intro sys. unfold resolvconf_iface_prefix. eapply does_bind; [apply cond_does|]. cbn beta. intros b h (a & -> & ->). destruct (Z.eqb_spec (a_status a) 0) as [E|E].
  - eapply does_bind; [apply output_does|]. cbn beta. intros t h (b & -> & ->). apply does_ret. right. exists a, b. split; [reflexivity|]. split; [exact E|]. apply first_prefix_preferred.
  - apply does_ret. left. exists a. auto.
Qed.

(** ** Invariants of the shell *)
Definition watched (c : command) : bool := existsb (fun p => begins p (c_argv c)) [[str "resolvconf"]; [str "nft"; str "-f"]; [str "iptables-restore"]; [str "ip6tables-restore"]].
Section Keeps.
Variable sys : system.
(** [I] as long as the script goes on, [J] when it ends early. *)
Variable I J : shell -> Prop.
Definition after (s : shell) (c : command) (a : answer) : shell := mk_shell (sh_hist s ++ [(c, a)]) (sh_dns s) (sh_fw s).
Definition held {A} (r : result A) : Prop := match r with Done _ s => I s | Exited _ s | Signalled _ s | Loops s => J s end.
Definition keeps {A} (m : prog A) : Prop := forall s, I s -> held (m s).
Hypothesis IJ : forall s, I s -> J s.
Hypothesis Irun : forall c a s, watched c = false -> I s -> match a_signal a with None => I (after s c a) | Some _ => J (after s c a) end.
Lemma keeps_ret : forall A (a : A), keeps (ret a). Proof. intros A a s H. exact H. Qed.
Lemma keeps_exit : forall A st, keeps (exit_with (A := A) st). Proof. intros A st s H. apply IJ, H. Qed.
Lemma keeps_loops : forall A, keeps (fun s => @Loops A s). Proof. intros A s H. apply IJ, H. Qed.
Lemma keeps_bind : forall A B (m : prog A) (f : A -> prog B), keeps m -> (forall a, keeps (f a)) -> keeps (bind m f).
Proof. intros A B m f Hm Hf s H. specialize (Hm s H). unfold bind. destruct (m s) as [a s1|a s1|a s1|s1]; try exact Hm. apply Hf, Hm. Qed.
Lemma keeps_run : forall c, watched c = false -> keeps (run sys c).
Proof. intros c W s H. unfold run. pose proof (Irun c (sys (sh_hist s) c) s W H) as K. destruct (a_signal _); exact K. Qed.
Lemma keeps_query : forall ws, watched (argv ws) = false -> keeps (query sys ws).
Proof. intros ws W. apply keeps_bind; [apply keeps_run, W|]. intro. apply keeps_ret. Qed.
Lemma keeps_output : forall ws, watched (argv ws) = false -> keeps (output sys ws).
Proof. intros ws W. apply keeps_bind; [apply keeps_run, W|]. intro. apply keeps_ret. Qed.
Lemma keeps_cond : forall ws, watched (argv ws) = false -> keeps (cond sys ws).
Proof. intros ws W. apply keeps_bind; [apply keeps_run, W|]. intro. apply keeps_ret. Qed.
Lemma keeps_step : forall e ws input, watched (mk_cmd ws input) = false -> keeps (step_in sys e ws input).
Proof. intros e ws input W. apply keeps_bind; [apply keeps_run, W|]. intro a. destruct (_ && _); [apply keeps_exit|apply keeps_ret]. Qed.
Lemma keeps_each : forall A (f : A -> prog Z) l, (forall x, keeps (f x)) -> keeps (for_each f l).
Proof. intros A f l H. induction l as [|x l IH]; cbn [for_each]; [apply keeps_ret|]. apply keeps_bind; [apply H|]. intros _. exact IH. Qed.

Variable glob : list Z -> list (list Z).
Variable fuel : nat.
Variable ifc : list Z.
Variable o : options.
Variable us : list Z.
Hypothesis Hus : known us = false.
Lemma us_unwatched : watched (argv [us; ifc]) = false.
Proof.
  unfold watched. apply not_true_iff_false. intro H. apply existsb_exists in H as (p & Hp & H). unfold known in Hus. rewrite <- not_true_iff_false, existsb_exists in Hus. apply Hus.
  cbn in Hp. destruct Hp as [<-|[<-|[<-|[<-|[]]]]]; cbn [begins argv c_argv] in H; apply andb_true_iff in H as [H _]; apply beq_eq in H; subst us; eexists; (split; [|apply beq_eq; reflexivity]); vm_compute; tauto.
Qed.
Ltac w := first [reflexivity | unfold watched; cbn; reflexivity].
Lemma keeps_prefix : keeps (resolvconf_iface_prefix sys).
Proof. apply keeps_bind; [apply keeps_cond; w|]. intros [|]; [|apply keeps_ret]. apply keeps_bind; [apply keeps_output; w|]. intro. apply keeps_ret. Qed.
Lemma keeps_add_if : keeps (add_if sys ifc us true).
Proof.
  unfold add_if. apply keeps_bind; [apply keeps_cond; w|]. intros [|]; [apply keeps_ret|]. apply keeps_bind; [apply keeps_cond; w|]. intros [|]; [apply keeps_exit|].
  apply keeps_bind; [apply keeps_cond; w|]. intros [|]; cbn [negb]; [|apply keeps_exit]. apply keeps_step. apply us_unwatched.
Qed.
Lemma keeps_hooks : forall l, keeps (execute_hooks sys ifc true l).
Proof. intro l. apply keeps_each. intro x. apply keeps_step. w. Qed.
Lemma keeps_addr : forall a, keeps (add_addr sys ifc true a).
Proof. intro a. apply keeps_step. w. Qed.
Lemma keeps_route_mtu : forall out, keeps (route_mtu sys out).
Proof. intro out. unfold route_mtu. destruct (mtu_field out); [apply keeps_ret|]. destruct (dev_field out); [|apply keeps_ret]. apply keeps_bind; [apply keeps_query; w|]. intro. apply keeps_ret. Qed.
Lemma keeps_endpoints : forall ls m, keeps (endpoints_mtu sys ls m).
Proof.
  induction ls as [|l ls IH]; intro m; cbn [endpoints_mtu]; [apply keeps_ret|]. destruct (endpoint_host _); [|apply IH]. apply keeps_bind; [apply keeps_query; w|]. intro out.
  apply keeps_bind; [apply keeps_route_mtu|]. intro. apply IH.
Qed.
Lemma keeps_mtu : keeps (set_mtu_up sys ifc o true).
Proof.
  unfold set_mtu_up. destruct (o_mtu o); [|apply keeps_step; w]. apply keeps_bind; [apply keeps_output; w|]. intro eps. apply keeps_bind; [apply keeps_endpoints|]. intro m1.
  apply keeps_bind; [|intro; apply keeps_step; w]. destruct (m1 =? 0); [|apply keeps_ret]. apply keeps_bind; [apply keeps_output; w|]. intro. apply keeps_bind; [apply keeps_route_mtu|]. intro. apply keeps_ret.
Qed.
Lemma keeps_fwmark : keeps (get_fwmark sys ifc).
Proof. apply keeps_bind; [apply keeps_run; w|]. intro a. destruct (negb _); [apply keeps_ret|]. cbv zeta. destruct (_ || _); apply keeps_ret. Qed.
Lemma keeps_free : forall n t, keeps (free_table sys n t).
Proof.
  induction n as [|n IH]; intro t; cbn [free_table]; [apply keeps_loops|]. apply keeps_bind; [apply keeps_query; w|]. intro r4. destruct (negb _); [apply IH|].
  apply keeps_bind; [apply keeps_query; w|]. intro r6. destruct (negb _); [apply IH|apply keeps_ret].
Qed.
Lemma keeps_choose : keeps (choose_table sys fuel ifc true).
Proof.
  apply keeps_bind; [apply keeps_fwmark|]. intros [t|]; [apply keeps_ret|]. apply keeps_bind; [apply keeps_free|]. intro t. apply keeps_bind; [apply keeps_step; w|]. intros _. apply keeps_ret.
Qed.
(** Loading the rules, and noting that it was done. *)
Definition load_and_note (v6 nft : bool) (addrs : list (list Z)) (t : list Z) : prog Z :=
  (if nft then step_in sys true [str "nft"; str "-f"; str "/dev/fd/63"] (nft_script ifc (if v6 then str "ip6" else str "ip") addrs t)
   else step_in sys true [(if v6 then str "ip6tables" else str "iptables") ++ str "-restore"; str "-n"] (iptables_script ifc addrs t)) ;;;
  set_fw_flag ;;; ret 0.
Lemma keeps_default : (forall v6 nft addrs t, keeps (load_and_note v6 nft addrs t)) -> forall r, keeps (add_default sys fuel ifc true r).
Proof.
  intros HL r. unfold add_default. apply keeps_bind; [apply keeps_choose|]. intro table. cbv zeta. do 3 (apply keeps_bind; [apply keeps_step; w|]; intros _).
  apply keeps_bind; [apply keeps_output; w|]. intro out. apply keeps_bind; [destruct (has_char 58 r); [apply keeps_ret|apply keeps_step; w]|]. intros _.
  apply keeps_bind; [apply keeps_cond; w|]. intro nft. apply HL.
Qed.
Lemma keeps_routes : (forall v6 nft addrs t, keeps (load_and_note v6 nft addrs t)) -> keeps (add_routes sys glob fuel ifc o true).
Proof.
  intro HL. unfold add_routes, all_routes. apply keeps_bind.
  - apply keeps_bind; [apply keeps_output; w|]. intro out. apply keeps_bind; [apply keeps_run; w|]. intro. apply keeps_ret.
  - intro rs. apply keeps_each. intro r. unfold add_route. destruct (beq _ _); [apply keeps_ret|]. destruct (negb _); [apply keeps_step; w|]. destruct (ends_with _ _); [apply keeps_default, HL|].
    apply keeps_bind; [apply keeps_query; w|]. intro out. destruct (beq _ _); [apply keeps_step; w|apply keeps_ret].
Qed.
Lemma keeps_body : (forall v6 nft addrs t, keeps (load_and_note v6 nft addrs t)) -> keeps (set_dns sys ifc o true) -> keeps (up_body sys glob fuel ifc o us).
Proof.
  intros HL HD. unfold up_body. apply keeps_bind; [apply keeps_add_if|]. intros _. apply keeps_bind; [apply keeps_hooks|]. intros _. apply keeps_bind; [apply keeps_step; w|]. intros _.
  apply keeps_bind; [apply keeps_each, keeps_addr|]. intros _. apply keeps_bind; [apply keeps_mtu|]. intros _. apply keeps_bind; [exact HD|]. intros _. apply keeps_bind; [apply keeps_routes, HL|]. intros _. apply keeps_hooks.
Qed.
End Keeps.

(** ** Every record is named after the interface *)
Lemma snoc_split : forall (A : Type) (h h1 h2 : list A) x y, h ++ [x] = h1 ++ y :: h2 -> (h2 = [] /\ x = y /\ h = h1) \/ exists h3, h2 = h3 ++ [x] /\ h = h1 ++ y :: h3.
Proof.
  intros A h h1 h2 x y E. destruct (rev h2) as [|z r] eqn:R.
  - left. assert (h2 = []) by (rewrite <- (rev_involutive h2), R; reflexivity). subst h2. apply app_inj_tail in E as [-> ->]. auto.
  - right. assert (E2 : h2 = rev r ++ [z]) by (rewrite <- (rev_involutive h2), R; reflexivity). subst h2. rewrite app_comm_cons, app_assoc in E. apply app_inj_tail in E as [-> ->]. exists (rev r). auto.
Qed.
Definition recorded (ifc : list Z) (o : options) (h : history) : Prop := forall h1 c a h2, h = h1 ++ (c, a) :: h2 -> runs_resolvconf c ->
  exists h0 qs p, h1 = h0 ++ qs /\ looked_up qs p /\ (c = dns_add (p ++ ifc) (resolv_text (o_dns o) (o_search o)) \/ c = dns_delete (p ++ ifc)).
Lemma recorded_other : forall ifc o h c a, recorded ifc o h -> ~ runs_resolvconf c -> recorded ifc o (h ++ [(c, a)]).
Proof.
  intros ifc o h c a R N h1 c1 a1 h2 E H. apply snoc_split in E as [(-> & E & ->)|(h3 & -> & ->)]; [injection E as <- <-; contradiction|]. exact (R h1 c1 a1 h3 eq_refl H).
Qed.
Lemma recorded_record : forall ifc o h qs p c a, recorded ifc o (h ++ qs) -> looked_up qs p ->
  c = dns_add (p ++ ifc) (resolv_text (o_dns o) (o_search o)) \/ c = dns_delete (p ++ ifc) -> recorded ifc o ((h ++ qs) ++ [(c, a)]).
Proof.
  intros ifc o h qs p c a R L C h1 c1 a1 h2 E H. apply snoc_split in E as [(-> & E & <-)|(h3 & -> & E)]; [injection E as <- <-|exact (R h1 c1 a1 h3 E H)]. exists h, qs, p. auto.
Qed.
Lemma unwatched_not : forall c, watched c = false -> ~ runs_resolvconf c.
Proof. intros c W (ws & E). unfold watched in W. rewrite E in W. cbn in W. discriminate. Qed.
Lemma glue_join : forall l, glue [32] l = join_sp l.
Proof. induction l as [|x l IH]; [reflexivity|]. cbn [glue join_sp]. rewrite IH. destruct l; reflexivity. Qed.
Lemma dns_text_spec : forall o, dns_text o = resolv_text (o_dns o) (o_search o).
Proof. intro o. unfold dns_text, resolv_text. destruct (o_search o); [reflexivity|]. rewrite glue_join. reflexivity. Qed.

Section Run.
Variable sys : system.
Variable glob : list Z -> list (list Z).
Variable fuel : nat.
Variable ifc : list Z.
Variable o : options.
Variable us : list Z.
Hypothesis Hus : known us = false.

Definition R (s : shell) : Prop := recorded ifc o (sh_hist s).
Lemma RR : forall s, R s -> R s. Proof. auto. Qed.
Lemma R_run : forall c a s, watched c = false -> R s -> match a_signal a with None => R (after s c a) | Some _ => R (after s c a) end.
Proof. intros c a s W H. assert (K : R (after s c a)) by (apply recorded_other; [exact H|apply unwatched_not, W]). destruct (a_signal a); exact K. Qed.
(** Looking up the prefix and then running resolvconf. *)
Lemma R_record : forall e text (f : list Z -> command), (forall p, mk_cmd (c_argv (f p)) text = dns_add (p ++ ifc) (resolv_text (o_dns o) (o_search o)) \/ mk_cmd (c_argv (f p)) text = dns_delete (p ++ ifc)) ->
  keeps R R (p <- resolvconf_iface_prefix sys ;; step_in sys e (c_argv (f p)) text).
Proof.
  intros e text f Hf s H. pose proof (keeps_prefix sys R R R_run s H) as K. unfold bind at 1. destruct (resolvconf_iface_prefix sys s) as [p s1|st s1|st s1|s1] eqn:E; try exact K.
  destruct (prefix_does sys s p s1 E) as (qs & Eq & L). cbn [held] in K. unfold step_in, bind, run.
  assert (K2 : forall a d w, R (mk_shell (sh_hist s1 ++ [(mk_cmd (c_argv (f p)) text, a)]) d w)).
  { intros a d w. unfold R. cbn [sh_hist]. rewrite Eq. apply (recorded_record ifc o _ qs p); [rewrite <- Eq; exact K|exact L|apply Hf]. }
  destruct (a_signal _); [apply K2|]. destruct (_ && _); apply K2.
Qed.
Lemma R_set_dns : keeps R R (set_dns sys ifc o true).
Proof.
  unfold set_dns. destruct (o_dns o) eqn:D; [apply keeps_ret|].
  intros s H. pose proof (R_record true (dns_text o) (fun p => dns_add (p ++ ifc) []) ltac:(intro p; left; rewrite <- dns_text_spec; reflexivity) s H) as K.
  revert K. unfold bind. destruct (resolvconf_iface_prefix sys s) as [p s1| | |]; cbn [held]; auto. change (c_argv (dns_add (p ++ ifc) [])) with [str "resolvconf"; str "-a"; p ++ ifc; str "-m"; str "0"; str "-x"].
  destruct (step_in _ _ _ _ s1); auto.
Qed.
Lemma R_unset_dns : keeps R R (unset_dns sys ifc o true).
Proof. unfold unset_dns. destruct (o_dns o) eqn:D; [apply keeps_ret|]. exact (R_record true [] (fun p => dns_delete (p ++ ifc)) (fun p => or_intror eq_refl)). Qed.
Lemma R_any : forall c, ~ runs_resolvconf c -> keeps R R (run sys c).
Proof. intros c N s H. unfold run. destruct (a_signal _); apply recorded_other; assumption. Qed.
Lemma R_step : forall e ws input, ~ runs_resolvconf (mk_cmd ws input) -> keeps R R (step_in sys e ws input).
Proof. intros e ws input N. apply keeps_bind; [apply R_any, N|]. intro a. destruct (_ && _); [apply keeps_exit, RR|apply keeps_ret]. Qed.
Ltac other := intros (ws_ & E_); discriminate E_.
Lemma R_load : forall v6 nft addrs t, keeps R R (load_and_note sys ifc v6 nft addrs t).
Proof.
  intros v6 nft addrs t. apply keeps_bind; [|intros _ s H; exact H]. destruct nft; [apply R_step; other|]. apply R_step. destruct v6; other.
Qed.
Lemma R_firewall : keeps R R (remove_firewall sys ifc true).
Proof.
  unfold remove_firewall. apply keeps_bind; [apply keeps_cond; [exact R_run|reflexivity]|]. intro nft. apply keeps_bind.
  - destruct nft; [|apply keeps_ret]. apply keeps_bind; [apply keeps_output; [exact R_run|reflexivity]|]. intro t. destruct (nft_deletes ifc (read_complete t)); [apply keeps_ret|apply R_step; other].
  - intros _. apply keeps_bind; [apply keeps_cond; [exact R_run|reflexivity]|]. intros [|]; [|apply keeps_ret]. cbn [for_each]. unfold remove_iptables.
    do 2 (apply keeps_bind; [apply keeps_bind; [apply keeps_output; [exact R_run|reflexivity]|]; intro dump; cbv zeta; destruct (restore_found _ _); [apply R_step; other|apply keeps_ret]|]; intros _). apply keeps_ret.
Qed.
Lemma R_flags : forall f, (forall d w, keeps R R (f d w)) -> keeps R R (@flags Z f).
Proof. intros f H s Hs. apply H, Hs. Qed.
Lemma R_rules : forall n pr pat del, (pr = str "-4" \/ pr = str "-6") -> keeps R R (delete_rules sys n true pr pat del).
Proof.
  induction n as [|n IH]; intros pr pat del P; cbn [delete_rules]; [intros s H; exact H|]. apply keeps_bind; [apply keeps_query; [exact R_run|reflexivity]|]. intro out. destruct (contains pat out); [|apply keeps_ret].
  apply keeps_bind; [apply R_step; other|]. intros _. apply IH, P.
Qed.
Lemma R_del_if : keeps R R (del_if sys fuel ifc o true).
Proof.
  unfold del_if. apply keeps_bind; [apply R_flags; intros [|] w; [apply R_unset_dns|apply keeps_ret]|]. intros _. apply keeps_bind; [apply R_flags; intros d [|]; [apply R_firewall|apply keeps_ret]|]. intros _.
  apply keeps_bind; [|intros _; apply R_step; other]. destruct (auto_table o); [|apply keeps_ret]. apply keeps_bind; [apply keeps_fwmark; exact R_run|]. intros [t|]; [|apply keeps_ret].
  apply keeps_bind; [apply keeps_query; [exact R_run|reflexivity]|]. intro out. destruct (has_default out); [|apply keeps_ret]. cbv zeta.
  do 3 (apply keeps_bind; [apply R_rules; auto|]; intros _). apply R_rules; auto.
Qed.
Theorem C52_records : forall st h, cmd_up sys glob fuel ifc o us = (st, h) -> recorded ifc o h.
Proof.
  intros st h E. unfold cmd_up in E. assert (K0 : R (mk_shell [] false false)) by (intros h1 c a h2 X; destruct h1; discriminate X).
  pose proof (keeps_query sys R R R_run [str "ip"; str "link"; str "show"; str "dev"; ifc] eq_refl _ K0) as K1. destruct (query _ _ _) as [link s|x s|x s|s]; cbn [held] in K1; try (injection E as _ <-; exact K1).
  destruct (negb (beq link [])); [injection E as _ <-; exact K1|]. unfold guarded in E. pose proof (keeps_body sys R R RR R_run glob fuel ifc o us Hus R_load R_set_dns s K1) as K2.
  destruct (up_body _ _ _ _ _ _ s) as [b s1|x s1|x s1|s1]; cbn [held] in K2.
  - injection E as _ <-. exact K2.
  - pose proof (R_del_if s1 K2) as K3. unfold exit_trap in E. destruct (del_if _ _ _ _ _ s1); injection E as _ <-; exact K3.
  - pose proof (R_del_if s1 K2) as K3. destruct (del_if _ _ _ _ _ s1) as [y s2|y s2|y s2|s2] eqn:Ed; cbn [held] in K3;
      try (pose proof (R_del_if s2 K3) as K4; unfold exit_trap in E; destruct (del_if _ _ _ _ _ s2); injection E as _ <-; exact K4). injection E as _ <-. exact K3.
  - injection E as _ <-. exact K2.
Qed.
End Run.

(** ** What the script notes, and what it does at the end *)
Lemma unwatched_quiet : forall c, watched c = false -> ~ adds_record c /\ ~ installs c.
Proof.
  intros c W. split.
  - intros (n & t & ->). discriminate W.
  - intros [(r & ->)|(i & a & b & Hi & ->)]; [discriminate W|]. destruct Hi as [<-|[<-|[]]]; discriminate W.
Qed.
Definition harmless (ev : command * answer) : Prop := ~ adds_record (fst ev) /\ ~ installs (fst ev).
Definition interrupted (h : history) : Prop := exists h1 ev, h = h1 ++ [ev] /\ a_signal (snd ev) <> None.
Definition failing (C : command -> Prop) (h : history) : Prop := exists h1 ev, h = h1 ++ [ev] /\ C (fst ev) /\ a_status (snd ev) <> 0.
Definition tidy {A} (C : command -> Prop) (m : prog A) (Q : history -> Prop) : Prop := forall s, exists h,
  sh_hist (ends (m s)) = sh_hist s ++ h /\ sh_dns (ends (m s)) = sh_dns s /\ sh_fw (ends (m s)) = sh_fw s /\ Forall harmless h /\
  match m s with Done _ _ => Q h | Exited _ _ => failing C h | Signalled _ _ => interrupted h | Loops _ => C (argv []) (* no command: it never loops *) end.
Definition whatever (h : history) : Prop := True.
Lemma tidy_ret : forall A C (a : A) (Q : history -> Prop), Q [] -> tidy C (ret a) Q.
Proof. intros A C a Q H s. exists []. cbn [ret ends]. rewrite app_nil_r. auto. Qed.
Lemma tidy_bind : forall A B C (m : prog A) (f : A -> prog B) (Q R : history -> Prop), tidy C m Q ->
  (forall a, tidy C (f a) (fun h2 => forall h1, Q h1 -> R (h1 ++ h2))) -> tidy C (bind m f) R.
Proof.
  intros A B C m f Q R Hm Hf s. destruct (Hm s) as (h1 & E1 & D1 & W1 & F1 & K1). unfold bind. destruct (m s) as [a s1|a s1|a s1|s1]; cbn [ends] in *.
  - destruct (Hf a s1) as (h2 & E2 & D2 & W2 & F2 & K2). exists (h1 ++ h2). rewrite E2, E1, app_assoc. split; [reflexivity|]. split; [congruence|]. split; [congruence|]. split; [apply Forall_app; auto|].
    destruct (f a s1); auto.
    + destruct K2 as (h3 & ev & -> & K). exists (h1 ++ h3), ev. rewrite app_assoc. auto.
    + destruct K2 as (h3 & ev & -> & K). exists (h1 ++ h3), ev. rewrite app_assoc. auto.
  - exists h1. auto. - exists h1. auto. - exists h1. auto.
Qed.
Lemma tidy_seq : forall A B C (m : prog A) (f : A -> prog B) (Q : history -> Prop), tidy C m Q -> (forall a, tidy C (f a) whatever) -> tidy C (bind m f) whatever.
Proof. intros A B C m f Q Hm Hf. eapply tidy_bind; [exact Hm|]. intros a s. destruct (Hf a s) as (h & H1 & H2 & H3 & H4 & H5). exists h. repeat split; auto. destruct (f a s); auto. Qed.
Lemma tidy_weaken : forall A (C C' : command -> Prop) (m : prog A) (Q Q' : history -> Prop), tidy C m Q -> (forall c, C c -> C' c) -> (forall h, Q h -> Q' h) -> tidy C' m Q'.
Proof.
  intros A C C' m Q Q' H HC HQ s. destruct (H s) as (h & H1 & H2 & H3 & H4 & H5). exists h. repeat split; auto. destruct (m s); auto. destruct H5 as (h1 & ev & -> & K1 & K2). exists h1, ev. auto.
Qed.
Section Tidy.
Variable sys : system.
Lemma tidy_run : forall C c, ~ adds_record c /\ ~ installs c -> tidy C (run sys c) (fun h => exists a, h = [(c, a)]).
Proof.
  intros C c H s. unfold run. destruct (a_signal _) eqn:S; cbn [ends]; eexists; (split; [reflexivity|]); (repeat split; [constructor; [exact H|constructor]|]).
  - exists []. eexists. split; [reflexivity|]. cbn [snd]. rewrite S. discriminate.
  - eexists. reflexivity.
Qed.
Lemma tidy_ask : forall A C c (v : answer -> A), watched c = false -> tidy C (a <- run sys c ;; ret (v a)) whatever.
Proof. intros A C c v W. eapply tidy_seq; [apply tidy_run, unwatched_quiet, W|]. intro. apply tidy_ret. exact I. Qed.
Lemma tidy_step : forall (C : command -> Prop) ws input, ~ adds_record (mk_cmd ws input) /\ ~ installs (mk_cmd ws input) -> C (mk_cmd ws input) ->
  tidy C (step_in sys true ws input) (fun h => exists a, h = [(mk_cmd ws input, a)]).
Proof.
  intros C ws input H HC s. unfold step_in, bind. destruct (tidy_run C (mk_cmd ws input) H s) as (h & H1 & H2 & H3 & H4 & H5).
  unfold run in *. destruct (a_signal _) eqn:S; [exists h; auto|]. cbn [ends] in *. exists h. destruct (_ && _) eqn:F; cbn [ends exit_with ret]; repeat split; auto.
  apply app_inv_head in H1. subst h. exists []. eexists. split; [reflexivity|]. split; [exact HC|]. cbn [snd]. cbn [andb] in F. apply negb_true_iff, Z.eqb_neq in F. exact F.
Qed.
Lemma quiet_step : forall ws input, watched (mk_cmd ws input) = false -> tidy (fun _ => True) (step_in sys true ws input) whatever.
Proof. intros ws input W. eapply tidy_weaken with (C := fun _ => True); [apply tidy_step; [apply unwatched_quiet, W|exact I]|auto|intros; exact I]. Qed.

Variable ifc : list Z.
Definition takes_back (c : command) : Prop := (exists p, c = dns_delete (p ++ ifc)) \/ loads_firewall c.
Definition deletes_record (h : history) : Prop := exists p a, In (dns_delete (p ++ ifc), a) h.
Definition removed_firewall (h : history) : Prop := exists h1 i h2, h = h1 ++ (have (str "iptables"), i) :: h2 /\ removed_nft ifc h1 /\
    ((a_status i <> 0 /\ h2 = []) \/
     (a_status i = 0 /\ exists h4 h6, h2 = h4 ++ h6 /\ removed_rules ifc (str "iptables") h4 /\ removed_rules ifc (str "ip6tables") h6)).
Lemma tidy_prefix : forall C, tidy C (resolvconf_iface_prefix sys) whatever.
Proof. intro C. eapply tidy_seq; [apply tidy_ask; reflexivity|]. intros [|]; [|apply tidy_ret; exact I]. eapply tidy_seq; [apply tidy_ask; reflexivity|]. intro. apply tidy_ret. exact I. Qed.
Lemma delete_quiet : forall n, ~ adds_record (dns_delete n) /\ ~ installs (dns_delete n).
Proof. intro n. split; [intros (x & t & E); discriminate E|intros [(r & E)|(i & a & b & Hi & E)]; [discriminate E|destruct Hi as [<-|[<-|[]]]; discriminate E]]. Qed.
Lemma tidy_unset_dns : forall o, o_dns o <> [] -> tidy (fun c => exists p, c = dns_delete (p ++ ifc)) (unset_dns sys ifc o true) deletes_record.
Proof.
  intros o N. unfold unset_dns. destruct (o_dns o); [contradiction|]. eapply tidy_bind; [apply tidy_prefix|]. intro p.
  eapply tidy_weaken with (C := fun c => exists p, c = dns_delete (p ++ ifc)); [apply tidy_step; [apply delete_quiet|exists p; reflexivity]|auto|]. intros h (a & ->) h1 _. exists p, a. apply in_or_app. right. left. reflexivity.
Qed.
(** The scripts that remove rules do not add any. *)
Lemma deletes_no_add : forall ls rest, nft_deletes ifc ls = str "add table " ++ rest -> False.
Proof.
  intros ls rest. unfold nft_deletes. induction ls as [|l ls IH]; cbn [map concat]; [discriminate|]. destruct (ends_with _ l); [|exact IH]. discriminate.
Qed.
Lemma insertion_line : forall ls a b, Forall (fun l => ~ In 10 l) ls -> concat (map (fun l => l ++ [10]) ls) = a ++ [10] ++ str "-I " ++ b -> exists r, In (str "-I" ++ r) ls.
Proof.
  induction ls as [|l ls IH]; intros a b F E; cbn [map concat] in E; [destruct a; discriminate E|]. inversion F as [|? ? F1 F2]; subst. rewrite <- app_assoc in E.
  assert (K : (l = a /\ concat (map (fun l => l ++ [10]) ls) = str "-I " ++ b) \/ exists a', concat (map (fun l => l ++ [10]) ls) = a' ++ [10] ++ str "-I " ++ b).
  { clear IH F. revert a E. induction l as [|x l IHl]; intros a E.
    - destruct a as [|y a]; cbn [app] in E; [left; injection E as E; auto|right; injection E as _ E; exists a; exact E].
    - destruct a as [|y a]; cbn [app] in E; [injection E as -> E; exfalso; apply F1; left; reflexivity|]. injection E as -> E. destruct (IHl (fun X => F1 (or_intror X)) a E) as [[-> K]|K]; [left; auto|right; exact K]. }
  destruct K as [[-> K]|(a' & K)]; [|destruct (IH a' b F2 K) as (r & Hr); exists r; right; exact Hr].
  destruct ls as [|l2 ls]; [discriminate K|]. cbn [map concat] in K. inversion F2 as [|? ? F3 F4]; subst.
  destruct l2 as [|x l2]; [discriminate K|]. destruct l2 as [|y l2]; [discriminate K|]. rewrite <- app_assoc in K. change (str "-I " ++ b) with (45 :: 73 :: 32 :: b) in K. cbn [app] in K. injection K as -> -> K.
  exists l2. right. left. reflexivity.
Qed.
Lemma read_no_newline : forall out, Forall (fun l => ~ In 10 l) (read_complete out).
Proof.
  intro out. destruct (read_complete_spec out) as (full & rest & _ & F & _ & T). clear - F T. induction T as [|x y full ls Ht T IH]; [constructor|]. inversion F as [|? ? F1 F2]; subst. constructor; [|apply IH, F2].
  destruct Ht as (a & b & -> & _). intro X. apply F1. rewrite !in_app_iff. auto.
Qed.
Lemma strip_app : forall p l r, strip_prefix p l = Some r -> l = p ++ r.
Proof.
  induction p as [|x p IH]; intros l r E; cbn [strip_prefix] in E; [injection E as <-; reflexivity|]. destruct l as [|y l]; [discriminate|]. destruct (Z.eqb_spec x y) as [->|]; [|discriminate]. rewrite (IH _ _ E). reflexivity.
Qed.
Lemma removal_no_insertion : forall out a b, restore_text ifc (read_complete out) = a ++ [10] ++ str "-I " ++ b -> False.
Proof.
  intros out a b E. unfold restore_text in E. rewrite <- (map_map (undo_rule) (fun l => l ++ [10])) in E.
  pose proof (read_no_newline out) as S. rewrite Forall_forall in S. assert (F : Forall (fun l => ~ In 10 l) (map undo_rule (filter (kept_rule ifc) (read_complete out)))).
  { apply Forall_forall. intros x Hx. apply in_map_iff in Hx as (l & <- & Hl). apply filter_In in Hl as [Hl _]. specialize (S l Hl). unfold undo_rule.
    destruct (strip_prefix (str "-A") l) as [r|] eqn:Es; [|exact S]. apply strip_app in Es. subst l. intro X. apply S. destruct X as [X|[X|X]]; try discriminate X. right. right. exact X. }
  destruct (insertion_line _ a b F E) as (r & Hr).
  apply in_map_iff in Hr as (l & E1 & Hl). apply filter_In in Hl as [_ K]. unfold undo_rule in E1. destruct (strip_prefix (str "-A") l) as [x|] eqn:Es; [discriminate E1|]. subst l.
    unfold kept_rule in K. discriminate K.
Qed.
Lemma tidy_does : forall A C (m : prog A) (Q R : history -> Prop), tidy C m Q -> does m (fun _ h => R h) -> tidy C m R.
Proof.
  intros A C m Q R H D s. destruct (H s) as (h & H1 & H2 & H3 & H4 & H5). exists h. repeat split; auto. destruct (m s) as [v s1| | |] eqn:E; auto.
  destruct (D s v s1 E) as (h' & E' & K). cbn [ends] in H1. rewrite H1 in E'. apply app_inv_head in E'. subst h'. exact K.
Qed.
Lemma tidy_load : forall ws input, loads_firewall (mk_cmd ws input) -> ~ adds_record (mk_cmd ws input) -> ~ installs (mk_cmd ws input) -> tidy loads_firewall (step_in sys true ws input) whatever.
Proof. intros ws input L N1 N2. eapply tidy_weaken with (C := loads_firewall); [apply tidy_step; auto|auto|intros; exact I]. Qed.
Lemma tidy_remove_iptables : forall i, In i [str "iptables"; str "ip6tables"] -> tidy loads_firewall (remove_iptables sys ifc true i) whatever.
Proof.
  intros i Hi. unfold remove_iptables. eapply tidy_seq; [destruct Hi as [<-|[<-|[]]]; apply tidy_ask; reflexivity|]. cbn beta. intro dump. cbv zeta. destruct (restore_found _ _); [|apply tidy_ret; exact I].
  apply tidy_load; [right; exists i, (restore_text ifc (read_complete dump)); auto|intros (n & x & X); destruct Hi as [<-|[<-|[]]]; discriminate X|].
  intros [(r & X)|(j & a & b & Hj & X)]; [destruct Hi as [<-|[<-|[]]]; discriminate X|]. assert (X2 : restore_text ifc (read_complete dump) = a ++ [10] ++ str "-I " ++ b) by (exact (f_equal c_input X)). exact (removal_no_insertion _ a b X2).
Qed.
Lemma tidy_remove_firewall : tidy loads_firewall (remove_firewall sys ifc true) removed_firewall.
Proof.
  eapply tidy_does with (Q := whatever).
  2:{ intros s v s1 E. destruct (C48_removed sys true ifc s v s1 E) as (h1 & i & h2 & E1 & K). exists (h1 ++ (have (str "iptables"), i) :: h2). split; [exact E1|]. exists h1, i, h2. auto. }
  unfold remove_firewall. eapply tidy_seq; [apply tidy_ask; reflexivity|]. intro nft. eapply tidy_seq with (Q := whatever).
  - destruct nft; [|apply tidy_ret; exact I]. eapply tidy_seq; [apply tidy_ask; reflexivity|]. intro t. destruct (nft_deletes ifc (read_complete t)) eqn:E; [apply tidy_ret; exact I|]. rewrite <- E.
    apply tidy_load; [left; eexists; reflexivity|intros (n & x & X); discriminate X|]. intros [(r & X)|(i & a & b & Hi & X)]; [|destruct Hi as [<-|[<-|[]]]; discriminate X].
    injection X as X. exact (deletes_no_add _ r X).
  - intros _. eapply tidy_seq; [apply tidy_ask; reflexivity|]. intros [|]; [|apply tidy_ret; exact I]. cbn [for_each]. eapply tidy_seq; [apply tidy_remove_iptables; left; reflexivity|]. intros _.
    eapply tidy_seq; [apply tidy_remove_iptables; right; left; reflexivity|]. intros _. apply tidy_ret. exact I.
Qed.

(** ** The whole cleanup *)
Variable fuel : nat.
Variable o : options.
Definition rest_of_del_if : prog Z :=
  (if auto_table o then
     m <- get_fwmark sys ifc ;;
     (match m with
      | None => ret 0
      | Some table =>
          out <- query sys [str "wg"; str "show"; ifc; str "allowed-ips"] ;;
          if has_default out then
            let t := print_dec table in
            delete_rules sys fuel true (str "-4") (str "lookup " ++ t) [str "table"; t] ;;;
            delete_rules sys fuel true (str "-4") main_suppress [str "table"; str "main"; str "suppress_prefixlength"; str "0"] ;;;
            delete_rules sys fuel true (str "-6") (str "lookup " ++ t) [str "table"; t] ;;;
            delete_rules sys fuel true (str "-6") main_suppress [str "table"; str "main"; str "suppress_prefixlength"; str "0"]
          else ret 0
      end)
   else ret 0) ;;;
  step sys true [str "ip"; str "link"; str "delete"; str "dev"; ifc].
Lemma del_if_parts : del_if sys fuel ifc o true =
  (flags (fun dns _ => if dns then unset_dns sys ifc o true else ret 0) ;;; flags (fun _ fw => if fw then remove_firewall sys ifc true else ret 0) ;;; rest_of_del_if).
Proof. reflexivity. Qed.
Definition anything (c : command) : Prop := True.
Lemma tidy_rules : forall n pr pat del, tidy anything (delete_rules sys n true pr pat del) whatever.
Proof.
  induction n as [|n IH]; intros pr pat del; cbn [delete_rules]; [intro s; exists []; cbn [ends]; rewrite app_nil_r; repeat split; constructor|]. eapply tidy_seq; [apply tidy_ask; reflexivity|]. intro out. destruct (contains pat out); [|apply tidy_ret; exact I].
  eapply tidy_seq; [apply quiet_step; reflexivity|]. intros _. apply IH.
Qed.
Lemma tidy_fwmark : forall C, tidy C (get_fwmark sys ifc) whatever.
Proof. intro C. eapply tidy_seq; [apply tidy_run, unwatched_quiet; reflexivity|]. intro a. destruct (negb _); [apply tidy_ret; exact I|]. cbv zeta. destruct (_ || _); apply tidy_ret; exact I. Qed.
Lemma tidy_rest : tidy anything rest_of_del_if whatever.
Proof.
  unfold rest_of_del_if. eapply tidy_seq with (Q := whatever); [|intros _; apply quiet_step; reflexivity]. destruct (auto_table o); [|apply tidy_ret; exact I]. eapply tidy_seq; [apply tidy_fwmark|]. intros [t|]; [|apply tidy_ret; exact I].
  eapply tidy_seq; [apply tidy_ask; reflexivity|]. intro out. destruct (has_default out); [|apply tidy_ret; exact I]. cbv zeta.
  do 3 (eapply tidy_seq; [apply tidy_rules|]; intros _). apply tidy_rules.
Qed.
(** What the cleanup adds to the history [h0]. *)
Definition cleaned_up (dns fw : bool) (h : history) : Prop := Forall harmless h /\
  (dns = true -> deletes_record h \/ interrupted h) /\
  (fw = true -> (exists x y z, h = x ++ y ++ z /\ removed_firewall y) \/ interrupted h \/ failing takes_back h).
Lemma del_if_cleans : forall s, (sh_dns s = true -> o_dns o <> []) -> exists h,
  sh_hist (ends (del_if sys fuel ifc o true s)) = sh_hist s ++ h /\ sh_dns (ends (del_if sys fuel ifc o true s)) = sh_dns s /\ sh_fw (ends (del_if sys fuel ifc o true s)) = sh_fw s /\
  cleaned_up (sh_dns s) (sh_fw s) h.
Proof.
  intros s Hd. rewrite del_if_parts.
  assert (T1 : tidy (fun c => exists p, c = dns_delete (p ++ ifc)) (if sh_dns s then unset_dns sys ifc o true else ret 0) (fun h => sh_dns s = true -> deletes_record h)).
  { destruct (sh_dns s); [|apply tidy_ret; discriminate]. eapply tidy_weaken; [apply tidy_unset_dns, Hd; reflexivity|auto|auto]. }
  assert (T2 : tidy loads_firewall (if sh_fw s then remove_firewall sys ifc true else ret 0) (fun h => sh_fw s = true -> removed_firewall h)).
  { destruct (sh_fw s); [|apply tidy_ret; discriminate]. eapply tidy_weaken; [apply tidy_remove_firewall|auto|auto]. }
  unfold bind, flags. destruct (T1 s) as (h1 & E1 & D1 & W1 & F1 & K1). destruct ((if sh_dns s then unset_dns sys ifc o true else ret 0) s) as [v s1|v s1|v s1|s1] eqn:R1; cbn [ends] in *.
  - rewrite W1. destruct (T2 s1) as (h2 & E2 & D2 & W2 & F2 & K2). destruct ((if sh_fw s then remove_firewall sys ifc true else ret 0) s1) as [w s2|w s2|w s2|s2] eqn:R2; cbn [ends] in *.
    + destruct (tidy_rest s2) as (h3 & E3 & D3 & W3 & F3 & K3). exists (h1 ++ h2 ++ h3). rewrite E3, E2, E1, <- !app_assoc. split; [reflexivity|]. split; [congruence|]. split; [congruence|].
      split; [repeat rewrite Forall_app; auto|]. split.
      * intro H. left. destruct (K1 H) as (p & a & Hp). exists p, a. apply in_or_app. auto.
      * intro H. left. exists h1, h2, h3. auto.
    + exists (h1 ++ h2). rewrite E2, E1, <- app_assoc. split; [reflexivity|]. split; [congruence|]. split; [congruence|]. split; [rewrite Forall_app; auto|]. split.
      * intro H. left. destruct (K1 H) as (p & a & Hp). exists p, a. apply in_or_app. auto.
      * intro H. right. right. destruct K2 as (h3 & ev & -> & L & N). exists (h1 ++ h3), ev. rewrite app_assoc. repeat split; auto. right. exact L.
    + exists (h1 ++ h2). rewrite E2, E1, <- app_assoc. split; [reflexivity|]. split; [congruence|]. split; [congruence|]. split; [rewrite Forall_app; auto|]. split.
      * intro H. left. destruct (K1 H) as (p & a & Hp). exists p, a. apply in_or_app. auto.
      * intro H. right. left. destruct K2 as (h3 & ev & -> & L). exists (h1 ++ h3), ev. rewrite app_assoc. auto.
    + destruct K2 as [(x & X)|(i & x & Hi & X)]; [discriminate X|destruct Hi as [<-|[<-|[]]]; discriminate X].
  - exists h1. split; [exact E1|]. split; [exact D1|]. split; [exact W1|]. split; [exact F1|]. destruct K1 as (h3 & ev & -> & (p & L) & N). split.
    + intro H. left. exists p, (snd ev). apply in_or_app. right. left. destruct ev as [c a]. cbn [fst snd] in *. subst c. reflexivity.
    + intro H. right. right. exists h3, ev. repeat split; auto. left. exists p. exact L.
  - exists h1. split; [exact E1|]. split; [exact D1|]. split; [exact W1|]. split; [exact F1|]. split; auto.
  - destruct K1 as (x & X). discriminate X.
Qed.
End Tidy.

(** ** What the body notes *)
Section Noted.
Variable sys : system.
Variable glob : list Z -> list (list Z).
Variable fuel : nat.
Variable ifc : list Z.
Variable o : options.
Variable us : list Z.
Hypothesis Hus : known us = false.
Definition N (s : shell) : Prop :=
  (forall c a, In (c, a) (sh_hist s) -> worked a -> (adds_record c -> sh_dns s = true) /\ (installs c -> sh_fw s = true)) /\ (sh_dns s = true -> o_dns o <> []).
Lemma N_more : forall s c a d w, N s -> (sh_dns s = true -> d = true) -> (sh_fw s = true -> w = true) -> (worked a -> adds_record c -> d = true) -> (worked a -> installs c -> w = true) -> (d = true -> o_dns o <> []) ->
  N (mk_shell (sh_hist s ++ [(c, a)]) d w).
Proof.
  intros s c a d w [H1 H2] Hd Hw Ha Hi Hn. split; [|exact Hn]. cbn [sh_hist sh_dns sh_fw]. intros c1 a1 X W. apply in_app_iff in X as [X|[X|[]]].
  - destruct (H1 c1 a1 X W) as [K1 K2]. auto.
  - injection X as <- <-. auto.
Qed.
Lemma NN : forall s, N s -> N s. Proof. auto. Qed.
Lemma N_run : forall c a s, watched c = false -> N s -> match a_signal a with None => N (after s c a) | Some _ => N (after s c a) end.
Proof.
  intros c a s W H. destruct (unwatched_quiet c W) as [Q1 Q2]. assert (K : N (after s c a)) by (apply N_more; auto; try contradiction; apply H). destruct (a_signal a); exact K.
Qed.
(** A command that must succeed, followed by the note. *)
Lemma N_noted : forall ws input d w s, N s -> (sh_dns s = true -> d = true) -> (sh_fw s = true -> w = true) ->
  (adds_record (mk_cmd ws input) -> d = true) -> (installs (mk_cmd ws input) -> w = true) -> (d = true -> o_dns o <> []) ->
  match step_in sys true ws input s with Done _ s1 => N (mk_shell (sh_hist s1) d w) | Exited _ s1 | Signalled _ s1 | Loops s1 => N s1 end.
Proof.
  intros ws input d w s H Hd Hw Ha Hi Hn. unfold step_in, bind, run. set (a := sys (sh_hist s) (mk_cmd ws input)). destruct (a_signal a) eqn:S.
  - apply N_more; auto; try (intros [_ X]; congruence); try apply H.
  - destruct (true && negb (a_status a =? 0)) eqn:F; cbn [exit_with ret].
    + cbn [andb] in F. apply negb_true_iff, Z.eqb_neq in F. apply N_more; auto; try (intros [X _]; congruence); try apply H.
    + cbn [sh_hist]. apply N_more; auto.
Qed.
Lemma N_load : forall v6 nft addrs t, keeps N N (load_and_note sys ifc v6 nft addrs t).
Proof.
  intros v6 nft addrs t s H. unfold load_and_note.
  assert (K : forall ws input, (forall n x, mk_cmd ws input = dns_add n x -> False) -> held N N ((step_in sys true ws input ;;; set_fw_flag ;;; ret 0) s)).
  { intros ws input Na. pose proof (N_noted ws input (sh_dns s) true s H (fun x => x) (fun _ => eq_refl) ltac:(intros (n & x & X); destruct (Na n x X)) (fun _ => eq_refl) (proj2 H)) as P. unfold bind.
    assert (F : sh_dns (ends (step_in sys true ws input s)) = sh_dns s) by (unfold step_in, bind, run; destruct (a_signal _); [reflexivity|]; destruct (_ && _); reflexivity).
    destruct (step_in sys true ws input s) as [v s1| | |]; cbn [held set_fw_flag ret ends] in *; auto. rewrite F. exact P. }
  destruct nft; [apply K; discriminate|]. apply K. destruct v6; discriminate.
Qed.
Lemma N_set_dns : keeps N N (set_dns sys ifc o true).
Proof.
  unfold set_dns. destruct (o_dns o) eqn:D; [apply keeps_ret|]. apply keeps_bind; [apply keeps_prefix; exact N_run|]. intros p s H.
  set (ws := [str "resolvconf"; str "-a"; p ++ ifc; str "-m"; str "0"; str "-x"]).
  assert (Ni : installs (mk_cmd ws (dns_text o)) -> sh_fw s = true) by (intros [(r & X)|(i & x & y & Hi & X)]; [discriminate X|destruct Hi as [<-|[<-|[]]]; discriminate X]).
  pose proof (N_noted ws (dns_text o) true (sh_fw s) s H (fun _ => eq_refl) (fun x => x) (fun _ => eq_refl) Ni ltac:(intros _; rewrite D; discriminate)) as P. unfold bind.
  assert (F : sh_fw (ends (step_in sys true ws (dns_text o) s)) = sh_fw s) by (unfold step_in, bind, run; destruct (a_signal _); [reflexivity|]; destruct (_ && _); reflexivity).
  destruct (step_in sys true ws (dns_text o) s) as [v s1| | |]; cbn [held set_dns_flag ret ends] in *; auto. rewrite F. exact P.
Qed.
(** A body that comes to its end was not disturbed. *)
Definition calm (s : shell) : Prop := undisturbed (sh_hist s).
Definition any_shell (s : shell) : Prop := True.
Lemma calm_run : forall c a s, calm s -> match a_signal a with None => calm (after s c a) | Some _ => any_shell (after s c a) end.
Proof. intros c a s H. destruct (a_signal a) eqn:E; [exact I|]. intros ev X. cbn [after sh_hist] in X. apply in_app_iff in X as [X|[<-|[]]]; [apply H, X|exact E]. Qed.
Lemma calm_step : forall e ws input, keeps calm any_shell (step_in sys e ws input).
Proof. intros e ws input s H. unfold step_in, bind, run. pose proof (calm_run (mk_cmd ws input) (sys (sh_hist s) (mk_cmd ws input)) s H) as K. destruct (a_signal _); [exact K|]. destruct (_ && _); cbn [held exit_with ret]; [exact I|exact K]. Qed.
Lemma calm_body : keeps calm any_shell (up_body sys glob fuel ifc o us).
Proof.
  apply keeps_body; [intros; exact I|intros; apply calm_run; assumption|exact Hus| |].
  - intros v6 nft addrs t. apply keeps_bind; [destruct nft; apply calm_step|]. intros _ s H. exact H.
  - unfold set_dns. destruct (o_dns o); [apply keeps_ret|]. apply keeps_bind; [apply keeps_prefix; intros; apply calm_run; assumption|]. intro p. apply keeps_bind; [apply calm_step|]. intros _ s H. exact H.
Qed.

Lemma split_mid : forall (A : Type) (h1 h2 a b : list A) x, h1 ++ x :: h2 = a ++ b -> (exists h3, a = h1 ++ x :: h3 /\ h2 = h3 ++ b) \/ In x b.
Proof.
  intros A h1. induction h1 as [|y h1 IH]; intros h2 a b x E; destruct a as [|z a]; cbn [app] in E.
  - right. rewrite <- E. left. reflexivity.
  - injection E as <- E. left. exists a. auto.
  - right. rewrite <- E. right. apply in_or_app. right. left. reflexivity.
  - injection E as <- E. destruct (IH _ _ _ _ E) as [(h3 & -> & ->)|K]; [left; exists h3; auto|right; exact K].
Qed.
(** Something the body did and noted, and the cleanup after it. *)
Lemma up_cleanup : forall st h h1 c a h2, cmd_up sys glob fuel ifc o us = (Some st, h) -> st <> 0 \/ ~ undisturbed h -> h = h1 ++ (c, a) :: h2 -> worked a -> adds_record c \/ installs c ->
  exists h3 x dns fw, h2 = h3 ++ x /\ cleaned_up ifc dns fw x /\ (adds_record c -> dns = true) /\ (installs c -> fw = true).
Proof.
  intros st h h1 c a h2 E Bad Eh W HC. unfold cmd_up in E.
  assert (Q : tidy anything (query sys [str "ip"; str "link"; str "show"; str "dev"; ifc]) whatever) by (apply tidy_ask; reflexivity).
  destruct (Q (mk_shell [] false false)) as (q & E0 & D0 & W0 & F0 & _).
  pose proof (keeps_query sys calm any_shell ltac:(intros; apply calm_run; assumption) [str "ip"; str "link"; str "show"; str "dev"; ifc] eq_refl (mk_shell [] false false) ltac:(intros ev [])) as U0.
  assert (Early : forall s, sh_hist s = q -> h = sh_hist s -> False).
  { intros s Es Es2. rewrite Forall_forall in F0. specialize (F0 (c, a)). rewrite Es in Es2. subst q. rewrite Es2 in Eh. specialize (F0 ltac:(rewrite Eh; apply in_or_app; right; left; reflexivity)). destruct F0 as [F1 F2]. cbn [fst] in *. destruct HC; contradiction. }
  destruct (query sys _ (mk_shell [] false false)) as [link s|x s|x s|s]; cbn [ends sh_hist sh_dns sh_fw app] in *; try (injection E as _ <-; exfalso; exact (Early s E0 eq_refl)).
  destruct (negb (beq link [])); [injection E as _ <-; exfalso; exact (Early s E0 eq_refl)|].
  assert (K1 : N s). { split; [|rewrite D0; discriminate]. rewrite E0. intros c1 a1 X _. rewrite Forall_forall in F0. destruct (F0 _ X) as [F1 F2]. cbn [fst] in *. split; intro; contradiction. }
  unfold guarded in E. pose proof (keeps_body sys N N NN N_run glob fuel ifc o us Hus N_load N_set_dns s K1) as K2. pose proof (calm_body s U0) as U1.
  destruct (up_body sys glob fuel ifc o us s) as [b s1|x s1|x s1|s1]; cbn [held] in K2, U1.
  - cbn [ret] in E. injection E as <- <-. exfalso. destruct Bad as [Bad|Bad]; [apply Bad; reflexivity|apply Bad; exact U1].
  - destruct (del_if_cleans sys ifc fuel o s1 (proj2 K2)) as (y & E1 & D1 & W1 & C1). assert (Ey : h = sh_hist s1 ++ y) by (unfold exit_trap in E; destruct (del_if sys fuel ifc o true s1); cbn [ends] in E1; injection E as _ <-; exact E1).
    rewrite Ey in Eh. destruct (split_mid _ _ _ _ _ _ (eq_sym Eh)) as [(h3 & Eb & E2)|X].
    + exists h3, y, (sh_dns s1), (sh_fw s1). split; [exact E2|]. split; [exact C1|]. destruct (proj1 K2 c a ltac:(rewrite Eb; apply in_or_app; right; left; reflexivity) W) as [N1 N2]. auto.
    + exfalso. destruct C1 as [C1 _]. rewrite Forall_forall in C1. destruct (C1 _ X) as [F1 F2]. cbn [fst] in *. destruct HC; contradiction.
  - destruct (del_if_cleans sys ifc fuel o s1 (proj2 K2)) as (y & E1 & D1 & W1 & C1).
    assert (L : exists s2 st2, sh_hist s2 = sh_hist s1 ++ y /\ sh_dns s2 = sh_dns s1 /\ sh_fw s2 = sh_fw s1 /\ exit_trap (del_if sys fuel ifc o true) st2 s2 = (Some st, h)).
    { destruct (del_if sys fuel ifc o true s1) as [v s2|v s2|v s2|s2]; cbn [ends] in *; try (exists s2; eexists; repeat split; eassumption). discriminate E. }
    destruct L as (s2 & st2 & E2 & D2 & W2 & E3). destruct (del_if_cleans sys ifc fuel o s2 ltac:(rewrite D2; exact (proj2 K2))) as (z & E4 & D4 & W4 & C4).
    assert (Ez : h = sh_hist s1 ++ y ++ z) by (rewrite app_assoc, <- E2; unfold exit_trap in E3; destruct (del_if sys fuel ifc o true s2); cbn [ends] in E4; injection E3 as _ <-; exact E4).
    rewrite Ez in Eh. destruct (split_mid _ _ _ _ _ _ (eq_sym Eh)) as [(h3 & Eb & E5)|X].
    + exists (h3 ++ y), z, (sh_dns s1), (sh_fw s1). split; [rewrite <- app_assoc; exact E5|]. split; [rewrite <- D2, <- W2; exact C4|]. destruct (proj1 K2 c a ltac:(rewrite Eb; apply in_or_app; right; left; reflexivity) W) as [N1 N2]. auto.
    + exfalso. destruct C1 as [C1 _], C4 as [C4 _]. assert (C5 : Forall harmless (y ++ z)) by (apply Forall_app; auto). rewrite Forall_forall in C5. destruct (C5 _ X) as [F1 F2]. cbn [fst] in *. destruct HC; contradiction.
  - discriminate E.
Qed.
Lemma interrupted_end : forall h x, interrupted x -> ended_interrupted (h ++ x).
Proof. intros h x (h1 & ev & -> & K). exists (h ++ h1), ev. rewrite app_assoc. auto. Qed.
Lemma failing_end : forall C h x, failing C x -> ended_failing C (h ++ x).
Proof. intros C h x (h1 & ev & -> & K). exists (h ++ h1), ev. rewrite app_assoc. auto. Qed.

Lemma looked_up_steady : forall h a b c d p q x y, steady h -> h = a ++ x ++ b -> h = c ++ y ++ d -> looked_up x p -> looked_up y q -> p = q.
Proof.
  intros h a b c d p q x y S Ex Ey Lx Ly.
  assert (Ix : forall e, In e x -> In e h) by (intros e He; rewrite Ex; repeat rewrite in_app_iff; auto). assert (Iy : forall e, In e y -> In e h) by (intros e He; rewrite Ey; repeat rewrite in_app_iff; auto).
  destruct Lx as [(a1 & -> & N1 & ->)|(a1 & b1 & -> & N1 & P1)], Ly as [(a2 & -> & N2 & ->)|(a2 & b2 & -> & N2 & P2)].
  - reflexivity.
  - exfalso. destruct (S has_order_file a1 a2) as [K _]; [apply Ix; left; reflexivity|apply Iy; left; reflexivity|auto|]. congruence.
  - exfalso. destruct (S has_order_file a1 a2) as [K _]; [apply Ix; left; reflexivity|apply Iy; left; reflexivity|auto|]. congruence.
  - destruct (S read_order_file b1 b2) as [_ K]; [apply Ix; right; left; reflexivity|apply Iy; right; left; reflexivity|auto|]. rewrite K in P1. exact (preferred_unique _ _ _ P1 P2).
Qed.

(** C52: after a failed or interrupted "wg-quick up", every record registered with resolvconf has been deleted again, and wherever firewall
    rules were loaded the firewall was gone through to remove what is the interface's - unless the cleanup itself was interrupted, or (for the
    firewall) one of its own commands failed. *)
Theorem C52_dns_undone : forall st h h1 name text a h2, cmd_up sys glob fuel ifc o us = (Some st, h) -> st <> 0 \/ ~ undisturbed h ->
  h = h1 ++ (dns_add name text, a) :: h2 -> worked a -> steady h ->
  (exists b, In (dns_delete name, b) h2) \/ ended_interrupted h.
Proof.
  intros st h h1 name text a h2 E Bad Eh W S. destruct (up_cleanup st h h1 _ a h2 E Bad Eh W (or_introl (ex_intro _ name (ex_intro _ text eq_refl)))) as (h3 & x & dns & fw & Ex & (_ & C & _) & Hd & _).
  destruct (C (Hd (ex_intro _ name (ex_intro _ text eq_refl)))) as [(p & b & Hp)|Hi].
  - left. exists b. pose proof (C52_records sys glob fuel ifc o us Hus (Some st) h E) as R.
    destruct (R h1 _ a h2 Eh ltac:(eexists; reflexivity)) as (k0 & qs & q & E1 & L1 & [X|X]); [|discriminate X]. assert (En : name = q ++ ifc) by (exact (f_equal (fun c => nth 2 (c_argv c) []) X)).
    apply in_split in Hp as (x1 & x2 & Ep). assert (E2 : h = (h1 ++ (dns_add name text, a) :: h3 ++ x1) ++ (dns_delete (p ++ ifc), b) :: x2) by (rewrite Eh, Ex, Ep, <- !app_assoc; cbn [app]; rewrite <- app_assoc; reflexivity).
    destruct (R _ _ b x2 E2 ltac:(eexists; reflexivity)) as (k1 & qs' & q' & E3 & L2 & [Y|Y]); [discriminate Y|]. assert (Eq : p ++ ifc = q' ++ ifc) by (exact (f_equal (fun c => nth 2 (c_argv c) []) Y)).
    assert (q = q') as <-.
    { apply (looked_up_steady h k0 ((dns_add name text, a) :: h2) k1 ((dns_delete (p ++ ifc), b) :: x2) q q' qs qs' S); auto.
      - rewrite Eh, E1, <- app_assoc. reflexivity.
      - rewrite E2, E3, <- app_assoc. reflexivity. }
    rewrite Ex, Ep, En, <- Eq. repeat rewrite in_app_iff. right. right. left. reflexivity.
  - right. rewrite Eh, Ex. change ((dns_add name text, a) :: h3 ++ x) with (((dns_add name text, a) :: h3) ++ x). rewrite app_assoc. apply interrupted_end, Hi.
Qed.
Theorem C52_firewall_undone : forall st h h1 c a h2, cmd_up sys glob fuel ifc o us = (Some st, h) -> st <> 0 \/ ~ undisturbed h ->
  h = h1 ++ (c, a) :: h2 -> installs c -> worked a ->
  (exists x y z, h2 = x ++ y ++ z /\ removed_firewall ifc y) \/ ended_interrupted h \/ ended_failing (takes_back ifc) h.
Proof.
  intros st h h1 c a h2 E Bad Eh HI W. destruct (up_cleanup st h h1 _ a h2 E Bad Eh W (or_intror HI)) as (h3 & x & dns & fw & Ex & (_ & _ & C) & _ & Hw).
  assert (Ee : h = (h1 ++ (c, a) :: h3) ++ x) by (rewrite Eh, Ex, <- app_assoc; reflexivity).
  destruct (C (Hw HI)) as [(u & v & w & Ev & R)|[Hi|Hf]].
  - left. exists (h3 ++ u), v, w. split; [rewrite Ex, Ev, <- !app_assoc; reflexivity|exact R].
  - right. left. rewrite Ee. apply interrupted_end, Hi.
  - right. right. rewrite Ee. apply failing_end, Hf.
Qed.
End Noted.

(** *** A concrete case: the order file lists "lo" and "tun*", the PostUp hook fails. *)
Definition ordered : list (list string * answer) :=
  [(["eval"; "touch /run/wg0"]%string, fails 3);
   (["wg"; "show"; "wg0"; "allowed-ips"]%string, says ("k1 0.0.0.0/0 10.1.0.0/16"));
   (["sort"]%string, mk_answer 0 (str "10.1.0.0/16" ++ [10] ++ str "0.0.0.0/0" ++ [10]) None);
   (["wg"; "show"; "wg0"; "fwmark"]%string, says "off");
   (["<"; "/etc/resolvconf/interface-order"]%string, mk_answer 0 (str "lo" ++ [10] ++ str "tun*" ++ [10] ++ str "tap*" ++ [10]) None);
   (["nft"; "list"; "tables"]%string, says "table ip wg-quick-wg0")].
Example C52_case : fst (up ordered example_options) = Some 3 /\
  map (fun c => c_argv c) (filter watched (map fst (snd (up ordered example_options)))) = map words_of
   [["resolvconf"; "-a"; "tun.wg0"; "-m"; "0"; "-x"]; ["nft"; "-f"; "/dev/fd/63"]; ["resolvconf"; "-d"; "tun.wg0"; "-f"]; ["nft"; "-f"; "/dev/fd/63"]]%string /\
  map c_input (filter watched (map fst (snd (up ordered example_options)))) =
   [str "nameserver 10.0.0.1" ++ [10] ++ str "search corp" ++ [10]; nft_script wg0 (str "ip") [] (str "51820"); []; str "delete table ip wg-quick-wg0" ++ [10]].
Proof. repeat split; vm_compute; reflexivity. Qed.
Definition no_event : command * answer := (argv [], mk_answer 0 [] None).
Example C52_case_hypotheses : let h := snd (up ordered example_options) in steady h /\
  (exists h1 a h2, h = h1 ++ (dns_add (str "tun.wg0") (str "nameserver 10.0.0.1" ++ [10] ++ str "search corp" ++ [10]), a) :: h2 /\ worked a) /\
  (exists h1 c a h2, h = h1 ++ (c, a) :: h2 /\ installs c /\ worked a).
Proof.
  cbv zeta. set (h := snd (up ordered example_options)).
  assert (T : forall c a, In (c, a) h -> a = lookup ordered (c_argv c)).
  { assert (F : Forall (fun ev => snd ev = lookup ordered (c_argv (fst ev))) h) by (vm_compute; repeat constructor). rewrite Forall_forall in F. intros c a Hc. exact (F (c, a) Hc). }
  split; [intros c a b Ha Hb _; apply T in Ha; apply T in Hb; subst a b; split; reflexivity|]. split.
  - exists (firstn 11 h), (snd (nth 11 h no_event)), (skipn 12 h). split; [|vm_compute; split; reflexivity]. vm_compute. reflexivity.
  - exists (firstn 26 h), (fst (nth 26 h no_event)), (snd (nth 26 h no_event)), (skipn 27 h). split; [|split; [|vm_compute; split; reflexivity]].
    + vm_compute. reflexivity.
    + left. exists (skipn 10 (nft_script wg0 (str "ip") [] (str "51820"))). vm_compute. reflexivity.
Qed.

(** If deleting the record fails, the firewall rules stay. *)
Theorem C52_dns_failure_refuted : exists sys h h1 c a h2, cmd_up sys no_glob 5 wg0 example_options (str "wireguard-go") = (Some 1, h) /\ undisturbed h /\
  h = h1 ++ (c, a) :: h2 /\ installs c /\ worked a /\ forall ev, In ev h2 -> ~ loads_firewall (fst ev).
Proof.
  set (l := (["resolvconf"; "-d"]%string, fails 1) :: ordered). set (h := snd (up l example_options)).
  exists (table_system l), h, (firstn 26 h), (fst (nth 26 h no_event)), (snd (nth 26 h no_event)), (skipn 27 h).
  split; [vm_compute; reflexivity|]. split.
  { assert (U : Forall (fun ev => a_signal (snd ev) = None) h) by (vm_compute; repeat constructor). rewrite Forall_forall in U. exact U. }
  split; [vm_compute; reflexivity|].
  split; [left; exists (skipn 10 (nft_script wg0 (str "ip") [] (str "51820"))); vm_compute; reflexivity|]. split; [vm_compute; split; reflexivity|].
  assert (F : Forall (fun ev => watched (fst ev) = false \/ begins [str "resolvconf"] (c_argv (fst ev)) = true) (skipn 27 h)) by (vm_compute; repeat (constructor; [auto|]); constructor).
  rewrite Forall_forall in F. intros ev Hev K. destruct (F ev Hev) as [X|X].
  - destruct K as [(t & K)|(i & t & Hi & K)]; [|destruct Hi as [<-|[<-|[]]]]; rewrite K in X; discriminate X.
  - destruct K as [(t & K)|(i & t & Hi & K)]; [|destruct Hi as [<-|[<-|[]]]]; rewrite K in X; discriminate X.
Qed.
