(** Proofs about wg-quick on OpenBSD: names, and pieces it shares with FreeBSD. *)
From Coq Require Import String ZArith List Bool Lia.
From Verif Require Import Base Cstr CstrProofs Bash Quick QuickRun QuickSpec QuickRunSpec QuickReloadSpec QuickRouteSpec QuickMain Sh ShGoes BsdRoutes BsdRoutesSpec
  BsdRoutesProofs BsdRoutesProofs3 PropQuickReload FreeQuick OpenQuick OpenSpec.
From Verif Require FreeSpec FreeProofs FreeProofs2 FreeProofs3.
Import ListNotations.
Open Scope Z_scope.

(** ** Commands that may not fail *)
Lemma excused_bears : forall c, FreeSpec.excused c -> bears c.
Proof. intros c H. left. exact H. Qed.
Lemma bears_cases : forall w ws i, bears (mk_cmd (w :: ws) i) -> FreeSpec.excused (mk_cmd (w :: ws) i) \/ (w = str "ifconfig" /\ ws = []) \/ w = str "pgrep" \/
  (w = str "ifconfig" /\ exists r e, ws = r :: str "create" :: e).
Proof.
  intros w ws i [H|[H|[(d & H)|(ri & ifc & H)]]]; [left; exact H| | |]; apply (f_equal c_argv) in H; unfold list_all, runs, create in H; cbn [c_argv argv] in H.
  - right. left. split; congruence.
  - right. right. left. congruence.
  - right. right. right. split; [congruence|]. assert (E : ws = [ri; str "create"; str "description"; str "wg-quick: " ++ ifc]) by congruence. eauto.
Qed.
Lemma not_bears : forall w ws i, ~ In w (words_of ["netstat"; "route"; "wg"; "test"; "sort"; "resolvconf"; "ifconfig"; "umask"; "monitor_daemon"; "pgrep"]%string) -> ~ bears (mk_cmd (w :: ws) i).
Proof.
  intros w ws i N H. apply bears_cases in H as [H|[[-> _]|[->|[-> _]]]].
  - revert H. apply FreeProofs.not_excused. intro Hi. apply N. cbn [words_of map In] in Hi |- *. tauto.
  - apply N. vm_compute; tauto.
  - apply N. vm_compute; tauto.
  - apply N. vm_compute; tauto.
Qed.
Ltac nb := solve [apply not_bears; vm_compute; intuition discriminate].
Lemma not_bears_ifconfig : forall x y ws, y <> str "create" -> ~ bears (argv (str "ifconfig" :: x :: y :: ws)).
Proof.
  intros x y ws N H. apply bears_cases in H as [H|[[_ H]|[H|(_ & r & e & H)]]].
  - revert H. apply FreeProofs.not_excused_ifconfig.
  - discriminate H.
  - discriminate H.
  - congruence.
Qed.
Lemma not_bears_route : forall f r z, ~ bears (argv [str "route"; str "-q"; str "-n"; str "add"; f; r; str "-iface"; z]).
Proof.
  intros f r z H. apply bears_cases in H as [H|[[H _]|[H|(H & _)]]]; [|discriminate H..].
  revert H. apply (FreeProofs.not_excused_route f (str "-iface") r z []); discriminate.
Qed.
Lemma not_excused_second : forall x ws i, x <> str "-n" -> x <> str "-q" -> ~ FreeSpec.excused (mk_cmd (str "route" :: x :: ws) i).
Proof.
  intros x ws i N1 N2 [[(p & Hp & Hb)|[(y & E)|E]]|[(g & e & t & E)|[(g & e & E)|E]]].
  - unfold FreeSpec.prefixes in Hp. cbn [map words_of In] in Hp. destruct Hp as [<-|Hp]; [discriminate Hb|]. destruct Hp as [<-|Hp]; [|repeat (destruct Hp as [<-|Hp]; [discriminate Hb|]); destruct Hp].
    cbn [begins c_argv] in Hb. apply andb_true_iff in Hb as [_ Hb]. apply andb_true_iff in Hb as [Hb _]. apply beq_eq in Hb. congruence.
  - discriminate E.
  - discriminate E.
  - apply (f_equal c_argv) in E. unfold adds in E. cbn [argv c_argv app] in E. congruence.
  - apply (f_equal c_argv) in E. unfold deletes in E. cbn [argv c_argv app] in E. congruence.
  - apply (f_equal c_argv) in E. discriminate E.
Qed.
Lemma not_bears_nameserver : forall ws, ~ bears (argv (str "route" :: str "nameserver" :: ws)).
Proof.
  intros ws H. apply bears_cases in H as [H|[[H _]|[H|(H & _)]]]; [|discriminate H..]. revert H. apply not_excused_second; discriminate.
Qed.
Lemma not_bears_table : forall t f r z, ~ bears (argv [str "route"; str "-q"; str "-n"; str "-T"; t; str "add"; f; r; str "-iface"; z]).
Proof.
  intros t f r z H. apply bears_cases in H as [H|[[H _]|[H|(H & _)]]]; [|discriminate H..]. destruct H as [[(p & Hp & Hb)|[(y & E)|E]]|[(g & e & t' & E)|[(g & e & E)|E]]].
  - unfold FreeSpec.prefixes in Hp. cbn [map words_of In] in Hp. repeat (destruct Hp as [<-|Hp]; [discriminate Hb|]). destruct Hp.
  - discriminate E.
  - discriminate E.
  - apply (f_equal c_argv) in E. unfold adds in E. cbn [argv c_argv app] in E. discriminate E.
  - apply (f_equal c_argv) in E. discriminate E.
  - apply (f_equal c_argv) in E. discriminate E.
Qed.
Lemma not_bears_wg : forall w ws i, w <> str "show" -> ~ bears (mk_cmd (str "wg" :: w :: ws) i).
Proof. intros w ws i N H. apply bears_cases in H as [H|[[H _]|[H|(H & _)]]]; [|discriminate H..]. revert H. apply FreeProofs.not_excused_wg, N. Qed.
Lemma not_bears_umask : forall x ws, ~ bears (argv (str "umask" :: x :: ws)).
Proof. intros w ws H. apply bears_cases in H as [H|[[H _]|[H|(H & _)]]]; [|discriminate H..]. revert H. apply FreeProofs.not_excused_umask. Qed.

(** ** Pieces shared with FreeBSD *)
Lemma fine_free : forall ev, FreeSpec.fine ev -> fine ev.
Proof. intros ev [S [E|E]]; (split; [exact S|]); [left; exact E|right; apply excused_bears, E]. Qed.
Lemma free_fine : forall h, Forall (fun ev => FreeSpec.excused (fst ev)) h -> Forall fine h -> Forall FreeSpec.fine h.
Proof. intros h E F. induction E as [|ev h X _ IH]; [constructor|]. inversion F as [|? ? [S _] F']; subst. constructor; [split; auto|auto]. Qed.

Section Bridge.
Variables (as_1 : command -> Prop) (sys : system) (ri : list Z) (o : options).
Notation goes := (ShGoes.goes bears as_1).
Notation go := (ShGoes.go bears as_1).
Lemma from_free : forall A (m : act vars A) D, (forall d, FreeProofs.goes ri o d m D) -> FreeProofs3.never m -> goes m D.
Proof.
  intros A m D H N. split.
  - intro v. destruct (proj1 (H (v_tmp v)) v eq_refl) as (a & h & v1 & X). exists h. left. exists a, v1. exact X.
  - intro s. pose proof (proj2 (H (v_tmp (s_vars s))) s eq_refl) as X. specialize (N s). destruct (m s) as [a s1|st s1|st s1|s1].
    + destruct X as (h & E & F & _ & X). exists h. split; [exact E|]. split; [|exact X]. eapply Forall_impl; [|exact F]. exact fine_free.
    + destruct (N st s1 eq_refl).
    + destruct X as (h & ev & E & F & _ & S & a & h' & v' & X). exists h, ev. split; [exact E|]. split; [eapply Forall_impl; [|exact F]; exact fine_free|]. split; [exact S|].
      exists h'. left. exists a, v'. rewrite <- app_assoc. exact X.
    + exact I.
Qed.
Lemma never_ask : forall ws, FreeProofs3.never (ask sys ws).
Proof. intro ws. apply FreeProofs3.never_thn; [apply FreeProofs3.never_call|intro; apply FreeProofs3.never_pure]. Qed.
Lemma never_device : forall out, FreeProofs3.never (device_mtu sys out).
Proof. intro out. unfold device_mtu. destruct (device_named out); [|apply FreeProofs3.never_pure]. apply FreeProofs3.never_thn; [apply never_ask|intro; apply FreeProofs3.never_pure]. Qed.
Lemma never_peers : forall ls m, FreeProofs3.never (peers_mtu sys ls m).
Proof.
  induction ls as [|l ls IH]; intro m; cbn [peers_mtu]; [apply FreeProofs3.never_pure|]. destruct (endpoint_host (second_field l)); [|apply IH].
  apply FreeProofs3.never_thn; [apply never_ask|intro]. apply FreeProofs3.never_thn; [apply never_device|intro]. apply IH.
Qed.
Lemma never_direct : FreeProofs3.never (direct_routes sys ri).
Proof.
  unfold direct_routes. apply FreeProofs3.never_get. intro w. destruct (v_auto4 w || v_auto6 w); [|apply FreeProofs3.never_pure].
  unfold set_endpoint_direct_route. apply FreeProofs3.never_get. intro v0. apply FreeProofs3.never_thn; [unfold collect_gateways; repeat (apply FreeProofs3.never_thn; [first [apply FreeProofs3.never_feed|apply FreeProofs3.never_put]|intro]); apply FreeProofs3.never_put|]. intros _.
  apply FreeProofs3.never_thn; [apply FreeProofs3.never_thn; [apply FreeProofs3.never_feed|intro; apply FreeProofs3.never_put]|]. intros _. apply FreeProofs3.never_get. intro v. cbv zeta.
  assert (Nd : forall v e, FreeProofs3.never (drop_route sys v e)) by (intros v' e; unfold drop_route; destruct (_ && _); [apply FreeProofs3.never_try|]; destruct (v_auto4 v'); [apply FreeProofs3.never_try|apply FreeProofs3.never_pure]).
  apply FreeProofs3.never_thn; [apply FreeProofs3.never_each; intro e; unfold drop_old; destruct (_ && _); [apply FreeProofs3.never_pure|apply Nd]|]. intros _. apply FreeProofs3.never_thn; [|intro; apply FreeProofs3.never_put].
  generalize (negb (beq (v_gw4 v0) (v_gw4 v)) || negb (beq (v_gw6 v0) (v_gw6 v))). intro all. generalize (if all then merge (v_eps v0) (v_eps v) else v_eps v0). intro old.
  induction (v_eps v) as [|e eps IH]; cbn [add_new]; [apply FreeProofs3.never_pure|]. apply FreeProofs3.never_thn; [|intro; apply FreeProofs3.never_thn; [exact IH|intro; apply FreeProofs3.never_pure]].
  destruct (_ && _); [apply FreeProofs3.never_pure|]. unfold add_direct. destruct (_ && _); [destruct (v_gw6 v); (apply FreeProofs3.never_thn; [apply FreeProofs3.never_try|intro; apply FreeProofs3.never_pure])|].
  destruct (v_auto4 v); [destruct (v_gw4 v); (apply FreeProofs3.never_thn; [apply FreeProofs3.never_try|intro; apply FreeProofs3.never_pure])|apply FreeProofs3.never_pure].
Qed.
Lemma never_del_routes : FreeProofs3.never (BsdRoutes.del_routes sys ri).
Proof.
  unfold BsdRoutes.del_routes. apply FreeProofs3.never_thn; [apply FreeProofs3.never_feed|intro]. apply FreeProofs3.never_thn; [apply FreeProofs3.never_each; intro; apply FreeProofs3.never_try|intro]. apply FreeProofs3.never_thn; [apply FreeProofs3.never_feed|intro].
  apply FreeProofs3.never_thn; [apply FreeProofs3.never_each; intro; apply FreeProofs3.never_try|intro]. apply FreeProofs3.never_get. intro. apply FreeProofs3.never_each. intro. unfold del_endpoint. destruct (has_char 58 _); apply FreeProofs3.never_try.
Qed.
Definition no_glob : list Z -> list (list Z) := fun _ => [].
Lemma go_device : forall out, goes (device_mtu sys out) (fun v r h v1 => (FreeSpec.asking h /\ FreeSpec.interface_says out h (PropQuickMtu.or_0 r) /\ 0 <= PropQuickMtu.or_0 r) /\ v1 = v).
Proof. intro out. apply from_free; [|apply never_device]. intro d. apply FreeProofs2.goes_device_mtu; exact no_glob. Qed.
Lemma go_peers : forall ls m0, 0 <= m0 -> goes (peers_mtu sys ls m0) (fun v r h v1 => (FreeSpec.asking h /\ exists m, FreeSpec.interfaces_say (BsdRoutes.hosts ls) h m /\ 0 <= m /\ r = Z.max m0 m) /\ v1 = v).
Proof. intros ls m0 H. apply from_free; [|apply never_peers]. intro d. apply FreeProofs2.goes_peers_mtu; [exact no_glob|exact H]. Qed.
Lemma fine_hosts : forall h, FreeSpec.host_routes ri h -> Forall fine h -> Forall FreeSpec.fine h.
Proof.
  intros h (a4 & a6 & ae & h' & -> & F). apply free_fine. cbn [app]. repeat (constructor; [cbn [fst]; left; FreeProofs.asking_word|]).
  eapply Forall_impl; [|exact F]. intros ev [X|X]; right; auto.
Qed.
Lemma go_direct : goes (direct_routes sys ri) (fun v _ h v1 =>
  (v_auto4 v = true \/ v_auto6 v = true -> FreeSpec.host_routes ri h /\ (Forall fine h -> FreeProofs3.round_fact ri v h v1)) /\
  (~ (v_auto4 v = true \/ v_auto6 v = true) -> h = [] /\ v1 = v)).
Proof.
  eapply goes_conseq; [apply from_free; [intro d; apply FreeProofs3.goes_direct; exact no_glob|apply never_direct]|]. cbv beta. intros v a h v1 (_ & H1 & H2). split; [|exact H2].
  intro X. destruct (H1 X) as [Y1 Y2]. split; [exact Y1|]. intro F. apply Y2, fine_hosts; assumption.
Qed.
Lemma go_del_routes : device_word ri -> goes (BsdRoutes.del_routes sys ri) (fun v _ h v1 => deletes_routes ri h /\ v1 = v).
Proof.
  intro Dw. eapply goes_conseq; [apply from_free; [intro d; apply FreeProofs3.goes_del_routes; exact no_glob|apply never_del_routes]|]. cbv beta. intros v a h v1 ((Hd & ->) & H). split; [|reflexivity].
  split; [exact Hd|]. intro F. assert (F' : Forall FreeSpec.fine h).
  { apply free_fine; [|exact F]. eapply Forall_impl; [|exact Hd]. intros ev [X|X]; [left; exact X|right; right; left; exact X]. }
  destruct (H F' Dw) as (a4 & a6 & I4 & I6 & G). exists a4, a6, (v_eps v). split; [exact I4|]. split; [exact I6|]. intros T T' K f e. exact (G T T' K f e).
Qed.
Ltac asks := apply excused_bears; left; FreeProofs.asking_word.
Lemma go_mtu : goes (set_mtu sys ri o) (fun v _ h v1 => (exists q n a, h = q ++ [(FreeSpec.give_mtu ri n, a)] /\ FreeSpec.asking q /\ (o_mtu o <> [] -> q = [] /\ n = o_mtu o) /\ (o_mtu o = [] -> FreeSpec.measured ri q n)) /\ v1 = v).
Proof.
  assert (Nb : forall n, ~ bears (argv [!"ifconfig"; ri; !"mtu"; n])) by (intro n; apply not_bears_ifconfig; discriminate).
  unfold set_mtu. destruct (o_mtu o) as [|x l] eqn:E.
  - eapply goes_conseq; [apply goes_thn; [apply go_feed; asks|intro eps; apply goes_thn; [apply (go_peers (read_complete eps) 0 (Z.le_refl 0))|intro m1; apply goes_thn;
      [|intro m2; apply go_must; apply Nb]]]|].
    + instantiate (1 := fun v r h v1 => (FreeSpec.asking h /\ (0 <= m1 -> (0 < m1 /\ h = [] /\ r = m1) \/ (m1 = 0 /\ exists c h3 line, h = (argv [str "route"; str "-n"; str "get"; str "default"], c) :: h3 /\
        QuickMtuSpec.first_line (a_output c) line /\ FreeSpec.interface_says line h3 r /\ 0 <= r))) /\ v1 = v). destruct (Z.eqb_spec m1 0) as [Z0|Z0].
      * eapply goes_conseq; [apply goes_thn; [apply go_feed; asks|intro out; apply goes_thn; [apply go_device|intro k; apply go_pure]]|].
        cbv beta. intros v a h v1 (l0 & h1 & v2 & h2 & -> & (r & -> & -> & ->) & k & h3 & v3 & h4 & -> & ((A3 & D3 & P3) & ->) & -> & -> & ->). split; [|reflexivity].
        split; [apply FreeProofs2.asking_app; [constructor; [FreeProofs.asking_word|constructor]|]; rewrite app_nil_r; exact A3|]. intros _. right. split; [exact Z0|]. exists r, h3. eexists. split; [cbn [app]; rewrite app_nil_r; reflexivity|]. split; [apply PropQuickMtu.first_line_spec|].
        rewrite Z0, PropQuickMtu.larger_max by (try apply Z.le_refl; exact P3). rewrite Z.max_r by exact P3. auto.
      * eapply goes_conseq; [apply go_pure|]. cbv beta. intros v a h v1 (-> & -> & ->). split; [|reflexivity]. split; [constructor|]. intro P. left. split; [lia|auto].
    + cbv beta. intros v a h v1 (l0 & h1 & v2 & h2 & -> & (r & -> & -> & ->) & k & h3 & v3 & h4 & -> & ((A3 & m & D3 & P3 & ->) & ->) & m2 & h5 & v5 & h6 & -> & ((A5 & D5) & ->) & b & -> & ->).
      split; [|reflexivity]. eexists (_ :: h3 ++ h5), _, b. split; [cbn [app]; rewrite <- app_assoc; reflexivity|].
      split; [change (FreeSpec.asking ([(argv [str "wg"; str "show"; ri; str "endpoints"], r)] ++ h3 ++ h5)); apply FreeProofs2.asking_app; [constructor; [FreeProofs.asking_word|constructor]|apply FreeProofs2.asking_app; assumption]|]. split; [intro N; contradiction|]. intros _.
      rewrite FreeProofs2.less_80_signed. exists r, (BsdRoutes.hosts (read_complete (a_output r))), h3, h5, m, (if 0 <? m2 then m2 else 1500). split; [reflexivity|]. split; [apply hosts_spec|]. split; [exact D3|]. split; [reflexivity|].
      rewrite Z.max_r in D5 by exact P3. destruct (D5 P3) as [(Pm & -> & ->)|(-> & c & h7 & line & -> & L & J1 & J)].
      * left. split; [exact Pm|]. split; [reflexivity|]. destruct (Z.ltb_spec 0 m); [reflexivity|lia].
      * right. split; [reflexivity|]. exists c, h7, line, m2. split; [reflexivity|]. split; [exact L|]. split; [exact J1|]. destruct (Z.ltb_spec 0 m2); [left; auto|right]. split; [lia|reflexivity].
      * exact no_glob.
      * exact [].
  - eapply goes_conseq; [apply go_must; apply Nb|]. cbv beta. intros v a h v1 (r & -> & ->). split; [|reflexivity].
    exists [], (x :: l), r. split; [reflexivity|]. split; [constructor|]. split; [auto|discriminate].
Qed.
(** A loop that leaves the variables alone. *)
Lemma Deach_same : forall A (D : A -> history -> Prop) l (v : vars) h v1, Deach (fun x v h v1 => D x h /\ v1 = v) l v h v1 -> v1 = v /\ FreeProofs.Deach D l h.
Proof.
  intros A D l v h v1 H. induction H as [v|x l v v1 v2 h h' [X ->] _ [-> IH]]; [split; [reflexivity|constructor]|]. split; [reflexivity|]. constructor; assumption.
Qed.
Variable ifc : list Z.
Lemma go_hooks : forall l, goes (OpenQuick.execute_hooks sys ifc ri l) (fun v _ h v1 => hooks ri ifc l h /\ v1 = v).
Proof.
  intro l. unfold OpenQuick.execute_hooks. eapply goes_conseq; [apply (goes_each _ _ _ _ _ (fun x v h v1 => (exists a, h = [(run_hook (OpenQuick.hook_text ifc ri x), a)]) /\ v1 = v))|].
  - intros x _. eapply goes_conseq; [apply go_must; nb|]. cbv beta. intros v a h v1 (r & -> & ->). split; [exists r; reflexivity|reflexivity].
  - cbv beta. intros v _ h v1 H. apply Deach_same in H as [-> H]. split; [|reflexivity]. unfold hooks. clear v. induction H as [|x l h h' (a & ->) H (ts & F & E)].
    + exists []. split; [constructor|reflexivity].
    + exists (OpenQuick.hook_text ifc ri x :: ts). split; [constructor; [|exact F]|cbn [map app fst]; rewrite E; reflexivity].
      unfold hook_text. exists (replace_all !"%i" ri x). split; apply QuickUpProofs.replace_all_substituted; discriminate.
Qed.
Lemma go_addresses : forall l, goes (each (add_addr sys ri) l) (fun v _ h v1 => Forall2 (FreeSpec.alias ri) l (map fst h) /\ v1 = v).
Proof.
  intro l. eapply goes_conseq; [apply (goes_each _ _ _ _ _ (fun x v h v1 => (exists a, h = [(argv [!"ifconfig"; ri; inet x; x; !"alias"], a)]) /\ v1 = v))|].
  - intros x _. eapply goes_conseq; [apply go_must; apply not_bears_ifconfig; unfold inet; destruct (has_char 58 x); discriminate|]. cbv beta. intros v a h v1 (r & -> & ->). split; [exists r; reflexivity|reflexivity].
  - cbv beta. intros v _ h v1 H. apply Deach_same in H as [-> H]. split; [|reflexivity]. clear v. induction H as [|x l h h' (a & ->) H IH]; [constructor|]. cbn [map app fst]. constructor; [|exact IH].
    destruct (FreeProofs2.fits_inet x) as (f & F & -> & _). exists f. split; [exact F|reflexivity].
Qed.
End Bridge.
