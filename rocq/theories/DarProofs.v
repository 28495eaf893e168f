(** Proofs about wg-quick on macOS: failures, pieces it shares with FreeBSD, the interface's name. *)
From Coq Require Import String ZArith List Bool Lia.
From Verif Require Import Base Cstr CstrProofs Bash Quick QuickRun QuickSpec QuickRunSpec QuickReloadSpec QuickRouteSpec QuickMain Sh ShGoes BsdRoutes BsdRoutesSpec
  BsdRoutesProofs BsdRoutesProofs3 PropQuickReload FreeQuick DarQuick DarSpec.
From Verif Require FreeSpec FreeProofs FreeProofs2 FreeProofs3 OpenProofs DarDnsSpec QuickUpProofs QuickMtuSpec PropQuickMtu.
Import ListNotations.
Open Scope Z_scope.

(** ** Commands that may not fail *)
Lemma bears_cases : forall w ws i, bears (mk_cmd (w :: ws) i) -> FreeSpec.excused (mk_cmd (w :: ws) i) \/ w = str "stat" \/ w = str "<" \/
  (w = str "networksetup" /\ (ws = [str "-listallnetworkservices"] \/ exists x r, (x = str "-setdnsservers" \/ x = str "-setsearchdomains") /\ ws = x :: r)).
Proof.
  intros w ws i [H|[(p & H)|[(p & H)|[H|[(s & l & H)|(s & l & H)]]]]]; [left; exact H|right..]; apply (f_equal c_argv) in H; unfold made_at, read_name, DarDnsSpec.list_services, DarDnsSpec.set_servers, DarDnsSpec.set_domains in H; cbn [c_argv argv] in H.
  - left. congruence.
  - right. left. congruence.
  - right. right. split; [congruence|]. left. congruence.
  - right. right. split; [congruence|]. right. exists (str "-setdnsservers"), (s :: l). split; [auto|congruence].
  - right. right. split; [congruence|]. right. exists (str "-setsearchdomains"), (s :: l). split; [auto|congruence].
Qed.
Lemma not_bears : forall w ws i, ~ In w (words_of ["netstat"; "route"; "wg"; "test"; "sort"; "resolvconf"; "ifconfig"; "umask"; "monitor_daemon"; "stat"; "<"; "networksetup"]%string) -> ~ bears (mk_cmd (w :: ws) i).
Proof.
  intros w ws i N H. apply bears_cases in H as [H|[->|[->|[-> _]]]].
  - revert H. apply FreeProofs.not_excused. intro Hi. apply N. cbn [words_of map In] in Hi |- *. tauto.
  - apply N. vm_compute; tauto.
  - apply N. vm_compute; tauto.
  - apply N. vm_compute; tauto.
Qed.
Ltac nb := solve [apply not_bears; vm_compute; intuition discriminate].
Lemma not_bears_ifconfig : forall x y ws, ~ bears (argv (str "ifconfig" :: x :: y :: ws)).
Proof. intros x y ws H. apply bears_cases in H as [H|[H|[H|[H _]]]]; [|discriminate H..]. revert H. apply FreeProofs.not_excused_ifconfig. Qed.
Lemma not_bears_route : forall f r z, ~ bears (argv [str "route"; str "-q"; str "-n"; str "add"; f; r; str "-interface"; z]).
Proof. intros f r z H. apply bears_cases in H as [H|[H|[H|[H _]]]]; [|discriminate H..]. revert H. apply (FreeProofs.not_excused_route f (str "-interface") r z []); discriminate. Qed.
Lemma not_bears_wg : forall w ws i, w <> str "show" -> ~ bears (mk_cmd (str "wg" :: w :: ws) i).
Proof. intros w ws i N H. apply bears_cases in H as [H|[H|[H|[H _]]]]; [|discriminate H..]. revert H. apply FreeProofs.not_excused_wg, N. Qed.
Lemma not_bears_umask : forall x ws, ~ bears (argv (str "umask" :: x :: ws)).
Proof. intros x ws H. apply bears_cases in H as [H|[H|[H|[H _]]]]; [|discriminate H..]. revert H. apply FreeProofs.not_excused_umask. Qed.
Lemma not_excused_networksetup : forall ws, ~ FreeSpec.excused (argv (str "networksetup" :: ws)).
Proof. intros ws. apply FreeProofs.not_excused. vm_compute; intuition discriminate. Qed.
Lemma not_bears_get : forall x ws, x <> str "-setdnsservers" -> x <> str "-setsearchdomains" -> x <> str "-listallnetworkservices" -> ~ bears (argv (str "networksetup" :: x :: ws)).
Proof.
  intros x ws N1 N2 N3 H. apply bears_cases in H as [H|[H|[H|[_ [H|(y & r & [->| ->] & H)]]]]]; [exact (not_excused_networksetup _ H)|discriminate H|discriminate H|congruence..].
Qed.
Lemma asks_bears : forall c, FreeSpec.only_asks c -> bears c.
Proof. intros c H. left. left. exact H. Qed.
Ltac asks := apply asks_bears; FreeProofs.asking_word.

(** ** Pieces shared with FreeBSD *)
Notation fine_b := (DarSpec.fine bears).
Lemma fine_free : forall ev, FreeSpec.fine ev -> fine_b ev.
Proof. intros ev [S [E|E]]; (split; [exact S|]); [left; exact E|right; left; exact E]. Qed.
Lemma free_fine : forall h, Forall (fun ev => FreeSpec.excused (fst ev)) h -> Forall fine_b h -> Forall FreeSpec.fine h.
Proof. intros h E F. induction E as [|ev h X _ IH]; [constructor|]. inversion F as [|? ? [S _] F']; subst. constructor; [split; auto|auto]. Qed.
Definition no_glob : list Z -> list (list Z) := fun _ => [].
Lemma go_ext : forall (B as_1 : command -> Prop) A (m m' : act vars A) D G, (forall s, m' s = m s) -> ShGoes.go B as_1 m D G -> ShGoes.go B as_1 m' D G.
Proof. intros B as_1 A m m' D G E [T H]. split; [exact T|]. intros s. rewrite E. exact (H s). Qed.

Section Bridge.
Variables (as_1 : command -> Prop) (sys : system) (ri : list Z) (o : options).
Notation goes := (ShGoes.goes bears as_1).
Notation go := (ShGoes.go bears as_1).
Lemma from_free : forall A (m : act vars A) D, (forall d, FreeProofs.goes ri o d m D) -> FreeProofs3.never m -> goes m D.
Proof.
  intros A m D H N. split.
  - intro v. destruct (proj1 (H (v_tmp v)) v eq_refl) as (a & h & v1 & X). exists h. left. exists a, v1. exact X.
  - intro s. pose proof (proj2 (H (v_tmp (s_vars s))) s eq_refl) as X. specialize (N s). destruct (m s) as [a s1|st s1|st s1|s1].
    + destruct X as (h & E & F & _ & X). exists h. split; [exact E|]. split; [|exact X]. eapply Forall_impl; [|exact F]. exact fine_free.
    + destruct (N st s1 eq_refl).
    + destruct X as (h & ev & E & F & _ & S & a & h' & v' & X). exists h, ev. split; [exact E|]. split; [eapply Forall_impl; [|exact F]; exact fine_free|]. split; [exact S|].
      exists h'. left. exists a, v'. rewrite <- app_assoc. exact X.
    + exact I.
Qed.
Lemma never_round : FreeProofs3.never (set_endpoint_direct_route sys ri true).
Proof.
  unfold set_endpoint_direct_route. apply FreeProofs3.never_get. intro v0. apply FreeProofs3.never_thn; [unfold collect_gateways; repeat (apply FreeProofs3.never_thn; [first [apply FreeProofs3.never_feed|apply FreeProofs3.never_put]|intro]); apply FreeProofs3.never_put|]. intros _.
  apply FreeProofs3.never_thn; [apply FreeProofs3.never_thn; [apply FreeProofs3.never_feed|intro; apply FreeProofs3.never_put]|]. intros _. apply FreeProofs3.never_get. intro v. cbv zeta.
  assert (Nd : forall v e, FreeProofs3.never (drop_route sys v e)) by (intros v' e; unfold drop_route; destruct (_ && _); [apply FreeProofs3.never_try|]; destruct (v_auto4 v'); [apply FreeProofs3.never_try|apply FreeProofs3.never_pure]).
  apply FreeProofs3.never_thn; [apply FreeProofs3.never_each; intro e; unfold drop_old; destruct (_ && _); [apply FreeProofs3.never_pure|apply Nd]|]. intros _. apply FreeProofs3.never_thn; [|intro; apply FreeProofs3.never_put].
  generalize (negb (beq (v_gw4 v0) (v_gw4 v)) || negb (beq (v_gw6 v0) (v_gw6 v))). intro all. generalize (if all then merge (v_eps v0) (v_eps v) else v_eps v0). intro old.
  induction (v_eps v) as [|e eps IH]; cbn [add_new]; [apply FreeProofs3.never_pure|]. apply FreeProofs3.never_thn; [|intro; apply FreeProofs3.never_thn; [exact IH|intro; apply FreeProofs3.never_pure]].
  destruct (_ && _); [apply FreeProofs3.never_pure|]. unfold add_direct. destruct (_ && _); [destruct (v_gw6 v); (apply FreeProofs3.never_thn; [apply FreeProofs3.never_try|intro; apply FreeProofs3.never_pure])|].
  destruct (v_auto4 v); [destruct (v_gw4 v); (apply FreeProofs3.never_thn; [apply FreeProofs3.never_try|intro; apply FreeProofs3.never_pure])|apply FreeProofs3.never_pure].
Qed.
Lemma fine_hosts : forall h, FreeSpec.host_routes ri h -> Forall fine_b h -> Forall FreeSpec.fine h.
Proof.
  intros h (a4 & a6 & ae & h' & -> & F). apply free_fine. cbn [app]. repeat (constructor; [cbn [fst]; left; FreeProofs.asking_word|]).
  eapply Forall_impl; [|exact F]. intros ev [X|X]; right; auto.
Qed.
Lemma go_direct : goes (direct_routes sys ri) (fun v _ h v1 =>
  (v_auto4 v = true \/ v_auto6 v = true -> FreeSpec.host_routes ri h /\ (Forall fine_b h -> FreeProofs3.round_fact_nl ri true v h v1)) /\
  (~ (v_auto4 v = true \/ v_auto6 v = true) -> h = [] /\ v1 = v)).
Proof.
  unfold direct_routes. eapply goes_conseq; [apply (go_get _ _ _ _ _ (fun w v (_ : unit) h v1 =>
    (v_auto4 w = true \/ v_auto6 w = true -> FreeSpec.host_routes ri h /\ (Forall fine_b h -> FreeProofs3.round_fact_nl ri true v h v1)) /\ (~ (v_auto4 w = true \/ v_auto6 w = true) -> h = [] /\ v1 = v)) (fun _ => @no_G vars))|].
  - intro w. destruct (v_auto4 w || v_auto6 w) eqn:E.
    + apply orb_true_iff in E. eapply goes_conseq; [apply from_free; [intro d; apply FreeProofs3.goes_round_nl|apply never_round]|]; try exact no_glob. cbv beta. intros v a h v1 [[H1 _] H3].
      split; [intros _; split; [exact H1|intro F; apply H3, fine_hosts; assumption]|]. intro N. destruct (N E).
    + apply orb_false_iff in E as [E1 E2]. eapply goes_conseq; [apply go_pure|]. cbv beta. intros v a h v1 (_ & -> & ->). split; [intros [X|X]; congruence|auto].
  - cbv beta. auto.
Qed.
Lemma go_del_routes : goes (BsdRoutes.del_routes sys ri) (fun v _ h v1 => deletes_routes ri h /\ v1 = v).
Proof.
  eapply goes_conseq; [apply from_free; [intro d; apply FreeProofs3.goes_del_routes; exact no_glob|apply OpenProofs.never_del_routes]|]. cbv beta. intros v a h v1 ((Hd & ->) & H). split; [|reflexivity].
  split; [exact Hd|]. intros Dw F. assert (F' : Forall FreeSpec.fine h).
  { apply free_fine; [|exact F]. eapply Forall_impl; [|exact Hd]. intros ev [X|X]; [left; exact X|right; right; left; exact X]. }
  destruct (H F' Dw) as (a4 & a6 & I4 & I6 & G). exists a4, a6, (v_eps v). split; [exact I4|]. split; [exact I6|]. intros T T' K f e. exact (G T T' K f e).
Qed.
End Bridge.

(** ** The interface's name *)
Lemma seconds_fun : forall d a t, seconds d a t -> time_of d a = t.
Proof.
  intros d a t [[N ->]|[E (F & ->)]]; unfold time_of.
  - apply Z.eqb_neq in N. rewrite N. reflexivity.
  - rewrite E. cbn [Z.eqb]. unfold number. apply PropQuickMtu.take_digits_fold, F.
Qed.
Lemma times : forall e f, (let diff := time_of 200 e - time_of 100 f in if (2 <=? diff) || (diff <=? -2) then other_time e f else same_time e f).
Proof.
  intros e f. cbv zeta. destruct (_ || _) eqn:E; intros t u Ht Hu; apply seconds_fun in Ht, Hu; subst; [apply orb_true_iff in E|apply orb_false_iff in E]; lia.
Qed.
Section Name.
Variables (B as_1 : command -> Prop) (sys : system) (ifc : list Z) (strict : bool).
Notation goes := (ShGoes.goes B as_1).
Lemma go_ask_as : forall ws, (if strict then ~ B (argv ws) else B (argv ws)) -> goes (ask_as sys strict ws) (fun v out h v1 => exists a, h = [(argv ws, a)] /\ out = captured (a_output a) /\ v1 = v).
Proof.
  intros ws H. unfold ask_as. destruct strict.
  - apply (go_call_val vars B as_1 sys _ _ a_status (fun a => captured (a_output a))); [exact H|auto].
  - eapply (go_ext B as_1 _ (ask sys ws)); [|apply go_ask, H]. intro s. unfold ask, thn. destruct (call sys (argv ws) s) as [a s1|? ?|? ?|?]; try reflexivity. destruct (a_status a =? 0); reflexivity.
Qed.
Hypothesis B_show : if strict then ~ B FreeSpec.show_interfaces else B FreeSpec.show_interfaces.
Hypothesis B_read : if strict then ~ B (read_name ifc) else B (read_name ifc).
Hypothesis B_test : forall x y, B (argv [str "test"; x; y]).
Hypothesis B_stat : forall p, B (made_at p).
Lemma go_lookup : goes (get_real_interface sys ifc strict) (fun v r h v1 => lookup ifc h r /\ v1 = v).
Proof.
  unfold get_real_interface.
  set (D1 := fun (v : vars) (r : option (list Z)) (h : history) (v1 : vars) => (forall a, lookup ifc ((FreeSpec.show_interfaces, a) :: h) r) /\ v1 = v).
  set (D2 := fun (file : bool) (v : vars) (r : option (list Z)) (h : history) (v1 : vars) => (forall a b, (a_status b =? 0) = file -> lookup ifc ((FreeSpec.show_interfaces, a) :: (has_name ifc, b) :: h) r) /\ v1 = v).
  set (D3 := fun (n : list Z) (v : vars) (r : option (list Z)) (h : history) (v1 : vars) => (forall a b c, a_status b = 0 -> captured (a_output c) = n ->
    lookup ifc ((FreeSpec.show_interfaces, a) :: (has_name ifc, b) :: (read_name ifc, c) :: h) r) /\ v1 = v).
  set (D4 := fun (n : list Z) (sock : bool) (v : vars) (r : option (list Z)) (h : history) (v1 : vars) => (forall a b c d, a_status b = 0 -> captured (a_output c) = n -> n <> [] -> (a_status d =? 0) = sock ->
    lookup ifc ((FreeSpec.show_interfaces, a) :: (has_name ifc, b) :: (read_name ifc, c) :: (FreeSpec.has_socket n, d) :: h) r) /\ v1 = v).
  eapply goes_conseq; [apply (goes_thn _ _ _ _ _ _ _ _ (fun _ => D1) (go_ask_as _ B_show)); intros _|].
  2:{ unfold D1. cbv beta. intros v r h v1 (x & h1 & v2 & h2 & -> & (a & -> & _ & ->) & H & ->). split; [apply H|reflexivity]. }
  eapply goes_conseq; [apply (goes_thn _ _ _ _ _ _ _ _ D2 (go_holds vars B as_1 sys _ (B_test (str "-f") (name_path ifc)))); intro file|].
  2:{ unfold D1, D2. cbv beta. intros v r h v1 (x & h1 & v2 & h2 & -> & (b & -> & -> & ->) & H & ->). split; [|reflexivity]. intro a. apply H. reflexivity. }
  unfold D2 at 1. destruct file; cbn [negb].
  2:{ eapply goes_conseq; [apply go_pure|]. cbv beta. intros v r h v1 (-> & -> & ->). split; [|reflexivity]. intros a b E. apply lk_no_file. apply Z.eqb_neq, E. }
  eapply goes_conseq; [apply (goes_thn _ _ _ _ _ _ _ _ D3 (go_ask_as _ B_read)); intro n|].
  2:{ unfold D3. cbv beta. intros v r h v1 (x & h1 & v2 & h2 & -> & (c & -> & -> & ->) & H & ->). split; [|reflexivity]. intros a b E. apply Z.eqb_eq in E. apply H; [exact E|reflexivity]. }
  unfold D3 at 1. destruct n as [|n0 n1].
  { eapply goes_conseq; [apply go_pure|]. cbv beta. intros v r h v1 (-> & -> & ->). split; [|reflexivity]. intros a b c E1 E2. apply lk_no_name; assumption. }
  assert (Ne : n0 :: n1 <> []) by discriminate. revert Ne. generalize (n0 :: n1). clear n0 n1. intros n Ne.
  eapply goes_conseq; [apply (goes_thn _ _ _ _ _ _ _ _ (D4 n) (go_holds vars B as_1 sys _ (B_test (str "-S") (FreeSpec.socket_path n)))); intro sock|].
  2:{ unfold D4. cbv beta. intros v r h v1 (x & h1 & v2 & h2 & -> & (d & -> & -> & ->) & H & ->). split; [|reflexivity]. intros a b c E1 E2. apply H; auto. }
  unfold D4 at 1. destruct sock; cbn [negb].
  2:{ eapply goes_conseq; [apply go_pure|]. cbv beta. intros v r h v1 (-> & -> & ->). split; [|reflexivity]. intros a b c d E1 E2 E3 E4. apply lk_no_socket; auto. apply Z.eqb_neq, E4. }
  eapply goes_conseq; [apply (goes_thn _ _ _ _ _ _ _ _ (fun e v r h v1 => (exists f, h = [(made_at (name_path ifc), f)] /\ r = (let diff := time_of 200 e - time_of 100 f in if (2 <=? diff) || (diff <=? -2) then None else Some n)) /\ v1 = v)
    (go_call vars B as_1 sys _ (B_stat (FreeSpec.socket_path n)))); intro e|].
  - eapply goes_conseq; [apply (goes_thn _ _ _ _ _ _ _ _ (fun f v r h v1 => r = (let diff := time_of 200 e - time_of 100 f in if (2 <=? diff) || (diff <=? -2) then None else Some n) /\ h = [] /\ v1 = v) (go_call vars B as_1 sys _ (B_stat (name_path ifc)))); intro f; apply go_pure|].
    cbv beta. intros v r h v1 (f & h1 & v2 & h2 & -> & (-> & ->) & -> & -> & ->). split; [|reflexivity]. exists f. auto.
  - cbv beta. intros v r h v1 (e & h1 & v2 & h2 & -> & (-> & ->) & (f & -> & ->) & ->). split; [|reflexivity]. intros a b c d E1 E2 E3 E4. apply Z.eqb_eq in E4.
    pose proof (times e f) as T. cbv zeta in T |- *. destruct (_ || _); [apply lk_stale|apply lk_found]; auto.
Qed.
End Name.
Lemma found_ne : forall ifc h ri, lookup ifc h (Some ri) -> ri <> [].
Proof. intros ifc h ri H. inversion H; subst; assumption. Qed.
Section Start.
Variables (as_1 : command -> Prop) (sys : system) (ifc us : list Z).
Lemma go_looks : ShGoes.goes bears as_1 (get_real_interface sys ifc false) (fun v r h v1 => lookup ifc h r /\ v1 = v).
Proof.
  apply go_lookup.
  - asks.
  - right. right. left. exists ifc. reflexivity.
  - intros x y. asks.
  - intro p. right. left. exists p. reflexivity.
Qed.
Lemma not_start : forall w ws, w <> str "test" -> w <> str "stat" -> ~ bears_at_start (argv (w :: ws)).
Proof. intros w ws N1 N2 [(x & y & E)|(p & E)]; apply (f_equal c_argv) in E; unfold made_at in E; cbn [c_argv argv] in E; congruence. Qed.
Lemma go_add_if : ShGoes.go bears_at_start as_1 (add_if sys ifc us) (fun v ri h v1 => creation us ifc h ri /\ v1 = v) (fun v h st v1 => no_creation us ifc h /\ st = 1 /\ v1 = v).
Proof.
  unfold add_if.
  assert (L : ShGoes.goes bears_at_start as_1 (get_real_interface sys ifc true) (fun v r h v1 => lookup ifc h r /\ v1 = v)).
  { apply go_lookup; [apply not_start; discriminate|apply not_start; discriminate| |]; [intros x y; left; exists x, y; reflexivity|intro p; right; exists p; reflexivity]. }
  assert (Ns : ~ bears_at_start (argv [us; !"utun"])) by (intros [(x & y & E)|(p & E)]; apply (f_equal c_argv) in E; unfold made_at in E; cbn [c_argv argv] in E; discriminate E).
  eapply go_conseq; [apply go_thn; [apply go_must; apply not_start; discriminate|intro u1; apply go_thn; [apply go_must, Ns|intro u2; apply (go_thn vars bears_at_start as_1 _ _ _ _ _ (@no_G vars)
    (fun r v ri h v1 => r = Some ri /\ h = [] /\ v1 = v) (fun r v h st v1 => r = None /\ h = [] /\ st = 1 /\ v1 = v) L)]]| |].
  - intros [ri|]; (eapply go_conseq; [first [apply go_quit|apply go_pure]| |]); cbv beta.
    + intros v a h v1 (-> & -> & ->). auto.
    + intros v h s1 v1 [].
    + intros v a h v1 [].
    + intros v h s1 v1 (-> & -> & ->). auto.
  - cbv beta. intros v ri h v1 (u1 & h1 & v2 & h2 & -> & (a & -> & ->) & u2 & h3 & v3 & h4 & -> & (b & -> & ->) & r & h5 & v5 & h6 & -> & (Lk & ->) & -> & -> & ->). split; [|reflexivity].
    exists a, b, h5. rewrite app_nil_r. split; [reflexivity|exact Lk].
  - cbv beta. intros v h st v1 [[]|(u1 & h1 & v2 & h2 & -> & (a & -> & ->) & [[]|(u2 & h3 & v3 & h4 & -> & (b & -> & ->) & [[]|(r & h5 & v5 & h6 & -> & (Lk & ->) & -> & -> & -> & ->)])])]. split; [|auto].
    exists a, b, h5. rewrite app_nil_r. split; [reflexivity|exact Lk].
Qed.
End Start.
