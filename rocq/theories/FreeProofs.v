(** Proofs about wg-quick on FreeBSD: running a piece of script that may fail anywhere. *)
From Coq Require Import String ZArith List Bool Lia.
From Verif Require Import Base Cstr CstrProofs Bash Quick QuickRun QuickSpec QuickRunSpec QuickReloadSpec QuickRouteSpec QuickUndoSpec QuickSave Sh BsdRoutes BsdRoutesSpec
  BsdRoutesProofs BsdRoutesProofs2 BsdRoutesProofs3 FreeQuick FreeSpec.
Import ListNotations.
Open Scope Z_scope.

Section Goes.
Variables (ifc : list Z) (o : options) (d : list Z).

(** What holds of the variables however a piece of script ends: the temporary directory is the same, and the flag tells whether DNS servers were
    registered. *)
Definition tracks (v : vars) (h : history) (v1 : vars) : Prop :=
  v_tmp v1 = v_tmp v /\ (v_dns v1 = true <-> v_dns v = true \/ registered ifc h) /\ (v_dns v1 = true -> v_dns v = true \/ o_dns o <> []).
(** [D]: what has run when the piece ends normally; if it does not, that is the beginning of such a history. *)
Definition goes {A} (m : act vars A) (D : vars -> A -> history -> vars -> Prop) : Prop :=
  (forall v, v_tmp v = d -> exists a h v1, D v a h v1) /\
  forall s, v_tmp (s_vars s) = d ->
    match m s with
    | Fin a s1 => exists h, s_hist s1 = s_hist s ++ h /\ Forall fine h /\ tracks (s_vars s) h (s_vars s1) /\ D (s_vars s) a h (s_vars s1)
    | Quit st s1 => exists h ev, s_hist s1 = s_hist s ++ h ++ [ev] /\ Forall fine h /\ tracks (s_vars s) (h ++ [ev]) (s_vars s1) /\ broke ev st /\
        exists a h' v', D (s_vars s) a (h ++ ev :: h') v'
    | Hit st s1 => exists h ev, s_hist s1 = s_hist s ++ h ++ [ev] /\ Forall fine h /\ tracks (s_vars s) (h ++ [ev]) (s_vars s1) /\ a_signal (snd ev) = Some st /\
        exists a h' v', D (s_vars s) a (h ++ ev :: h') v'
    | Spin s1 => exists h, s_hist s1 = s_hist s ++ h
    end.
Lemma registered_app : forall h1 h2, registered ifc (h1 ++ h2) <-> registered ifc h1 \/ registered ifc h2.
Proof.
  intros h1 h2. unfold registered. split.
  - intros (t & a & Hi & W). apply in_app_or in Hi as [Hi|Hi]; [left|right]; eauto.
  - intros [(t & a & Hi & W)|(t & a & Hi & W)]; exists t, a; (split; [apply in_or_app; auto|exact W]).
Qed.
Lemma tracks_app : forall v h1 v1 h2 v2, tracks v h1 v1 -> tracks v1 h2 v2 -> tracks v (h1 ++ h2) v2.
Proof. intros v h1 v1 h2 v2 (A & B & C) (A' & B' & C'). split; [congruence|]. rewrite registered_app. tauto. Qed.
Lemma not_registered_nil : ~ registered ifc [].
Proof. intros (t & a & [] & _). Qed.
Lemma tracks_nil : forall v, tracks v [] v.
Proof. intro v. split; [reflexivity|]. split; [|auto]. pose proof not_registered_nil. tauto. Qed.
Lemma tracks_one : forall v c a, (forall t, c <> register ifc t) -> tracks v [(c, a)] v.
Proof.
  intros v c a N. split; [reflexivity|]. split; [|auto]. assert (X : ~ registered ifc [(c, a)]); [|tauto]. intros (t & b & [E|[]] & _). apply (N t). congruence.
Qed.

Definition Dseq {A B} (D1 : vars -> A -> history -> vars -> Prop) (D2 : A -> vars -> B -> history -> vars -> Prop) : vars -> B -> history -> vars -> Prop :=
  fun v b h v2 => exists a h1 v1 h2, h = h1 ++ h2 /\ D1 v a h1 v1 /\ D2 a v1 b h2 v2.
Lemma goes_thn : forall A B (m : act vars A) (f : A -> act vars B) D1 D2, goes m D1 -> (forall a, goes (f a) (D2 a)) ->
  (forall v a h v1, v_tmp v = d -> D1 v a h v1 -> v_tmp v1 = d) -> goes (thn m f) (Dseq D1 D2).
Proof.
  intros A B m f D1 D2 [T1 H1] H2 Tm. split.
  - intros v Hv. destruct (T1 v Hv) as (a & h1 & v1 & E1). destruct (proj1 (H2 a) v1 (Tm _ _ _ _ Hv E1)) as (b & h2 & v2 & E2). exists b, (h1 ++ h2), v2, a, h1, v1, h2. auto.
  - intros s Hs. unfold thn. specialize (H1 s Hs). destruct (m s) as [a s1|st s1|st s1|s1].
    + destruct H1 as (h & E & F & K & E1). assert (Hs1 : v_tmp (s_vars s1) = d) by (destruct K; congruence). pose proof (proj2 (H2 a) s1 Hs1) as X.
      destruct (f a s1) as [b s2|st s2|st s2|s2].
      * destruct X as (h2 & E2 & F2 & K2 & D). exists (h ++ h2). rewrite E2, E, <- app_assoc. split; [reflexivity|]. split; [apply Forall_app; auto|].
        split; [eapply tracks_app; eassumption|]. exists a, h, (s_vars s1), h2. auto.
      * destruct X as (h2 & ev & E2 & F2 & K2 & Hb & b & h' & v' & D). exists (h ++ h2), ev. rewrite E2, E, <- !app_assoc. split; [reflexivity|]. split; [apply Forall_app; auto|].
        split; [eapply tracks_app; eassumption|]. split; [exact Hb|]. exists b, h', v', a, h, (s_vars s1), (h2 ++ ev :: h'). rewrite <- app_assoc. auto.
      * destruct X as (h2 & ev & E2 & F2 & K2 & Hb & b & h' & v' & D). exists (h ++ h2), ev. rewrite E2, E, <- !app_assoc. split; [reflexivity|]. split; [apply Forall_app; auto|].
        split; [eapply tracks_app; eassumption|]. split; [exact Hb|]. exists b, h', v', a, h, (s_vars s1), (h2 ++ ev :: h'). rewrite <- app_assoc. auto.
      * destruct X as (h2 & E2). exists (h ++ h2). rewrite E2, E, <- app_assoc. reflexivity.
    + destruct H1 as (h & ev & E & F & K & Hb & a & h' & v' & D). exists h, ev. split; [exact E|]. split; [exact F|]. split; [exact K|]. split; [exact Hb|].
      destruct (T1 (s_vars s) Hs) as (a0 & h0 & v0 & E0).
      assert (Hv : v_tmp v' = d) by (eapply Tm; eassumption).
      destruct (proj1 (H2 a) v' Hv) as (b & h2 & v2 & D'). exists b, (h' ++ h2), v2, a, (h ++ ev :: h'), v', h2. rewrite <- app_assoc. auto.
    + destruct H1 as (h & ev & E & F & K & Hb & a & h' & v' & D). exists h, ev. split; [exact E|]. split; [exact F|]. split; [exact K|]. split; [exact Hb|].
      assert (Hv : v_tmp v' = d) by (eapply Tm; eassumption).
      destruct (proj1 (H2 a) v' Hv) as (b & h2 & v2 & D'). exists b, (h' ++ h2), v2, a, (h ++ ev :: h'), v', h2. rewrite <- app_assoc. auto.
    + exact H1.
Qed.
Lemma goes_conseq : forall A (m : act vars A) (D D' : vars -> A -> history -> vars -> Prop), goes m D -> (forall v a h v1, v_tmp v = d -> D v a h v1 -> D' v a h v1) -> goes m D'.
Proof.
  intros A m D D' [T H] I. split.
  - intros v Hv. destruct (T v Hv) as (a & h & v1 & E). exists a, h, v1. auto.
  - intros s Hs. specialize (H s Hs). destruct (m s) as [a s1|st s1|st s1|s1].
    + destruct H as (h & E & F & K & X). exists h. auto 6.
    + destruct H as (h & ev & E & F & K & Hb & a & h' & v' & X). exists h, ev. split; [exact E|]. split; [exact F|]. split; [exact K|]. split; [exact Hb|]. exists a, h', v'. auto.
    + destruct H as (h & ev & E & F & K & Hb & a & h' & v' & X). exists h, ev. split; [exact E|]. split; [exact F|]. split; [exact K|]. split; [exact Hb|]. exists a, h', v'. auto.
    + exact H.
Qed.
Lemma goes_pure : forall A (a : A), goes (pure a) (fun v b h v1 => b = a /\ h = [] /\ v1 = v).
Proof.
  intros A a. split; [intros v _; exists a, [], v; auto|]. intros s _. cbn. exists []. rewrite app_nil_r. split; [reflexivity|]. split; [constructor|]. split; [apply tracks_nil|auto].
Qed.
Lemma goes_put : forall g : vars -> vars, (forall v, v_tmp (g v) = v_tmp v /\ v_dns (g v) = v_dns v) -> goes (put g) (fun v _ h v1 => h = [] /\ v1 = g v).
Proof.
  intros g G. split; [intros v _; exists tt, [], (g v); auto|]. intros s _. cbn. exists []. rewrite app_nil_r. split; [reflexivity|]. split; [constructor|].
  split; [|auto]. destruct (G (s_vars s)) as [G1 G2]. split; [exact G1|]. rewrite G2. split; [|auto]. pose proof not_registered_nil. tauto.
Qed.
Lemma goes_get : forall A (f : vars -> act vars A) (D : vars -> vars -> A -> history -> vars -> Prop), (forall v, goes (f v) (D v)) -> goes (get f) (fun v a h v1 => D v v a h v1).
Proof.
  intros A f D H. split; [intros v Hv; exact (proj1 (H v) v Hv)|]. intros s Hs. exact (proj2 (H (s_vars s)) s Hs).
Qed.

Variable sys : system.
Lemma goes_ask_call : forall c, excused c -> (forall t, c <> register ifc t) -> goes (call sys c) (fun v a h v1 => h = [(c, a)] /\ v1 = v).
Proof.
  intros c X N. split; [intros v _; exists (mk_answer 0 [] None), [(c, mk_answer 0 [] None)], v; auto|]. intros s _. unfold call. destruct (a_signal _) as [st|] eqn:S.
  - exists [], (c, sys (s_hist s) c). cbn [s_hist s_vars app]. split; [reflexivity|]. split; [constructor|]. split; [apply tracks_one, N|]. split; [exact S|].
    exists (sys (s_hist s) c), [], (s_vars s). auto.
  - exists [(c, sys (s_hist s) c)]. cbn [s_hist s_vars]. split; [reflexivity|]. split; [constructor; [split; [exact S|right; exact X]|constructor]|]. split; [apply tracks_one, N|auto].
Qed.
Lemma no_register : forall ws t, begins (words_of ["resolvconf"; "-a"]%string) ws = false -> argv ws <> register ifc t.
Proof. intros ws t H E. apply (f_equal c_argv) in E. cbn [argv register c_argv] in E. rewrite E in H. discriminate H. Qed.
Lemma goes_ask : forall ws, excused (argv ws) -> begins (words_of ["resolvconf"; "-a"]%string) ws = false ->
  goes (ask sys ws) (fun v out h v1 => exists a, h = [(argv ws, a)] /\ out = captured (a_output a) /\ v1 = v).
Proof.
  intros ws X N. unfold ask. eapply goes_conseq; [apply goes_thn; [apply goes_ask_call; [exact X|intro t; apply no_register, N]|intro a; apply goes_pure|]|].
  - intros v a h v1 Hv (_ & ->). exact Hv.
  - cbv beta. intros v a h v1 _ (r & h1 & v2 & h2 & -> & (-> & ->) & -> & -> & ->). exists r. auto.
Qed.
Lemma goes_feed : forall ws, excused (argv ws) -> begins (words_of ["resolvconf"; "-a"]%string) ws = false ->
  goes (feed sys ws) (fun v out h v1 => exists a, h = [(argv ws, a)] /\ out = a_output a /\ v1 = v).
Proof.
  intros ws X N. unfold feed. eapply goes_conseq; [apply goes_thn; [apply goes_ask_call; [exact X|intro t; apply no_register, N]|intro a; apply goes_pure|]|].
  - intros v a h v1 Hv (_ & ->). exact Hv.
  - cbv beta. intros v a h v1 _ (r & h1 & v2 & h2 & -> & (-> & ->) & -> & -> & ->). exists r. auto.
Qed.
Lemma goes_holds : forall ws, excused (argv ws) -> begins (words_of ["resolvconf"; "-a"]%string) ws = false ->
  goes (holds sys ws) (fun v b h v1 => exists a, h = [(argv ws, a)] /\ b = (a_status a =? 0) /\ v1 = v).
Proof.
  intros ws X N. unfold holds. eapply goes_conseq; [apply goes_thn; [apply goes_ask_call; [exact X|intro t; apply no_register, N]|intro a; apply goes_pure|]|].
  - intros v a h v1 Hv (_ & ->). exact Hv.
  - cbv beta. intros v a h v1 _ (r & h1 & v2 & h2 & -> & (-> & ->) & -> & -> & ->). exists r. auto.
Qed.
Lemma goes_try : forall ws, excused (argv ws) -> begins (words_of ["resolvconf"; "-a"]%string) ws = false ->
  goes (try sys ws) (fun v _ h v1 => exists a, h = [(argv ws, a)] /\ v1 = v).
Proof.
  intros ws X N. unfold try. eapply goes_conseq; [apply goes_thn; [apply goes_ask_call; [exact X|intro t; apply no_register, N]|intro a; apply goes_pure|]|].
  - intros v a h v1 Hv (_ & ->). exact Hv.
  - cbv beta. intros v a h v1 _ (r & h1 & v2 & h2 & -> & (-> & ->) & -> & -> & ->). exists r. auto.
Qed.
(** A command that must succeed; [1] is reported for some. *)
Lemma goes_call_or : forall c (k : answer -> Z), ~ excused c -> (forall t, c <> register ifc t) -> (forall a, a_status a <> 0 -> k a = a_status a \/ (reported_1 c /\ k a = 1)) ->
  goes (a <~ call sys c ;; if a_status a =? 0 then pure tt else quit (k a)) (fun v _ h v1 => exists a, h = [(c, a)] /\ v1 = v).
Proof.
  intros c k X N K. split; [intros v _; exists tt, [(c, mk_answer 0 [] None)], v, (mk_answer 0 [] None); auto|]. intros s _. unfold thn, call. set (a := sys (s_hist s) c). destruct (a_signal a) as [st|] eqn:S.
  - exists [], (c, a). cbn [s_hist s_vars app]. split; [reflexivity|]. split; [constructor|]. split; [apply tracks_one, N|]. split; [exact S|].
    exists tt, [], (s_vars s), a. auto.
  - destruct (Z.eqb_spec (a_status a) 0) as [E|E]; unfold pure, quit; cbn [s_hist s_vars].
    + exists [(c, a)]. split; [reflexivity|]. split; [constructor; [split; [exact S|left; exact E]|constructor]|]. split; [apply tracks_one, N|exists a; auto].
    + exists [], (c, a). split; [reflexivity|]. split; [constructor|]. split; [apply tracks_one, N|]. split; [|exists tt, [], (s_vars s), a; auto].
      split; [exact S|]. left. split; [exact X|]. split; [exact E|]. apply K, E.
Qed.
Lemma goes_must_in : forall ws i, ~ excused (mk_cmd ws i) -> begins (words_of ["resolvconf"; "-a"]%string) ws = false ->
  goes (must_in sys ws i) (fun v _ h v1 => exists a, h = [(mk_cmd ws i, a)] /\ v1 = v).
Proof.
  intros ws i X N. apply goes_call_or; [exact X| |auto]. intros t E. apply (f_equal c_argv) in E. cbn [register c_argv] in E. rewrite E in N. discriminate N.
Qed.
Lemma goes_must : forall ws, ~ excused (argv ws) -> begins (words_of ["resolvconf"; "-a"]%string) ws = false ->
  goes (must sys ws) (fun v _ h v1 => exists a, h = [(argv ws, a)] /\ v1 = v).
Proof. intros ws. apply goes_must_in. Qed.
(** Loops. *)
Inductive Deach {A} (D : A -> history -> Prop) : list A -> history -> Prop :=
| de_nil : Deach D [] []
| de_cons : forall x l h h', D x h -> Deach D l h' -> Deach D (x :: l) (h ++ h').
Lemma goes_each : forall A (f : A -> act vars unit) (D : A -> history -> Prop) l, (forall x, In x l -> goes (f x) (fun v _ h v1 => D x h /\ v1 = v)) ->
  goes (each f l) (fun v _ h v1 => Deach D l h /\ v1 = v).
Proof.
  intros A f D l. induction l as [|x l IH]; intro H; cbn [each].
  - eapply goes_conseq; [apply goes_pure|]. cbv beta. intros v a h v1 _ (_ & -> & ->). split; [constructor|reflexivity].
  - eapply goes_conseq; [apply goes_thn; [apply H; left; reflexivity|intro; apply IH; intros y Hy; apply H; right; exact Hy|]|].
    + cbv beta. intros v a h v1 Hv (_ & ->). exact Hv.
    + cbv beta. intros v a h v1 _ (r & h1 & v2 & h2 & -> & (X & ->) & Y & ->). split; [constructor; assumption|reflexivity].
Qed.
End Goes.

(** Which commands are excused. *)
Ltac asks_one l := exists (words_of l); split; [vm_compute; tauto|vm_compute; reflexivity].
Ltac asking_word := left; first [asks_one ["netstat"]%string | asks_one ["route"; "-n"; "get"]%string | asks_one ["wg"; "show"]%string | asks_one ["test"]%string |
  asks_one ["sort"]%string | asks_one ["resolvconf"; "-l"]%string].
Ltac asks := left; asking_word.
Lemma not_excused : forall w ws i, ~ In w (words_of ["netstat"; "route"; "wg"; "test"; "sort"; "resolvconf"; "ifconfig"; "umask"; "monitor_daemon"]%string) -> ~ excused (mk_cmd (w :: ws) i).
Proof.
  intros w ws i N [[(p & Hp & Hb)|[(x & E)|E]]|[(f & e & t & E)|[(f & e & E)|E]]].
  - apply N. cbn [c_argv] in Hb. unfold prefixes in Hp. cbn [map words_of In] in Hp.
    repeat (destruct Hp as [<-|Hp]; [cbn [begins] in Hb; apply andb_true_iff in Hb as [Hb _]; apply beq_eq in Hb; subst w; vm_compute; tauto|]). destruct Hp.
  - cbn [c_argv] in E. apply N. assert (X : w = str "ifconfig") by congruence. rewrite X. vm_compute; tauto.
  - cbn [c_argv] in E. apply N. assert (X : w = str "umask") by congruence. rewrite X. vm_compute; tauto.
  - apply N. apply (f_equal c_argv) in E. unfold adds in E. cbn [argv c_argv app] in E. assert (X : w = str "route") by congruence. rewrite X. vm_compute; tauto.
  - apply N. apply (f_equal c_argv) in E. unfold deletes in E. cbn [argv c_argv app] in E. assert (X : w = str "route") by congruence. rewrite X. vm_compute; tauto.
  - apply N. apply (f_equal c_argv) in E. unfold start_monitor in E. cbn [argv c_argv] in E. assert (X : w = str "monitor_daemon") by congruence. rewrite X. vm_compute; tauto.
Qed.
Lemma not_excused_ifconfig : forall x y ws, ~ excused (argv (str "ifconfig" :: x :: y :: ws)).
Proof.
  intros x y ws [[(p & Hp & Hb)|[(z & E)|E]]|[(f & e & t & E)|[(f & e & E)|E]]].
  - unfold prefixes in Hp. cbn [map words_of In] in Hp. repeat (destruct Hp as [<-|Hp]; [discriminate Hb|]). destruct Hp.
  - discriminate E.
  - discriminate E.
  - apply (f_equal c_argv) in E. discriminate E.
  - apply (f_equal c_argv) in E. discriminate E.
  - apply (f_equal c_argv) in E. discriminate E.
Qed.
Lemma not_excused_route : forall f x r z w, x <> str "-gateway" -> x <> str "127.0.0.1" -> x <> str "::1" -> ~ excused (argv ([str "route"; str "-q"; str "-n"; str "add"; f; r; x; z] ++ w)).
Proof.
  intros f x r z w N1 N2 N3 [[(p & Hp & Hb)|[(y & E)|E]]|[(g & e & t & E)|[(g & e & E)|E]]].
  - unfold prefixes in Hp. cbn [map words_of In] in Hp. repeat (destruct Hp as [<-|Hp]; [discriminate Hb|]). destruct Hp.
  - discriminate E.
  - discriminate E.
  - apply (f_equal c_argv) in E. unfold adds in E. cbn [argv c_argv app] in E. destruct t as [gw|], g; cbn [app] in E; congruence.
  - apply (f_equal c_argv) in E. unfold deletes in E. cbn [argv c_argv app] in E. discriminate E.
  - apply (f_equal c_argv) in E. discriminate E.
Qed.
Lemma not_excused_fib : forall f t r ifc, ~ excused (argv [str "route"; str "-q"; str "-n"; str "add"; f; str "-fib"; t; r; str "-interface"; ifc]).
Proof.
  intros f t r ifc [[(p & Hp & Hb)|[(y & E)|E]]|[(g & e & t' & E)|[(g & e & E)|E]]].
  - unfold prefixes in Hp. cbn [map words_of In] in Hp. repeat (destruct Hp as [<-|Hp]; [discriminate Hb|]). destruct Hp.
  - discriminate E.
  - discriminate E.
  - apply (f_equal c_argv) in E. unfold adds in E. cbn [argv c_argv app] in E. destruct t' as [gw|], g; discriminate E.
  - apply (f_equal c_argv) in E. discriminate E.
  - apply (f_equal c_argv) in E. discriminate E.
Qed.
Lemma not_excused_wg : forall w ws i, w <> str "show" -> ~ excused (mk_cmd (str "wg" :: w :: ws) i).
Proof.
  intros w ws i N [[(p & Hp & Hb)|[(y & E)|E]]|[(g & e & t & E)|[(g & e & E)|E]]].
  - unfold prefixes in Hp. cbn [map words_of In] in Hp. destruct Hp as [<-|Hp]; [discriminate Hb|]. destruct Hp as [<-|Hp]; [discriminate Hb|].
    destruct Hp as [<-|Hp]; [|repeat (destruct Hp as [<-|Hp]; [discriminate Hb|]); destruct Hp].
    cbn [begins c_argv] in Hb. apply andb_true_iff in Hb as [_ Hb]. apply andb_true_iff in Hb as [Hb _]. apply beq_eq in Hb. congruence.
  - discriminate E.
  - discriminate E.
  - apply (f_equal c_argv) in E. discriminate E.
  - apply (f_equal c_argv) in E. discriminate E.
  - apply (f_equal c_argv) in E. discriminate E.
Qed.
Lemma not_excused_resolvconf : forall w ws i, w <> str "-l" -> ~ excused (mk_cmd (str "resolvconf" :: w :: ws) i).
Proof.
  intros w ws i N [[(p & Hp & Hb)|[(y & E)|E]]|[(g & e & t & E)|[(g & e & E)|E]]].
  - unfold prefixes in Hp. cbn [map words_of In] in Hp. do 5 (destruct Hp as [<-|Hp]; [discriminate Hb|]). destruct Hp as [<-|[]].
    cbn [begins c_argv] in Hb. apply andb_true_iff in Hb as [_ Hb]. apply andb_true_iff in Hb as [Hb _]. apply beq_eq in Hb. congruence.
  - discriminate E.
  - discriminate E.
  - apply (f_equal c_argv) in E. discriminate E.
  - apply (f_equal c_argv) in E. discriminate E.
  - apply (f_equal c_argv) in E. discriminate E.
Qed.
Lemma not_excused_umask : forall x ws, ~ excused (argv (str "umask" :: x :: ws)).
Proof.
  intros x ws [[(p & Hp & Hb)|[(y & E)|E]]|[(g & e & t & E)|[(g & e & E)|E]]].
  - unfold prefixes in Hp. cbn [map words_of In] in Hp. repeat (destruct Hp as [<-|Hp]; [discriminate Hb|]). destruct Hp.
  - discriminate E.
  - discriminate E.
  - apply (f_equal c_argv) in E. discriminate E.
  - apply (f_equal c_argv) in E. discriminate E.
  - apply (f_equal c_argv) in E. discriminate E.
Qed.
