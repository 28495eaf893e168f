(** Proofs about wg-quick on macOS: bringing the interface up, and taking that back. *)
From Coq Require Import String ZArith List Bool Lia.
From Verif Require Import Base Cstr CstrProofs Bash Quick QuickRun QuickSpec QuickRunSpec QuickReloadSpec QuickRouteSpec QuickMain Sh ShGoes BsdRoutes BsdRoutesSpec
  BsdRoutesProofs BsdRoutesProofs2 BsdRoutesProofs3 PropQuickReload FreeQuick DarQuick DarSpec DarProofs.
From Verif Require FreeSpec FreeProofs FreeProofs2 FreeProofs3 OpenSpec OpenProofs DarDns DarDnsSpec DarDnsProofs2 DarDnsProofs4 QuickUpProofs QuickMtuSpec PropQuickMtu.
Import ListNotations.
Open Scope Z_scope.

Section Pieces.
Variables (as_1 : command -> Prop) (sys : system) (glob : list Z -> list (list Z)) (order : history -> list (list Z) -> list (list Z)) (ifc : list Z) (o : options) (ri : list Z).
Notation goes := (ShGoes.goes bears as_1).
Notation go := (ShGoes.go bears as_1).
Lemma goes_go : forall A (m : act vars A) D G, goes m D -> go m D G.
Proof. intros A m D G H. eapply go_conseq; [exact H|auto|intros v h st v1 []]. Qed.
Lemma go_hooks : forall l, goes (execute_hooks sys ifc ri l) (fun v _ h v1 => OpenSpec.hooks ri ifc l h /\ v1 = v).
Proof.
  intro l. unfold execute_hooks. eapply goes_conseq; [apply (goes_each _ _ _ _ _ (fun x v h v1 => (exists a, h = [(run_hook (hook_text ifc ri x), a)]) /\ v1 = v))|].
  - intros x _. eapply goes_conseq; [apply go_must; nb|]. cbv beta. intros v a h v1 (r & -> & ->). split; [exists r; reflexivity|reflexivity].
  - cbv beta. intros v _ h v1 H. apply OpenProofs.Deach_same in H as [-> H]. split; [|reflexivity]. unfold OpenSpec.hooks. clear v. induction H as [|x l h h' (a & ->) H (ts & F & E)].
    + exists []. split; [constructor|reflexivity].
    + exists (hook_text ifc ri x :: ts). split; [constructor; [|exact F]|cbn [map app fst]; rewrite E; reflexivity].
      unfold hook_text. exists (replace_all !"%i" ri x). split; apply QuickUpProofs.replace_all_substituted; discriminate.
Qed.
Lemma bare_before : forall a, bare a (before 47 a).
Proof.
  intro a. unfold before, bare. destruct (split_first 47 a) as [[x y]|] eqn:E.
  - apply split_first_spec in E as [E N]. left. exists y. auto.
  - apply split_first_none in E. right. auto.
Qed.
Lemma go_addresses : forall l, goes (each (add_addr sys ri) l) (fun v _ h v1 => Forall2 (alias ri) l (map fst h) /\ v1 = v).
Proof.
  intro l. eapply goes_conseq; [apply (goes_each _ _ _ _ _ (fun x v h v1 => (exists c a, h = [(c, a)] /\ alias ri x c) /\ v1 = v))|].
  - intros x _. unfold add_addr. destruct (has_char 58 x) eqn:E.
    + eapply goes_conseq; [apply go_must; apply not_bears_ifconfig|]. cbv beta. intros v a h v1 (r & -> & ->). split; [|reflexivity]. eexists _, r. split; [reflexivity|]. left. split; [apply has_colon, E|reflexivity].
    + eapply goes_conseq; [apply go_must; apply not_bears_ifconfig|]. cbv beta. intros v a h v1 (r & -> & ->). split; [|reflexivity]. eexists _, r. split; [reflexivity|]. right.
      split; [cbn [fits]; rewrite <- has_colon; congruence|]. exists (before 47 x). split; [apply bare_before|reflexivity].
  - cbv beta. intros v _ h v1 H. apply OpenProofs.Deach_same in H as [-> H]. split; [|reflexivity]. clear v. induction H as [|x l h h' (c & a & -> & Ha) H IH]; [constructor|]. cbn [map app fst]. constructor; [exact Ha|exact IH].
Qed.
(** ** MTU *)
Lemma default_line_spec : forall l, ~ In 10 l -> if beq (field 0 l) !"default" then default_line l (field 5 l) else forall e, ~ default_line l e.
Proof.
  intros l N. unfold field. destruct (beq _ _) eqn:E.
  - apply beq_eq in E. exists (words l). split; [apply words_columns, N|]. split; [exact E|reflexivity].
  - intros e (ws & C & H & _). apply (columns_words l ws N) in C. rewrite C in E. rewrite H in E. rewrite beq_refl in E. discriminate E.
Qed.
Lemma default_device_spec : forall out, default_goes_by out (default_device (read_complete out)).
Proof.
  intro out. exists (read_complete out). split; [apply read_complete_spec|]. pose proof (read_no_newline out) as F. induction F as [|l ls N F IH]; cbn [default_device]; [right; split; [reflexivity|intros x []]|].
  pose proof (default_line_spec l N) as D. destruct (beq (field 0 l) !"default").
  - left. exists [], l, ls. split; [reflexivity|]. split; [exact D|intros x []].
  - destruct IH as [(l1 & x & l2 & -> & Dx & H)|(E & H)].
    + left. exists (l :: l1), x, l2. split; [reflexivity|]. split; [exact Dx|]. intros y [<-|Hy]; [exact D|apply H, Hy].
    + right. split; [exact E|]. intros y [<-|Hy]; [exact D|apply H, Hy].
Qed.
Lemma bears_there : forall x, bears (argv [!"ifconfig"; x]).
Proof. intro x. left. left. right. left. exists x. reflexivity. Qed.
Lemma go_mtu : goes (set_mtu sys o ri) (fun v _ h v1 => mtu_steps ri o h /\ v1 = v).
Proof.
  unfold set_mtu, mtu_steps. destruct (o_mtu o) as [|x l].
  2:{ eapply goes_conseq; [apply go_must; apply not_bears_ifconfig|]. cbv beta. intros v a h v1 (r & -> & ->). split; [|reflexivity]. left. split; [discriminate|reflexivity]. }
  eapply goes_conseq; [eapply (goes_thn _ _ _ _ _ _ _ _ (fun out v (_ : unit) h v1 => (exists q m k own c g, h = q ++ (FreeSpec.is_there ri, own) :: g /\
    ((default_device (read_complete out) = [] /\ q = [] /\ m = 0) \/ (default_device (read_complete out) <> [] /\ exists b, q = [(FreeSpec.is_there (default_device (read_complete out)), b)] /\ QuickMtuSpec.mtu_or_0 (captured (a_output b)) m)) /\
    ((0 < m /\ k = m) \/ (m = 0 /\ k = 1500)) /\
    (QuickMtuSpec.names_mtu (captured (a_output own)) c \/ ((forall n, ~ QuickMtuSpec.names_mtu (captured (a_output own)) n) /\ c = -1)) /\
    (k - 80 = c -> g = []) /\ (k - 80 <> c -> map fst g = [FreeSpec.give_mtu ri (QuickMtuSpec.signed (k - 80))])) /\ v1 = v)); [apply go_feed; asks|intro out]|].
  - generalize (default_device (read_complete out)). intro dev.
    eapply goes_conseq; [apply (goes_thn _ _ _ _ _ _ _ (fun v m h v1 => (((dev = [] /\ h = [] /\ m = 0) \/ (dev <> [] /\ exists b, h = [(FreeSpec.is_there dev, b)] /\ QuickMtuSpec.mtu_or_0 (captured (a_output b)) m)) /\ 0 <= m) /\ v1 = v)
      (fun m v (_ : unit) h v1 => (exists own c g, h = (FreeSpec.is_there ri, own) :: g /\ (QuickMtuSpec.names_mtu (captured (a_output own)) c \/ ((forall n, ~ QuickMtuSpec.names_mtu (captured (a_output own)) n) /\ c = -1)) /\
        let k := if 0 <? m then m else 1500 in (k - 80 = c -> g = []) /\ (k - 80 <> c -> map fst g = [FreeSpec.give_mtu ri (QuickMtuSpec.signed (k - 80))])) /\ v1 = v))|].
    + destruct dev as [|d0 d1]; [eapply goes_conseq; [apply go_pure|]; cbv beta; intros v m h v1 (-> & -> & ->); split; [split; [left; auto|lia]|reflexivity]|].
      eapply goes_conseq; [apply goes_thn; [apply go_ask, bears_there|intro link; apply go_pure]|]. cbv beta. intros v m h v1 (link & h1 & v2 & h2 & -> & (b & -> & -> & ->) & -> & -> & ->).
      split; [|reflexivity]. pose proof (PropQuickMtu.mtu_field_spec (captured (a_output b))) as Sp. unfold QuickMtuSpec.mtu_or_0. destruct (mtu_field _) as [n|].
      * destruct Sp as [Sp P]. split; [|exact P]. right. split; [discriminate|]. exists b. auto.
      * split; [|lia]. right. split; [discriminate|]. exists b. auto.
    + intro m. eapply goes_conseq; [eapply (goes_thn _ _ _ _ _ _ _ _ (fun own v (_ : unit) h v1 => (let k := if 0 <? m then m else 1500 in let c := match mtu_field own with Some c => c | None => -1 end in
        (k - 80 = c -> h = []) /\ (k - 80 <> c -> map fst h = [FreeSpec.give_mtu ri (QuickMtuSpec.signed (k - 80))])) /\ v1 = v)); [apply go_ask, bears_there|intro own]|].
      * cbv zeta. destruct (Z.eqb_spec ((if 0 <? m then m else 1500) - 80) (match mtu_field own with Some c => c | None => -1 end)) as [E|E].
        -- eapply goes_conseq; [apply go_pure|]. cbv beta. intros v u h v1 (_ & -> & ->). split; [split; [reflexivity|intro K; destruct (K E)]|reflexivity].
        -- eapply goes_conseq; [apply go_must; apply not_bears_ifconfig|]. cbv beta. intros v u h v1 (b & -> & ->). split; [split; [intro K; destruct (E K)|]|reflexivity].
           intros _. cbn [map fst]. unfold FreeSpec.give_mtu. rewrite FreeProofs2.less_80_signed; [reflexivity|exact no_glob|exact []].
      * cbv beta zeta. intros v u h v1 (own & h1 & v2 & h2 & -> & (b & -> & -> & ->) & X & ->). split; [|reflexivity]. exists b, (match mtu_field (captured (a_output b)) with Some c => c | None => -1 end), h2.
        split; [reflexivity|]. split; [|exact X]. pose proof (PropQuickMtu.mtu_field_spec (captured (a_output b))) as Sp. destruct (mtu_field _); [left; apply Sp|right; auto].
    + cbv beta zeta. intros v u h v1 (m & h1 & v2 & h2 & -> & ((Hm & P) & ->) & (own & c & g & -> & Hc & Hg) & ->). split; [|reflexivity]. exists h1, m, (if 0 <? m then m else 1500), own, c, g.
      split; [reflexivity|]. split; [exact Hm|]. split; [destruct (Z.ltb_spec 0 m); [left; auto|right; split; [lia|reflexivity]]|]. auto.
  - cbv beta. intros v u h v1 (out & h1 & v2 & h2 & -> & (a & -> & -> & ->) & (q & m & k & own & c & g & -> & X) & ->). split; [|reflexivity]. right. split; [reflexivity|].
    exists a, (default_device (read_complete (a_output a))), q, m, k, own, c, g. split; [reflexivity|]. split; [apply default_device_spec|exact X].
Qed.
(** ** Routes *)
Definition refused (r : list Z) (v : vars) (h : history) (st : Z) (v1 : vars) : Prop := no_such_table o /\ h = [] /\ st = 1 /\ v1 = v.
Lemma go_route : forall r, go (add_route sys o ri r) (fun v _ h v1 => (route_steps ri o r h /\ ~ no_such_table o) /\ FreeProofs2.flags o [r] v v1) (refused r).
Proof.
  intro r. unfold add_route. destruct (FreeProofs2.fits_inet r) as (f & F & _ & Ef).
  destruct (beq (o_table o) !"off") eqn:Eo.
  { apply beq_eq in Eo. eapply go_conseq; [apply go_pure| |intros v h st v1 []]. cbv beta. intros v a h v1 (_ & -> & ->). split; [split; [apply ro_off, Eo|intros [N _]; exact (N Eo)]|]. apply FreeProofs2.flags_same; [exact no_glob|exact []|].
    intros g ([A|A] & _); rewrite A in Eo; discriminate. }
  assert (No : o_table o <> str "off") by (intro K; rewrite K in Eo; discriminate Eo).
  destruct (ends_with !"/0" r && auto_table o) eqn:Eb.
  - apply andb_true_iff in Eb as [Ed Ea]. apply FreeProofs2.automatic_iff in Ea. apply FreeProofs2.default_iff in Ed. apply goes_go.
    assert (Nt : ~ no_such_table o) by (intros (_ & N & _); exact (N Ea)).
    destruct (has_char 58 r) eqn:Ec.
    + assert (F6r : fits F6 r) by (apply has_colon, Ec).
      eapply goes_conseq; [apply goes_thn; [apply go_put|intro u1; apply goes_thn; [apply go_must; apply not_bears_route|intro u2; apply go_must; apply not_bears_route]]|].
      cbv beta. intros v a h v1 (x1 & h1 & v2 & h2 & -> & (-> & ->) & x2 & h3 & v3 & h4 & -> & (b & -> & ->) & b2 & -> & ->). split.
      { split; [|exact Nt]. apply (ro_default ri o r F6 b b2 (str "::/1") (str "8000::/1")); [split; assumption|exact F6r|reflexivity]. }
      assert (Y : FreeSpec.routes_all_of o F6 [r]) by (split; [exact Ea|]; exists r; split; [left; reflexivity|auto]).
      assert (N : ~ FreeSpec.routes_all_of o F4 [r]). { intros (_ & x & [<-|[]] & _ & K). exact (K F6r). }
      unfold FreeProofs2.flags, with_auto6. cbn [v_dns v_auto4 v_auto6 v_gw4 v_gw6 v_eps v_tmp]. repeat split; try tauto.
    + assert (F4r : fits F4 r) by (cbn [fits]; rewrite <- has_colon; congruence).
      eapply goes_conseq; [apply goes_thn; [apply go_put|intro u1; apply goes_thn; [apply go_must; apply not_bears_route|intro u2; apply go_must; apply not_bears_route]]|].
      cbv beta. intros v a h v1 (x1 & h1 & v2 & h2 & -> & (-> & ->) & x2 & h3 & v3 & h4 & -> & (b & -> & ->) & b2 & -> & ->). split.
      { split; [|exact Nt]. apply (ro_default ri o r F4 b b2 (str "0.0.0.0/1") (str "128.0.0.0/1")); [split; assumption|exact F4r|reflexivity]. }
      assert (Y : FreeSpec.routes_all_of o F4 [r]) by (split; [exact Ea|]; exists r; split; [left; reflexivity|auto]).
      assert (N : ~ FreeSpec.routes_all_of o F6 [r]). { intros (_ & x & [<-|[]] & _ & K). exact (F4r K). }
      unfold FreeProofs2.flags, with_auto4. cbn [v_dns v_auto4 v_auto6 v_gw4 v_gw6 v_eps v_tmp]. repeat split; try tauto.
  - assert (Nb : ~ by_halves o r). { intros [A D]. apply FreeProofs2.automatic_iff in A. apply FreeProofs2.default_iff in D. rewrite A, D in Eb. discriminate Eb. }
    destruct (beq (o_table o) !"main" || auto_table o) eqn:Et; cbn [negb].
    + assert (T : FreeSpec.automatic o \/ o_table o = str "main") by (apply orb_true_iff in Et as [Et|Et]; [right; apply beq_eq, Et|left; apply FreeProofs2.automatic_iff, Et]).
      assert (Nt : ~ no_such_table o) by (intros (_ & N1 & N2); destruct T as [T|T]; auto). apply goes_go.
      assert (Fl : forall v, FreeProofs2.flags o [r] v v) by (intro v; apply FreeProofs2.flags_same; [exact no_glob|exact []|]; intros g (A & D & _); exact (Nb (conj A D))). rewrite Ef.
      set (D2 := fun (out : list Z) (v : vars) (_ : unit) (h : history) (v1 : vars) => (somewhere (named_pattern ri) out = true /\ h = [] \/ somewhere (named_pattern ri) out = false /\ exists b, h = [(FreeSpec.via_interface f r ri, b)]) /\ v1 = v).
      eapply goes_conseq; [eapply (goes_thn _ _ _ _ _ _ _ _ D2); [apply go_ask; asks|]|].
      * intro out. unfold D2. destruct (somewhere (named_pattern ri) out).
        -- eapply goes_conseq; [apply go_pure|]. cbv beta. intros v a h v1 (_ & -> & ->). auto.
        -- eapply goes_conseq; [apply go_must; apply not_bears_route|]. cbv beta. intros v a h v1 (b & -> & ->). split; [right; split; [reflexivity|exists b; reflexivity]|reflexivity].
      * cbv beta. unfold D2. intros v a h v1 (out & h1 & v2 & h2 & -> & (b & -> & -> & ->) & [(Em & ->)|(Em & c & ->)] & ->); (split; [split; [|exact Nt]|apply Fl]).
        -- apply (ro_there ri o r f); [exact T|exact Nb|exact F|]. intro lit. apply FreeProofs2.named_literal; assumption.
        -- apply (ro_add ri o r f); [exact T|exact Nb|exact F|]. intros lit K. apply FreeProofs2.named_literal in K; [congruence|exact lit].
    + apply orb_false_iff in Et as [E1 E2]. eapply go_conseq; [apply go_quit|intros v a h v1 []|]. cbv beta. intros v h st v1 (-> & -> & ->). split; [|auto]. split; [exact No|].
      split; [rewrite <- FreeProofs2.automatic_iff; congruence|]. intro K. rewrite K in E1. rewrite beq_refl in E1. discriminate E1.
Qed.
Lemma all_routes : forall rs v h v1, Deach (fun r v h v1 => (route_steps ri o r h /\ ~ no_such_table o) /\ FreeProofs2.flags o [r] v v1) rs v h v1 -> route_all ri o rs h /\ (rs <> [] -> ~ no_such_table o) /\ FreeProofs2.flags o rs v v1.
Proof.
  intros rs v h v1 H. induction H as [v|r rs v v1 v2 h h' [[R Nt] F] _ (R2 & _ & F2)].
  - split; [constructor|]. split; [congruence|]. assert (X : forall f, ~ FreeSpec.routes_all_of o f []) by (intros f (_ & x & [] & _)). pose proof (X F4). pose proof (X F6). unfold FreeProofs2.flags. repeat split; tauto.
  - split; [constructor; assumption|]. split; [intros _; exact Nt|]. eapply FreeProofs2.flags_cons; [exact no_glob|exact []|exact F|exact F2].
Qed.
Definition listing (rs : list (list Z)) (h : history) : Prop := exists a b,
  h = [(show_aips ri, a); (sort_command (unlines (route_lines glob (read_complete (a_output a)))), b)] /\ rs = expand glob (captured (a_output b)).
Lemma go_routes : go (add_routes sys glob o ri) (fun v _ h v1 => exists rs h1 h2, h = h1 ++ h2 /\ listing rs h1 /\ route_all ri o rs h2 /\ FreeProofs2.flags o rs v v1)
  (fun v h st v1 => st = 1 /\ exists rs, listing rs h /\ rs <> [] /\ no_such_table o).
Proof.
  unfold add_routes. eapply go_conseq; [apply go_thn; [apply go_feed; asks|intro out; apply go_thn; [apply go_call; asks|intro b; apply (go_each _ _ _ _ _ (fun r v h v1 => (route_steps ri o r h /\ ~ no_such_table o) /\ FreeProofs2.flags o [r] v v1) refused); intros x _; apply go_route]]| |].
  - cbv beta. intros v a h v1 (out & h1 & v2 & h2 & -> & (r & -> & -> & ->) & b & h3 & v3 & h4 & -> & (-> & ->) & D). apply all_routes in D as (R & _ & Fl).
    eexists _, _, h4. split; [cbn [app]; apply (app_comm_cons [_] h4 _)|]. split; [|split; [exact R|exact Fl]]. exists r, b. split; reflexivity.
  - cbv beta. intros v h st v1 [[]|(out & h1 & v2 & h2 & -> & (r & -> & -> & ->) & [[]|(b & h3 & v3 & h4 & -> & (-> & ->) & (l1 & x & l2 & k1 & v4 & k2 & El & -> & D & (Rf & -> & -> & ->)))])].
    split; [reflexivity|]. apply all_routes in D as (R & Nt & _). destruct l1 as [|y l1]; [|exfalso; apply Nt; [discriminate|exact Rf]]. inversion R; subst.
    exists (expand glob (captured (a_output b))). split; [exists r, b; split; reflexivity|]. split; [rewrite El; discriminate|exact Rf].
Qed.
End Pieces.

(** ** DNS *)
Section Dns.
Variables (as_1 : command -> Prop) (sys : system) (order : history -> list (list Z) -> list (list Z)) (o : options).
Notation go := (ShGoes.go (V := DarDns.dvars) bears as_1).
Notation goes := (ShGoes.goes (V := DarDns.dvars) bears as_1).
Definition only_dns (h : history) : Prop := Forall (fun ev => dns_command o (fst ev)) h.
Definition D0 : Dn DarDns.dvars unit := fun _ _ h _ => only_dns h.
Lemma only_app : forall a b, only_dns a -> only_dns b -> only_dns (a ++ b).
Proof. intros a b H1 H2. apply Forall_app. auto. Qed.
Lemma goes_D0 : forall (m : act DarDns.dvars unit), goes m D0 -> forall G, go m D0 G.
Proof. intros m H G. eapply go_conseq; [exact H|auto|intros v h st v1 []]. Qed.
Lemma go_response : forall x s, dns_command o (argv [!"networksetup"; x; s]) -> x <> str "-setdnsservers" -> x <> str "-setsearchdomains" -> x <> str "-listallnetworkservices" ->
  goes (DarDns.response_to sys x s) (fun _ _ h _ => only_dns h).
Proof.
  intros x s C N1 N2 N3. unfold DarDns.response_to. eapply goes_conseq; [apply (go_call_val DarDns.dvars bears as_1 sys _ _ a_status (fun a => DarDns.response (captured (a_output a)))); [apply not_bears_get; assumption|auto]|].
  cbv beta. intros v r h v1 (a & -> & _). constructor; [exact C|constructor].
Qed.
Lemma go_put0 : forall g, goes (put g) D0.
Proof. intro g. eapply goes_conseq; [apply go_put|]. cbv beta. intros v a h v1 (-> & _). constructor. Qed.
Lemma go_seq0 : forall A (m : act DarDns.dvars A) (f : A -> act DarDns.dvars unit) D, goes m D -> (forall v a h v1, D v a h v1 -> only_dns h) -> (forall a, goes (f a) D0) -> goes (thn m f) D0.
Proof. intros A m f D H I F. eapply goes_conseq; [eapply (goes_thn _ _ _ _ _ _ _ _ (fun _ => D0)); [exact H|exact F]|]. cbv beta. intros v b h v1 (a & h1 & v2 & h2 & -> & X & Y). apply only_app; [eapply I, X|exact Y]. Qed.
Definition no_name (line : list Z) : Gn DarDns.dvars := fun _ h st _ => DarDns.service_name line = [] /\ h = [] /\ st = 1.
Lemma go_collect_one : forall line, go (DarDns.collect_one sys (pure tt) line) D0 (no_name line).
Proof.
  intro line. unfold DarDns.collect_one, no_name. destruct (DarDns.service_name line) as [|c0 n0].
  - eapply go_conseq; [apply go_quit|intros v a h v1 []|]. cbv beta. intros v h st v1 (-> & -> & _). auto.
  - generalize (c0 :: n0). intro name. apply goes_D0. unfold goes. eapply go_conseq; [apply (go_get _ _ _ _ _ (fun _ => D0) (fun _ => no_G))|auto|intros v h st v1 []]. intro d. destruct (DarDns.look name _) as [|z zs].
    + eapply (go_seq0 _ _ _ _ (go_response _ _ _ _ _ _)); [auto|]. intro r. eapply (go_seq0 _ _ _ _ (go_pure _ _ _ _ _)); [cbv beta; intros v a h v1 (_ & -> & _); constructor|]. intros _.
      eapply (go_seq0 _ _ _ _ (go_put0 _)); [auto|]. intro u1. eapply (go_seq0 _ _ _ _ (go_response _ _ _ _ _ _)); [auto|]. intro r2. apply go_put0.
      Unshelve. all: try discriminate.
      * right. exists name. left. reflexivity.
      * right. exists name. right. left. reflexivity.
    + eapply goes_conseq; [apply go_pure|]. cbv beta. intros v a h v1 (_ & -> & _). constructor.
Qed.
Lemma bears_list : bears DarDnsSpec.list_services.
Proof. right. right. right. left. reflexivity. Qed.
Lemma Deach_D0 : forall A (l : list A) v h v1, Deach (fun _ v h v1 => D0 v tt h v1) l v h v1 -> only_dns h.
Proof. intros A l v h v1 H. induction H as [v|x l v v1 v2 h h' X _ IH]; [constructor|apply only_app; assumption]. Qed.
Lemma go_collect : go (DarDns.collect sys (pure tt)) D0 (fun _ h st _ => only_dns h /\ DarDnsSpec.listed [] h /\ st = 1).
Proof.
  unfold DarDns.collect. eapply go_conseq; [apply go_thn; [apply go_feed, bears_list|intro out; apply go_thn; [|intro u2; apply go_put0]; apply (go_each _ _ _ _ _ (fun _ v h v1 => D0 v tt h v1) no_name); intros x _; eapply go_conseq; [apply go_collect_one|intros v [] h v1 X; exact X|auto]]| |].
  - cbv beta. intros v a h v1 (out & h1 & v2 & h2 & -> & (r & -> & -> & _) & u & h3 & v3 & h4 & -> & D & P). apply only_app; [constructor; [left; reflexivity|constructor]|]. apply only_app; [eapply Deach_D0, D|exact P].
  - cbv beta. intros v h st v1 [[]|(out & h1 & v2 & h2 & -> & (r & -> & -> & _) & [(l1 & x & l2 & k1 & v4 & k2 & El & -> & D & (Ex & -> & ->))|(u & h3 & v3 & h4 & _ & _ & [])])].
    rewrite app_nil_r. split; [apply only_app; [constructor; [left; reflexivity|constructor]|eapply Deach_D0, D]|]. split; [|reflexivity]. exists r. split; [left; reflexivity|]. apply DarDnsProofs2.lists_iff. rewrite <- Ex. apply in_map. rewrite El. apply in_app_iff. right. left. reflexivity.
Qed.
Lemma go_set_one : forall s, goes (DarDns.set_one sys (o_dns o) (o_search o) s) D0.
Proof.
  intro s. unfold DarDns.set_one. eapply (go_seq0 _ _ _ _ (go_call _ _ _ _ _ _)); [cbv beta; intros v a h v1 (-> & _); constructor; [|constructor]; right; exists s; right; right; left; reflexivity|].
  intro a. destruct (a_status a =? 0); [|eapply goes_conseq; [apply go_pure|]; cbv beta; intros v b h v1 (_ & -> & _); constructor].
  eapply goes_conseq; [apply go_try; right; right; right; right; right; exists s; eexists; reflexivity|]. cbv beta. intros v b h v1 (c & -> & _). constructor; [|constructor]. right. exists s. right. right. right. cbn [fst]. destruct (o_search o); reflexivity.
  Unshelve. right. right. right. right. left. exists s, (o_dns o). reflexivity.
Qed.
Lemma go_dns_set : go (DarDns.set_dns sys order (o_dns o) (o_search o) (pure tt)) D0 (fun _ h st _ => only_dns h /\ DarDnsSpec.listed [] h /\ st = 1).
Proof.
  unfold DarDns.set_dns. eapply go_conseq; [eapply (go_thn _ _ _ _ _ _ _ _ _ (fun _ => D0) (fun _ => no_G)); [apply go_collect|]| |].
  - intro u1. assert (H : forall (f : list (list Z) -> list (list Z)) l, goes (each (DarDns.set_one sys (o_dns o) (o_search o)) (f l)) D0).
    { intros f l. eapply goes_conseq; [apply (goes_each _ _ _ _ _ (fun _ v h v1 => D0 v tt h v1)); intros x _; eapply goes_conseq; [apply go_set_one|intros v [] h v1 X; exact X]|]. cbv beta. intros v a h v1 X. eapply Deach_D0, X. }
    unfold DarDns.each_service. split; [intro v; exact (proj1 (H (order []) (DarDns.keys (DarDns.d_dns v))) v)|]. intro s. exact (proj2 (H (order (s_hist s)) (DarDns.keys (DarDns.d_dns (s_vars s)))) s).
  - cbv beta. intros v a h v1 (u & h1 & v2 & h2 & -> & X & Y). apply only_app; assumption.
  - cbv beta. intros v h st v1 [X|(u & h1 & v2 & h2 & _ & _ & [])]. exact X.
Qed.
Hypothesis any_order : DarDnsSpec.some_order order.
Lemma go_dns : ShGoes.go bears as_1 (set_dns sys order o) (fun v _ h v1 => dns_steps o h /\ v1 = v) (fun v h st v1 => dns_refused o h /\ st = 1).
Proof.
  unfold set_dns, dns_steps, dns_refused. destruct (o_dns o) as [|x l] eqn:E.
  { eapply go_conseq; [apply go_pure| |intros v h st v1 []]. cbv beta. intros v a h v1 (_ & -> & ->). auto. }
  rewrite <- E. assert (Nd : o_dns o <> []) by congruence. clear x l E.
  assert (W : forall (v : vars) dv p, begins_so D0 (fun _ h st _ => only_dns h /\ DarDnsSpec.listed [] h /\ st = 1) dv p ->
    begins_so (fun v (_ : unit) h v1 => ((o_dns o = [] /\ h = []) \/ (o_dns o <> [] /\ Forall (fun ev => dns_command o (fst ev)) h /\ dns_set o h)) /\ v1 = v) (fun v h st v1 => (o_dns o <> [] /\ Forall (fun ev => dns_command o (fst ev)) h /\ DarDnsSpec.listed [] h) /\ st = 1) v p).
  { intros v dv p (q & [(a & dv1 & X)|(st & dv1 & X & L & S)]).
    - exists (q ++ [(DarDnsSpec.list_services, mk_answer 1 [] None)]). left. exists tt, v. split; [|reflexivity]. right. split; [exact Nd|]. rewrite app_assoc. split; [apply only_app; [exact X|constructor; [left; reflexivity|constructor]]|].
      intro Sc. exfalso. apply Forall_app in Sc as [_ Sc]. inversion Sc as [|? ? K _]. discriminate K.
    - exists q. right. exists st, v. split; [|exact S]. split; [exact Nd|]. split; [exact X|exact L]. }
  pose proof go_dns_set as [T H]. split; [intro v; apply (W v DarDns.dvars0), T|]. intro s. unfold with_arrays. specialize (H (mk_sh (s_hist s) DarDns.dvars0)).
  destruct (DarDns.set_dns sys order (o_dns o) (o_search o) (pure tt) (mk_sh (s_hist s) DarDns.dvars0)) as [u s1|st s1|st s1|s1] eqn:Eq; cbn [s_hist s_vars] in H |- *; [| | |exact I].
  - destruct H as (h & Eh & F & X). exists h. split; [exact Eh|]. split; [exact F|]. split; [|reflexivity]. right. split; [exact Nd|]. split; [exact X|].
    intros Sc T0 T1 Ef x. exact (DarDnsProofs4.round sys order (o_dns o) (o_search o) any_order Nd _ u s1 h T0 T1 Eq Eh Sc Ef x).
  - destruct H as [(h & Eh & F & X & L & S)|(h & ev & Eh & F & Hb & X)]; [left; exists h; auto|right; exists h, ev; eauto 6].
    split; [exact Eh|]. split; [exact F|]. split; [|exact S]. auto.
  - destruct H as (h & ev & Eh & F & Hb & X). exists h, ev. eauto 6.
Qed.
End Dns.

(** ** All of it *)
Section All.
Variables (as_1 : command -> Prop) (sys : system) (glob : list Z -> list (list Z)) (order : history -> list (list Z) -> list (list Z)) (ifc : list Z) (o : options) (ri : list Z).
Notation goes := (ShGoes.goes bears as_1).
Notation go := (ShGoes.go bears as_1).
Hypothesis any_order : DarDnsSpec.some_order order.
Definition up_complete (v : vars) (p : steps) (rs : list (list Z)) (v1 : vars) : Prop := exists vr,
  (v_gw4 vr = v_gw4 v /\ v_gw6 vr = v_gw6 v /\ v_eps vr = v_eps v /\ (v_auto4 vr = true <-> FreeSpec.routes_all_of o F4 rs) /\ (v_auto6 vr = true <-> FreeSpec.routes_all_of o F6 rs)) /\
  (default_among o rs -> FreeProofs3.round_fact_nl ri true vr (p_hosts p) v1) /\ (~ default_among o rs -> v1 = vr).
Definition up_done (v : vars) (h : history) (v1 : vars) : Prop := v_auto4 v = false -> v_auto6 v = false -> exists p rs, h = all_steps p /\ in_order glob ri ifc o rs p /\
  (Forall fine_b h -> up_complete v p rs v1).
Definition up_refused (v : vars) (h : history) (st : Z) (v1 : vars) : Prop := st = 1 /\ (v_auto4 v = false -> v_auto6 v = false -> exists p rs, h = all_steps p /\ in_order_refused glob ri ifc o rs p).
Ltac simp_steps := cbn [p_pre p_conf p_addr p_mtu p_up p_dns p_list p_routes p_hosts p_mon p_post].
Lemma go_after : go (after_add_if sys glob order ifc o ri) (fun v _ h v1 => up_done v h v1) up_refused.
Proof.
  unfold after_add_if.
  eapply go_conseq; [apply go_thn; [apply go_hooks|intro u1; apply go_thn; [apply go_must_in; apply not_bears_wg; discriminate|intro u2; apply go_thn; [apply go_addresses|
    intro u3; apply go_thn; [apply go_mtu|intro u4; apply go_thn; [apply go_must; apply not_bears_ifconfig; discriminate|
    intro u5; apply go_thn; [apply go_routes|intro u7; apply go_thn; [apply go_direct|intro u8; apply go_thn; [apply go_dns, any_order|intro u9; eapply goes_thn; [apply go_try; left; right; right; right; reflexivity|intro u10; apply go_hooks]]]]]]]]]| |]; cbv beta.
  all: try exact o.
  all: try exact no_glob.
  all: try exact order.
  all: try exact ri.
  - intros v a h v1 (x1 & g1 & w1 & r1 & -> & (H1 & ->) & x2 & g2 & w2 & r2 & -> & (a2 & -> & ->) & x3 & g3 & w3 & r3 & -> & (H3 & ->) & x4 & g4 & w4 & r4 & -> & (H4 & ->) & x5 & g5 & w5 & r5 & -> & (a5 & -> & ->) &
      x7 & g7 & w7 & r7 & -> & (rs & ga & gb & -> & Hl & Hr & Fl) & x8 & g8 & w8 & r8 & -> & (H8 & N8) & x6 & g6 & w6 & r6 & -> & (H6 & ->) & x9 & g9 & w9 & r9 & -> & (a9 & -> & ->) & H10 & ->).
    intros A4 A6. destruct Fl as (_ & G4 & G6 & Ge & _ & F4' & F6'). rewrite A4 in F4'. rewrite A6 in F6'.
    assert (I4 : v_auto4 w7 = true <-> FreeSpec.routes_all_of o F4 rs) by (rewrite F4'; split; [intros [X|X]; [discriminate X|exact X]|auto]).
    assert (I6 : v_auto6 w7 = true <-> FreeSpec.routes_all_of o F6 rs) by (rewrite F6'; split; [intros [X|X]; [discriminate X|exact X]|auto]).
    assert (J : v_auto4 w7 = true \/ v_auto6 w7 = true <-> default_among o rs) by (unfold default_among; rewrite I4, I6; reflexivity).
    eexists (mk_steps g1 _ g3 g4 _ ga gb g8 g6 _ r9), rs. split; [unfold all_steps; simp_steps; rewrite <- !app_assoc; reflexivity|].
    split.
    + unfold in_order, before_dns, before_routes. simp_steps.
      split; [split; [split; [exact H1|]; split; [reflexivity|]; split; [exact H3|]; split; [exact H4|]; split; [reflexivity|]; exact Hl|]; split; [exact Hr|]; split; [intro X; apply H8, J, X|intro N; apply N8; rewrite J; exact N]|].
      split; [exact H6|]. split; [reflexivity|exact H10].
    + intro Fi. exists w7. split; [auto|]. simp_steps.
      split; [intro X; apply H8; [apply J, X|]|intro N; apply N8; rewrite J; exact N].
      rewrite !Forall_app in Fi. tauto.
  - unfold up_refused. intros v h st v1 H. do 5 (destruct H as [H|H]; [destruct H|]; destruct H as (?u & ?g & ?w & ?r & -> & ?X & H)).
    destruct X as [Y1 ->]. destruct X0 as (a2 & -> & ->). destruct X1 as [Y2 ->]. destruct X2 as [Y3 ->]. destruct X3 as (a5 & -> & ->).
    destruct H as [(-> & rs & Hl & Ne & Nt)|(u7 & g7 & w7 & r7 & -> & (rs & ga & gb & -> & Hl & Hr & Fl) & [[]|(u8 & g8 & w8 & r8 & -> & (H8 & N8) & [(Rf & ->)|(u9 & g9 & w9 & r9 & _ & _ & [])])])].
    + split; [reflexivity|]. intros _ _. eexists (mk_steps g _ g1 g2 _ r [] [] [] [] []), rs. split; [unfold all_steps; simp_steps; rewrite !app_nil_r; reflexivity|].
      split; [reflexivity|]. split; [reflexivity|]. left. unfold before_routes. simp_steps.
      split; [split; [exact Y1|]; split; [reflexivity|]; split; [exact Y2|]; split; [exact Y3|]; split; [reflexivity|]; exact Hl|]. auto.
    + split; [reflexivity|]. intros A4 A6. destruct Fl as (_ & G4 & G6 & Ge & _ & F4' & F6'). rewrite A4 in F4'. rewrite A6 in F6'.
      assert (J : v_auto4 w7 = true \/ v_auto6 w7 = true <-> default_among o rs).
      { unfold default_among. rewrite F4', F6'. intuition discriminate. }
      eexists (mk_steps g _ g1 g2 _ ga gb g8 r8 [] []), rs. split; [unfold all_steps; simp_steps; rewrite !app_nil_r, <- !app_assoc; reflexivity|].
      split; [reflexivity|]. split; [reflexivity|]. right. unfold before_dns, before_routes. simp_steps.
      split; [|exact Rf]. split; [split; [exact Y1|]; split; [reflexivity|]; split; [exact Y2|]; split; [exact Y3|]; split; [reflexivity|]; exact Hl|]. split; [exact Hr|].
      split; [intro X; apply H8, J, X|intro N; apply N8; rewrite J; exact N].
Qed.
End All.

(** ** Taking it back *)
Section Undo.
Variables (as_1 : command -> Prop) (sys : system) (ifc : list Z).
Lemma go_gone : forall ri, ri <> [] -> ShGoes.goes bears as_1 (del_if sys ifc ri) (fun v _ h v1 => gone ri ifc h /\ v1 = v).
Proof.
  intros ri N. unfold del_if. destruct ri as [|r0 r1]; [congruence|]. generalize (r0 :: r1). intro ri.
  eapply goes_conseq; [apply goes_thn; [apply go_must; nb|intro; apply go_must; nb]|]. cbv beta. intros v a h v1 (u & h1 & v2 & h2 & -> & (b & -> & ->) & c & -> & ->). split; reflexivity.
Qed.
Lemma go_undo : forall ri, ri <> [] -> ShGoes.goes bears as_1 (undo sys ifc ri) (fun v _ h v1 => undoing ri ifc h /\ v1 = v).
Proof.
  intros ri N. unfold undo, del_routes_of. eapply goes_conseq; [eapply (goes_thn _ _ _ _ _ _ _ _ (fun _ v (_ : unit) h v1 => deletes_routes ri h /\ v1 = v)); [apply go_gone, N|intro u; destruct ri as [|r0 r1]; [congruence|]; apply go_del_routes; exact (mk_options [] [] [] [] [] [] [] [] [] [] false)]|].
  cbv beta. intros v a h v1 (u & h1 & v2 & h2 & -> & (R & ->) & D & ->). split; [|reflexivity]. exists h1, h2. auto.
Qed.
Lemma go_undo_early : ShGoes.goes bears_at_start as_1 (undo sys ifc []) (fun v _ h v1 => forgets ifc h /\ v1 = v).
Proof.
  unfold undo, del_if, del_routes_of. eapply goes_conseq; [apply goes_thn; [apply goes_thn; [apply go_pure|intro; apply go_must; apply not_start; discriminate]|intro; apply go_pure]|].
  cbv beta. intros v a h v1 (u & h1 & v2 & h2 & -> & (u2 & h3 & v3 & h4 & -> & (_ & -> & ->) & b & -> & ->) & _ & -> & ->). split; reflexivity.
Qed.
End Undo.
