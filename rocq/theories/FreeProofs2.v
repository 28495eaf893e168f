(** Proofs about wg-quick on FreeBSD: the steps of cmd_up. *)
From Coq Require Import String ZArith List Bool Lia.
From Verif Require Import Base Cstr CstrProofs Bash Quick QuickRun QuickSpec QuickRunSpec QuickReloadSpec QuickRouteSpec QuickUndoSpec QuickUpProofs PropQuickFirewall PropQuickUndo QuickSave
  QuickRouteProofs Sh BsdRoutes BsdRoutesSpec BsdRoutesProofs BsdRoutesProofs2 BsdRoutesProofs3 PropBsdRoutes FreeQuick FreeSpec FreeProofs.
From Verif Require QuickMtuSpec PropQuickMtu.
Import ListNotations.
Open Scope Z_scope.

Lemma fits_inet : forall a, exists f, fits f a /\ inet a = match f with F4 => str "inet" | F6 => str "inet6" end /\ 45 :: inet a = flag f.
Proof.
  intro a. unfold inet. destruct (has_char 58 a) eqn:E; [exists F6|exists F4]; (split; [|split; reflexivity]); [apply has_colon, E|]. cbn [fits]. rewrite <- has_colon. congruence.
Qed.
Lemma literal_atoms : forall s n, (length s <= n)%nat -> ~ In 46 s -> ~ In 43 s -> name_atoms n s = map (fun c => (Some c, false)) s.
Proof.
  induction s as [|c s IH]; intros n L N1 N2; destruct n as [|n]; try reflexivity; cbn [length] in L; [lia|].
  cbn [name_atoms map]. destruct (Z.eqb_spec c 46) as [->|_]; [exfalso; apply N1; left; reflexivity|].
  assert (S : starts_with [43] s = false /\ skip_plus s = s).
  { destruct s as [|x s]; [split; reflexivity|]. unfold starts_with. cbn [strip_prefix skip_plus]. rewrite (Z.eqb_sym 43 x). destruct (Z.eqb_spec x 43) as [->|_]; [|split; reflexivity].
    exfalso. apply N2. right. left. reflexivity. }
  destruct S as [-> ->]. rewrite IH; [reflexivity|lia|intro K; apply N1; right; exact K|intro K; apply N2; right; exact K].
Qed.
Lemma rests_literal : forall p s, rests (map (fun c => (Some c, false)) p) s = match strip_prefix p s with Some r => [r] | None => [] end.
Proof.
  induction p as [|c p IH]; intro s; [reflexivity|]. cbn [map rests]. unfold rests_one. cbn [snd fst]. destruct s as [|x s]; [reflexivity|]. unfold atom_is. cbn [strip_prefix].
  rewrite (Z.eqb_sym x c). destruct (c =? x); [|reflexivity]. cbn [flat_map]. rewrite app_nil_r. apply IH.
Qed.
Lemma prefix_iff : forall p s, (exists r, strip_prefix p s = Some r) <-> exists b, s = p ++ b.
Proof.
  induction p as [|c p IH]; intro s; cbn [strip_prefix app]; [split; intros _; eauto|]. destruct s as [|x s]; [split; intros (r & E); discriminate|].
  destruct (Z.eqb_spec c x) as [->|N].
  - rewrite IH. split; intros (b & E); exists b; congruence.
  - split; intros (b & E); [discriminate|congruence].
Qed.
Lemma somewhere_literal : forall p s, somewhere (map (fun c => (Some c, false)) p) s = true <-> occurs p s.
Proof.
  intros p s. unfold occurs. induction s as [|x s IH]; cbn [somewhere]; rewrite rests_literal; pose proof (prefix_iff p) as P.
  - specialize (P []). destruct (strip_prefix p []) as [r|].
    + split; [intros _|reflexivity]. destruct (proj1 P ltac:(eauto)) as (b & E). exists [], b. exact E.
    + split; [discriminate|]. intros (a & b & E). assert (X : exists b0 : list Z, [] = p ++ b0) by (destruct a; [eauto|discriminate]). apply P in X as (r & X). discriminate X.
  - specialize (P (x :: s)). destruct (strip_prefix p (x :: s)) as [r|].
    + split; [intros _|reflexivity]. destruct (proj1 P ltac:(eauto)) as (b & E). exists [], b. exact E.
    + rewrite IH. split; intros (a & b & E).
      * exists (x :: a), b. rewrite E. reflexivity.
      * destruct a as [|y a]; [|exists a, b; cbn [app] in E; congruence]. assert (X : exists b0, x :: s = p ++ b0) by (exists b; exact E). apply P in X as (r & X). discriminate X.
Qed.
Lemma named_literal : forall ifc out, literal ifc -> (somewhere (named_pattern ifc) out = true <-> says_interface ifc out).
Proof.
  intros ifc out [N1 N2]. unfold named_pattern, says_interface. rewrite literal_atoms; [apply somewhere_literal|lia| |]; intro K; apply in_app_or in K as [K|K].
  - vm_compute in K. intuition discriminate.
  - apply in_app_or in K as [K|[K|[]]]; [exact (N1 K)|discriminate K].
  - vm_compute in K. intuition discriminate.
  - apply in_app_or in K as [K|[K|[]]]; [exact (N2 K)|discriminate K].
Qed.
Lemma automatic_iff : forall o, auto_table o = true <-> automatic o.
Proof. intro o. unfold auto_table, automatic. rewrite orb_true_iff, !beq_eq. reflexivity. Qed.
Lemma default_iff : forall r, ends_with !"/0" r = true <-> is_default r.
Proof. intro r. rewrite ends_with_iff. unfold is_default. reflexivity. Qed.

Section Up.
Variables (sys : system) (glob : list Z -> list (list Z)) (fuel : nat) (ifc : list Z) (o : options) (us d : list Z).
Notation goes := (goes ifc o d).
Ltac ne := solve [apply not_excused; vm_compute; intuition discriminate].

Lemma goes_hooks : forall l, goes (execute_hooks sys ifc l) (fun v _ h v1 => hooks ifc l h /\ v1 = v).
Proof.
  intro l. unfold execute_hooks. eapply goes_conseq; [apply (goes_each _ _ _ _ _ (fun x h => exists a, h = [(run_hook (hook_text ifc x), a)]))|].
  - intros x _. eapply goes_conseq; [apply goes_must; [ne|reflexivity]|]. cbv beta. intros v a h v1 _ (r & -> & ->). split; [exists r; reflexivity|reflexivity].
  - cbv beta. intros v _ h v1 _ [H ->]. split; [|reflexivity]. unfold hooks. clear v. induction H as [|x l h h' (a & ->) H (ts & F & E)].
    + exists []. split; [constructor|reflexivity].
    + exists (hook_text ifc x :: ts). split; [constructor; [apply replace_all_substituted; discriminate|exact F]|]. cbn [map app fst]. rewrite E. reflexivity.
Qed.
Lemma goes_addresses : forall l, goes (each (add_addr sys ifc) l) (fun v _ h v1 => Forall2 (alias ifc) l (map fst h) /\ v1 = v).
Proof.
  intro l. eapply goes_conseq; [apply (goes_each _ _ _ _ _ (fun x h => exists c a, h = [(c, a)] /\ alias ifc x c))|].
  - intros x _. unfold add_addr. eapply goes_conseq; [apply goes_must; [apply not_excused_ifconfig|reflexivity]|]. cbv beta. intros v a h v1 _ (r & -> & ->). split; [|reflexivity].
    exists (argv [!"ifconfig"; ifc; inet x; x; !"alias"]), r. split; [reflexivity|]. destruct (fits_inet x) as (f & F & E & _). exists f. split; [exact F|]. rewrite E. reflexivity.
  - cbv beta. intros v _ h v1 _ [H ->]. split; [|reflexivity]. clear v. induction H as [|x l h h' (c & a & -> & Ha) H IH]; [constructor|]. cbn [map app fst]. constructor; assumption.
Qed.
Definition asked {A} (P : A -> Prop) : vars -> A -> history -> vars -> Prop := fun v a h v1 => asking h /\ P a /\ v1 = v.
Ltac one_ask := constructor; [asking_word|constructor].
Lemma device_named_spec : forall s, match device_named s with Some v => names_interface s v | None => forall v, ~ names_interface s v end.
Proof.
  assert (Step : forall s, (forall v w, s = str "interface: " ++ v ++ 10 :: w -> v <> [] -> In 32 v) ->
    match (match s with [] => None | _ :: s' => device_named s' end) with Some v => match s with [] => False | _ :: s' => names_interface s' v end | None => match s with [] => True | _ :: s' => forall v, ~ names_interface s' v end end ->
    match (match s with [] => None | _ :: s' => device_named s' end) with Some v => names_interface s v | None => forall v, ~ names_interface s v end).
  { intros s N H. destruct s as [|c s].
    - intros v (u & w & E & _). apply (f_equal (@length Z)) in E. rewrite !app_length in E. cbn in E. lia.
    - destruct (device_named s) as [v|].
      + destruct H as (u & w & -> & H1 & H2 & H3 & H4). exists (c :: u), w. split; [reflexivity|]. split; [exact H1|]. split; [exact H2|]. split; [exact H3|].
        intros [|c' u'] v' w' E V S; [destruct (S (N v' w' E V))|]. assert (E' : u ++ str "interface: " ++ v ++ 10 :: w = u' ++ str "interface: " ++ v' ++ 10 :: w') by (exact (f_equal (@tl Z) E)). cbn [length]. specialize (H4 _ _ _ E' V S). lia.
      + intros v (u & w & E & H1 & H2 & H3 & H4). destruct u as [|c' u]; [exact (H2 (N v w E H1))|]. apply (H v). exists u, w. split; [exact (f_equal (@tl Z) E)|]. split; [exact H1|]. split; [exact H2|]. split; [exact H3|].
        intros u' v' w' E' V S. assert (E2 : c :: s = (c :: u') ++ str "interface: " ++ v' ++ 10 :: w') by (rewrite E'; reflexivity). specialize (H4 _ _ _ E2 V S). cbn [length] in H4. lia. }
  assert (Here : forall r, match split_last 10 (take_while (fun c => negb (c =? 32)) r) with Some (g, _) => exists w, r = g ++ 10 :: w /\ ~ In 32 g /\ (forall x y, w = x ++ 10 :: y -> In 32 x) | None => forall v w, r = v ++ 10 :: w -> In 32 v end).
  { intro r. destruct (PropQuickMtu.take_while_spec (fun c => negb (c =? 32)) (fun c => c <> 32) PropQuickMtu.notspace_iff r) as (b & Er & F & Nb). set (t := take_while (fun c => negb (c =? 32)) r) in *.
    assert (F' : ~ In 32 t) by (intro X; rewrite Forall_forall in F; exact (F 32 X eq_refl)).
    assert (In32 : forall v w, r = v ++ 10 :: w -> ~ In 32 v -> exists y, t = v ++ 10 :: y).
    { intros v w E Nv. rewrite Er in E. clear Er. revert v E Nv. clear - Nb. induction t as [|c t IH]; intros v E Nv; cbn [app] in E.
      - exfalso. destruct b as [|c b]; [destruct v; discriminate E|]. specialize (Nb c b eq_refl). assert (c = 32) by lia. subst c. destruct v as [|c v]; cbn [app] in E; [congruence|]. apply Nv. left. congruence.
      - destruct v as [|c' v]; cbn [app] in E.
        + exists t. cbn [app]. congruence.
        + assert (c = c') by congruence. subst c'. assert (E' : t ++ b = v ++ 10 :: w) by congruence. destruct (IH v E') as (y & ->); [intro X; apply Nv; right; exact X|]. exists y. reflexivity. }
    destruct (split_last 10 t) as [[g y]|] eqn:Sp.
    - apply split_last_some in Sp as [Et Ny]. exists (y ++ b). split; [rewrite Er, Et, <- app_assoc; reflexivity|]. split; [intro X; apply F'; rewrite Et; apply in_or_app; left; exact X|].
      intros x z E. destruct (in_dec Z.eq_dec 32 x) as [X|X]; [exact X|exfalso]. destruct (In32 (g ++ 10 :: x) z) as (y' & Ey).
      + rewrite Er, Et, <- !app_assoc. cbn [app]. rewrite E. reflexivity.
      + intro I. apply in_app_or in I as [I|[I|I]]; [apply F'; rewrite Et; apply in_or_app; left; exact I|discriminate I|exact (X I)].
      + rewrite Et, <- app_assoc in Ey. apply app_inv_head in Ey. cbn [app] in Ey. assert (Ey' : y = x ++ 10 :: y') by congruence. apply Ny. rewrite Ey'. apply in_or_app. right. left. reflexivity.
    - apply split_last_none in Sp. intros v w E. destruct (in_dec Z.eq_dec 32 v) as [X|X]; [exact X|exfalso]. destruct (In32 v w E X) as (y & Ey). apply Sp. rewrite Ey. apply in_or_app. right. left. reflexivity. }
  assert (Eq : forall s, device_named s = match strip_prefix (!"interface: ") s with
    | Some r => match split_last 10 (take_while (fun c => negb (c =? 32)) r) with Some ((_ :: _) as g, _) => Some g | _ => match s with [] => None | _ :: s' => device_named s' end end
    | None => match s with [] => None | _ :: s' => device_named s' end end) by (intros [|c s]; reflexivity).
  assert (Main : forall n s, (length s <= n)%nat -> match device_named s with Some v => names_interface s v | None => forall v, ~ names_interface s v end); [|intro s; apply (Main (length s) s (le_n _))].
  induction n as [|n IH]; intros s L.
  - destruct s as [|c s]; [|cbn in L; lia]. change (device_named []) with (@None (list Z)). intros v (u & w & E & _). apply (f_equal (@length Z)) in E. rewrite !app_length in E. cbn in E. lia.
  - assert (Tail : match (match s with [] => None | _ :: s' => device_named s' end) with Some v => match s with [] => False | _ :: s' => names_interface s' v end | None => match s with [] => True | _ :: s' => forall v, ~ names_interface s' v end end).
    { destruct s as [|c s]; [exact I|]. cbn [length] in L. specialize (IH s ltac:(lia)). destruct (device_named s); exact IH. }
    rewrite Eq. destruct (strip_prefix (!"interface: ") s) as [r|] eqn:Sp.
    + apply strip_prefix_some in Sp. pose proof (Here r) as Hr. destruct (split_last 10 (take_while (fun c => negb (c =? 32)) r)) as [[[|g0 g] y]|].
      * apply Step; [|exact Tail]. intros v w E V. destruct Hr as (w0 & -> & _ & Hw). rewrite Sp in E. apply app_inv_head in E. destruct v as [|c v]; [contradiction|]. cbn [app] in E. right. apply (Hw v w). congruence.
      * destruct Hr as (w & -> & N32 & Hw). exists [], w. split; [exact Sp|]. split; [discriminate|]. split; [exact N32|]. split; [exact Hw|]. intros. cbn. lia.
      * apply Step; [|exact Tail]. intros v w E V. apply (Hr v w). rewrite Sp in E. apply app_inv_head in E. exact E.
    + apply Step; [|exact Tail]. intros v w E V. exfalso. apply strip_prefix_some in E. congruence.
Qed.
Lemma asking_app : forall h1 h2, asking h1 -> asking h2 -> asking (h1 ++ h2).
Proof. intros h1 h2 A B. apply Forall_app. auto. Qed.
Lemma goes_device_mtu : forall out, goes (device_mtu sys out) (fun v r h v1 => (asking h /\ interface_says out h (PropQuickMtu.or_0 r) /\ 0 <= PropQuickMtu.or_0 r) /\ v1 = v).
Proof.
  intro out. unfold device_mtu. pose proof (device_named_spec out) as Sp. destruct (device_named out) as [x|].
  - eapply goes_conseq; [apply goes_thn; [apply goes_ask; [left; right; left; exists x; reflexivity|reflexivity]|intro l; apply goes_pure|]|].
    + cbv beta. intros v a h v1 Hv (r & _ & _ & ->). exact Hv.
    + cbv beta. intros v a h v1 _ (l & h1 & v2 & h2 & -> & (r & -> & -> & ->) & -> & -> & ->). split; [|reflexivity]. split; [constructor; [right; left; exists x; reflexivity|constructor]|].
      pose proof (PropQuickMtu.mtu_field_spec (captured (a_output r))) as M. destruct (mtu_field (captured (a_output r))) as [n|]; cbn [PropQuickMtu.or_0 app]; (split; [apply is_named; [exact Sp|]|]).
      * left. apply M.
      * apply M.
      * right. auto.
      * apply Z.le_refl.
  - eapply goes_conseq; [apply goes_pure|]. cbv beta. intros v a h v1 _ (-> & -> & ->). split; [|reflexivity]. split; [constructor|]. split; [apply is_nothing, Sp|apply Z.le_refl].
Qed.
Lemma goes_peers_mtu : forall ls m0, 0 <= m0 -> goes (peers_mtu sys ls m0) (fun v r h v1 => (asking h /\ exists m, interfaces_say (BsdRoutes.hosts ls) h m /\ 0 <= m /\ r = Z.max m0 m) /\ v1 = v).
Proof.
  induction ls as [|l ls IH]; intros m0 M0; cbn [peers_mtu BsdRoutes.hosts flat_map].
  - eapply goes_conseq; [apply goes_pure|]. cbv beta. intros v a h v1 _ (-> & -> & ->). split; [|reflexivity]. split; [constructor|]. exists 0. split; [constructor|]. lia.
  - fold (BsdRoutes.hosts ls). destruct (endpoint_host (second_field l)) as [x|]; [|apply IH, M0].
    assert (IH' : forall k, goes (peers_mtu sys ls (larger m0 k)) (fun v r h v1 => (asking h /\ exists m, interfaces_say (BsdRoutes.hosts ls) h m /\ 0 <= m /\ r = Z.max (larger m0 k) m) /\ v1 = v)).
    { intro k. apply IH. destruct k as [k|]; cbn [larger]; [destruct (Z.ltb_spec m0 k)|]; lia. }
    eapply goes_conseq; [apply goes_thn; [apply goes_ask; [asks|reflexivity]|intro out; apply goes_thn; [apply goes_device_mtu|intro k; apply IH'|]|]|].
    + cbv beta. intros v a h v1 Hv (_ & ->). exact Hv.
    + cbv beta. intros v a h v1 Hv (r & _ & _ & ->). exact Hv.
    + cbv beta. intros v a h v1 _ (l0 & h1 & v2 & h2 & -> & (r & -> & -> & ->) & k & h3 & v3 & h4 & -> & ((A3 & D3 & P3) & ->) & (A4 & m & D4 & P4 & ->) & ->). split; [|reflexivity].
      split; [apply asking_app; [one_ask|]; apply asking_app; assumption|]. exists (Z.max (PropQuickMtu.or_0 k) m). destruct (fits_inet x) as (f & F & _ & E).
      split; [|split; [lia|]; rewrite PropQuickMtu.larger_max by assumption; lia]. cbn [app]. rewrite E. apply (iss_cons f x); assumption.
Qed.
Lemma less_80_signed : forall m, less_80 m = QuickMtuSpec.signed (m - 80).
Proof. intro m. unfold less_80, QuickMtuSpec.signed. destruct (Z.ltb_spec m 80), (Z.ltb_spec (m - 80) 0); try lia; [|reflexivity]. do 2 f_equal. lia. Qed.
Lemma goes_mtu : goes (set_mtu sys ifc o) (fun v _ h v1 => (exists q n a, h = q ++ [(give_mtu ifc n, a)] /\ asking q /\ (o_mtu o <> [] -> q = [] /\ n = o_mtu o) /\ (o_mtu o = [] -> measured ifc q n)) /\ v1 = v).
Proof.
  unfold set_mtu. destruct (o_mtu o) as [|x l] eqn:E.
  - eapply goes_conseq; [apply goes_thn; [apply goes_feed; [asks|reflexivity]|intro eps; apply goes_thn; [apply (goes_peers_mtu (read_complete eps) 0 (Z.le_refl 0))|intro m1; apply goes_thn;
      [|intro m2; apply goes_must; [apply not_excused_ifconfig|reflexivity]|]|]|]|].
    + instantiate (1 := fun v r h v1 => (asking h /\ (0 <= m1 -> (0 < m1 /\ h = [] /\ r = m1) \/ (m1 = 0 /\ exists c h3 line, h = (argv [str "route"; str "-n"; str "get"; str "default"], c) :: h3 /\
        QuickMtuSpec.first_line (a_output c) line /\ interface_says line h3 r /\ 0 <= r))) /\ v1 = v). destruct (Z.eqb_spec m1 0) as [Z0|Z0].
      * eapply goes_conseq; [apply goes_thn; [apply goes_feed; [asks|reflexivity]|intro out; apply goes_thn; [apply goes_device_mtu|intro k; apply goes_pure|]|]|].
        { cbv beta. intros v a h v1 Hv (_ & ->). exact Hv. }
        { cbv beta. intros v a h v1 Hv (r & _ & _ & ->). exact Hv. }
        cbv beta. intros v a h v1 _ (l0 & h1 & v2 & h2 & -> & (r & -> & -> & ->) & k & h3 & v3 & h4 & -> & ((A3 & D3 & P3) & ->) & -> & -> & ->). split; [|reflexivity].
        split; [apply asking_app; [one_ask|]; rewrite app_nil_r; exact A3|]. intros _. right. split; [exact Z0|]. exists r, h3. eexists. split; [cbn [app]; rewrite app_nil_r; reflexivity|]. split; [apply PropQuickMtu.first_line_spec|].
        rewrite Z0, PropQuickMtu.larger_max by (try apply Z.le_refl; exact P3). rewrite Z.max_r by exact P3. auto.
      * eapply goes_conseq; [apply goes_pure|]. cbv beta. intros v a h v1 _ (-> & -> & ->). split; [|reflexivity]. split; [constructor|]. intro P. left. split; [lia|auto].
    + cbv beta. intros v a h v1 Hv (_ & ->). exact Hv.
    + cbv beta. intros v a h v1 Hv (_ & ->). exact Hv.
    + cbv beta. intros v a h v1 Hv (r & _ & _ & ->). exact Hv.
    + cbv beta. intros v a h v1 _ (l0 & h1 & v2 & h2 & -> & (r & -> & -> & ->) & k & h3 & v3 & h4 & -> & ((A3 & m & D3 & P3 & ->) & ->) & m2 & h5 & v5 & h6 & -> & ((A5 & D5) & ->) & b & -> & ->).
      split; [|reflexivity]. eexists (_ :: h3 ++ h5), _, b. split; [cbn [app]; rewrite <- app_assoc; reflexivity|].
      split; [change (asking ([(argv [str "wg"; str "show"; ifc; str "endpoints"], r)] ++ h3 ++ h5)); apply asking_app; [one_ask|apply asking_app; assumption]|]. split; [intro N; contradiction|]. intros _.
      rewrite less_80_signed. exists r, (BsdRoutes.hosts (read_complete (a_output r))), h3, h5, m, (if 0 <? m2 then m2 else 1500). split; [reflexivity|]. split; [apply hosts_spec|]. split; [exact D3|]. split; [reflexivity|].
      rewrite Z.max_r in D5 by exact P3. destruct (D5 P3) as [(Pm & -> & ->)|(-> & c & h7 & line & -> & L & I & J)].
      * left. split; [exact Pm|]. split; [reflexivity|]. destruct (Z.ltb_spec 0 m); [reflexivity|lia].
      * right. split; [reflexivity|]. exists c, h7, line, m2. split; [reflexivity|]. split; [exact L|]. split; [exact I|]. destruct (Z.ltb_spec 0 m2); [left; auto|right]. split; [lia|reflexivity].
  - eapply goes_conseq; [apply goes_must; [apply not_excused_ifconfig|reflexivity]|]. cbv beta. intros v a h v1 _ (r & -> & ->). split; [|reflexivity].
    exists [], (x :: l), r. split; [reflexivity|]. split; [constructor|]. split; [auto|discriminate].
Qed.
Definition dns_steps (h : history) : Prop := (o_dns o = [] /\ h = []) \/ (o_dns o <> [] /\ map fst h = [register ifc (resolv_text (o_dns o) (o_search o))]).
Lemma goes_dns : goes (set_dns sys ifc o) (fun v _ h v1 => dns_steps h /\ (v1 = v \/ v1 = with_dns v)).
Proof.
  unfold set_dns, dns_steps. destruct (o_dns o) as [|x l] eqn:E.
  - eapply goes_conseq; [apply goes_pure|]. cbv beta. intros v a h v1 _ (_ & -> & ->). auto.
  - split; [intros v _; exists tt, [(register ifc (resolv_text (x :: l) (o_search o)), mk_answer 0 [] None)], v; split; [right; split; [discriminate|reflexivity]|auto]|].
    intros s _. unfold must_in, thn, call, put, pure, quit. pose proof (dns_text_spec o) as DT. rewrite E in DT. rewrite DT. fold (register ifc (resolv_text (x :: l) (o_search o))).
    set (c := register ifc (resolv_text (x :: l) (o_search o))). set (a := sys (s_hist s) c).
    assert (NT : a_status a <> 0 \/ a_signal a <> None -> tracks ifc o (s_vars s) [(c, a)] (s_vars s)).
    { intro N. split; [reflexivity|]. split; [|auto]. assert (X : ~ registered ifc [(c, a)]); [|tauto]. intros (t & b & [Eb|[]] & W1 & W2). assert (a = b) by congruence. subst b. destruct N; congruence. }
    destruct (a_signal a) as [st|] eqn:S; cbn [s_hist s_vars].
    + exists [], (c, a). split; [reflexivity|]. split; [constructor|]. split; [apply NT; right; discriminate|]. split; [exact S|]. exists tt, [], (s_vars s). split; [right; split; [discriminate|reflexivity]|auto].
    + destruct (Z.eqb_spec (a_status a) 0) as [Z0|Z0]; cbn [s_hist s_vars].
      * exists [(c, a)]. split; [reflexivity|]. split; [constructor; [split; [exact S|left; exact Z0]|constructor]|].
        split; [|split; [right; split; [discriminate|reflexivity]|auto]]. split; [reflexivity|]. split; [|intros _; right; rewrite E; discriminate]. split; [intros _; right|intros _; reflexivity].
        exists (resolv_text (x :: l) (o_search o)), a. split; [left; reflexivity|auto].
      * exists [], (c, a). split; [reflexivity|]. split; [constructor|]. split; [apply NT; left; exact Z0|].
        split; [|exists tt, [], (s_vars s); split; [right; split; [discriminate|reflexivity]|auto]]. split; [exact S|]. left. split; [apply not_excused_resolvconf; discriminate|auto].
Qed.

(** ** Routes *)
Definition flags (rs : list (list Z)) (v v1 : vars) : Prop :=
  v_dns v1 = v_dns v /\ v_gw4 v1 = v_gw4 v /\ v_gw6 v1 = v_gw6 v /\ v_eps v1 = v_eps v /\ v_tmp v1 = v_tmp v /\
  (v_auto4 v1 = true <-> v_auto4 v = true \/ routes_all_of o F4 rs) /\ (v_auto6 v1 = true <-> v_auto6 v = true \/ routes_all_of o F6 rs).
Lemma flags_same : forall v r, (forall f, ~ (automatic o /\ is_default r /\ fits f r)) -> flags [r] v v.
Proof.
  intros v r N. assert (X : forall f, ~ routes_all_of o f [r]). { intros f (A & x & [<-|[]] & D & F). exact (N f (conj A (conj D F))). }
  pose proof (X F4). pose proof (X F6). unfold flags. repeat split; tauto.
Qed.
Lemma goes_route : forall r, goes (add_route sys ifc o r) (fun v _ h v1 => route_steps ifc o r h /\ flags [r] v v1).
Proof.
  intro r. unfold add_route. destruct (fits_inet r) as (f & F & _ & Ef).
  destruct (beq (o_table o) !"off") eqn:Eo.
  { apply beq_eq in Eo. eapply goes_conseq; [apply goes_pure|]. cbv beta. intros v a h v1 _ (_ & -> & ->). split; [apply ro_off, Eo|]. apply flags_same. intros g ([A|A] & _); rewrite A in Eo; discriminate. }
  assert (No : o_table o <> str "off") by (intro K; rewrite K in Eo; discriminate Eo).
  destruct (auto_table o) eqn:Ea; cbn [negb].
  2:{ assert (Na : ~ automatic o) by (rewrite <- automatic_iff; congruence).
      rewrite Ef. eapply goes_conseq; [apply goes_must; [apply not_excused_fib|reflexivity]|]. cbv beta. intros v a h v1 _ (b & -> & ->).
      split; [apply ro_table; assumption|]. apply flags_same. intros g (A & _). exact (Na A). }
  apply automatic_iff in Ea. destruct (ends_with !"/0" r) eqn:Ed.
  - apply default_iff in Ed. destruct (has_char 58 r) eqn:Ec.
    + assert (F6r : fits F6 r) by (apply has_colon, Ec).
      eapply goes_conseq; [apply goes_thn; [apply goes_put; intro v; split; reflexivity|intro u1; apply goes_thn; [apply goes_must; [apply (not_excused_route _ (str "-interface") _ _ []); discriminate|reflexivity]|
        intro u2; apply goes_must; [apply (not_excused_route _ (str "-interface") _ _ []); discriminate|reflexivity]|]|]|].
      * cbv beta. intros v a h v1 Hv (b & _ & ->). exact Hv.
      * cbv beta. intros v a h v1 Hv (_ & ->). exact Hv.
      * cbv beta. intros v a h v1 _ (x1 & h1 & v2 & h2 & -> & (-> & ->) & x2 & h3 & v3 & h4 & -> & (b & -> & ->) & b2 & -> & ->). split.
        { apply (ro_default ifc o r F6 b b2 (str "::/1") (str "8000::/1")); [exact Ea|exact F6r|exact Ed|reflexivity]. }
        assert (Y : routes_all_of o F6 [r]) by (split; [exact Ea|]; exists r; split; [left; reflexivity|auto]).
        assert (N : ~ routes_all_of o F4 [r]). { intros (_ & x & [<-|[]] & _ & K). exact (K F6r). }
        unfold flags, with_auto6. cbn [v_dns v_auto4 v_auto6 v_gw4 v_gw6 v_eps v_tmp]. repeat split; try tauto. 
    + assert (F4r : fits F4 r) by (cbn [fits]; rewrite <- has_colon; congruence).
      eapply goes_conseq; [apply goes_thn; [apply goes_put; intro v; split; reflexivity|intro u1; apply goes_thn; [apply goes_must; [apply (not_excused_route _ (str "-interface") _ _ []); discriminate|reflexivity]|
        intro u2; apply goes_must; [apply (not_excused_route _ (str "-interface") _ _ []); discriminate|reflexivity]|]|]|].
      * cbv beta. intros v a h v1 Hv (b & _ & ->). exact Hv.
      * cbv beta. intros v a h v1 Hv (_ & ->). exact Hv.
      * cbv beta. intros v a h v1 _ (x1 & h1 & v2 & h2 & -> & (-> & ->) & x2 & h3 & v3 & h4 & -> & (b & -> & ->) & b2 & -> & ->). split.
        { apply (ro_default ifc o r F4 b b2 (str "0.0.0.0/1") (str "128.0.0.0/1")); [exact Ea|exact F4r|exact Ed|reflexivity]. }
        assert (Y : routes_all_of o F4 [r]) by (split; [exact Ea|]; exists r; split; [left; reflexivity|auto]).
        assert (N : ~ routes_all_of o F6 [r]). { intros (_ & x & [<-|[]] & _ & K). exact (F4r K). }
        unfold flags, with_auto4. cbn [v_dns v_auto4 v_auto6 v_gw4 v_gw6 v_eps v_tmp]. repeat split; try tauto.
  - assert (Nd : ~ is_default r) by (rewrite <- default_iff; congruence). rewrite Ef.
    assert (Fl : forall v, flags [r] v v) by (intro v; apply flags_same; intros g (_ & D & _); exact (Nd D)).
    set (D2 := fun (out : list Z) (v : vars) (_ : unit) (h : history) (v1 : vars) => (somewhere (named_pattern ifc) out = true /\ h = [] \/ somewhere (named_pattern ifc) out = false /\ exists b, h = [(via_interface f r ifc, b)]) /\ v1 = v).
    eapply goes_conseq; [eapply (goes_thn _ _ _ _ _ _ _ _ D2); [apply goes_ask; [left; left; exists (words_of ["route"; "-n"; "get"]%string); split; [vm_compute; tauto|reflexivity]|reflexivity]| |]|].
    + intro out. unfold D2. destruct (somewhere (named_pattern ifc) out).
      * eapply goes_conseq; [apply goes_pure|]. cbv beta. intros v a h v1 _ (_ & -> & ->). auto.
      * eapply goes_conseq; [apply goes_must; [apply (not_excused_route _ (str "-interface") _ _ []); discriminate|reflexivity]|]. cbv beta. intros v a h v1 _ (b & -> & ->). split; [right; split; [reflexivity|exists b; reflexivity]|reflexivity].
    + cbv beta. intros v a h v1 Hv (b & _ & _ & ->). exact Hv.
    + cbv beta. unfold D2. intros v a h v1 _ (out & h1 & v2 & h2 & -> & (b & -> & -> & ->) & [(Em & ->)|(Em & c & ->)] & ->); (split; [|apply Fl]).
      * apply ro_there; [exact Ea|exact F|exact Nd|]. intro L. apply named_literal; assumption.
      * apply ro_add; [exact Ea|exact F|exact Nd|]. intros L K. apply named_literal in K; [congruence|exact L].
Qed.
Lemma flags_cons : forall r rs v v1 v2, flags [r] v v1 -> flags rs v1 v2 -> flags (r :: rs) v v2.
Proof.
  intros r rs v v1 v2 (A1 & A2 & A3 & A4 & A5 & A6 & A7) (B1 & B2 & B3 & B4 & B5 & B6 & B7). unfold flags. repeat (split; [congruence|]).
  assert (K : forall f, routes_all_of o f (r :: rs) <-> routes_all_of o f [r] \/ routes_all_of o f rs).
  { intro f. unfold routes_all_of. cbn [In]. split.
    - intros (A & x & [<-|Hi] & H); [left|right]; (split; [exact A|]); [exists r|exists x]; auto.
    - intros [(A & x & [<-|[]] & H)|(A & x & Hi & H)]; (split; [exact A|]); [exists r|exists x]; auto. }
  rewrite (K F4), (K F6), B6, B7, A6, A7. tauto.
Qed.
Lemma goes_all_routes : forall rs, goes (each (add_route sys ifc o) rs) (fun v _ h v1 => route_all ifc o rs h /\ flags rs v v1).
Proof.
  induction rs as [|r rs IH]; cbn [each].
  - eapply goes_conseq; [apply goes_pure|]. cbv beta. intros v a h v1 _ (_ & -> & ->). split; [constructor|]. assert (X : forall f, ~ routes_all_of o f []) by (intros f (_ & x & [] & _)).
    pose proof (X F4). pose proof (X F6). unfold flags. repeat split; tauto.
  - eapply goes_conseq; [apply goes_thn; [apply goes_route|intro u1; apply IH|]|].
    + cbv beta. intros v a h v1 Hv (_ & Fl). destruct Fl as (_ & _ & _ & _ & E & _). congruence.
    + cbv beta. intros v a h v1 _ (x1 & h1 & v2 & h2 & -> & (R1 & F1) & R2 & F2). split; [constructor; assumption|]. eapply flags_cons; eassumption.
Qed.
Definition listing (rs : list (list Z)) (h : history) : Prop := exists a b,
  h = [(show_aips ifc, a); (sort_command (unlines (route_lines glob (read_complete (a_output a)))), b)] /\ rs = expand glob (captured (a_output b)).
Lemma goes_routes : goes (add_routes sys glob ifc o) (fun v _ h v1 => exists rs h1 h2, h = h1 ++ h2 /\ listing rs h1 /\ route_all ifc o rs h2 /\ flags rs v v1).
Proof.
  unfold add_routes. eapply goes_conseq; [apply goes_thn; [apply goes_feed; [asks|reflexivity]|intro out; apply goes_thn; [apply goes_ask_call; [asks|intros t E; discriminate (f_equal c_argv E)]|intro b; apply goes_all_routes|]|]|].
  - cbv beta. intros v a h v1 Hv (_ & ->). exact Hv.
  - cbv beta. intros v a h v1 Hv (r & _ & _ & ->). exact Hv.
  - cbv beta. intros v a h v1 _ (out & h1 & v2 & h2 & -> & (r & -> & -> & ->) & b & h3 & v3 & h4 & -> & (-> & ->) & R & Fl).
    eexists _, _, h4. split; [cbn [app]; apply (app_comm_cons [_] h4 _)|]. split; [|split; [exact R|exact Fl]]. exists r, b. split; reflexivity.
Qed.
End Up.
