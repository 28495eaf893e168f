(** Proofs about wg-quick on macOS: saving, and taking the interface down. *)
From Coq Require Import String ZArith List Bool Lia.
From Verif Require Import Base Cstr CstrProofs Bash Quick QuickRun QuickSpec QuickRunSpec QuickReloadSpec QuickRouteSpec QuickMain QuickSave Sh ShGoes BsdRoutes BsdRoutesSpec
  BsdRoutesProofs BsdRoutesProofs2 BsdRoutesProofs3 PropQuickReload FreeQuick DarQuick DarSpec DarProofs DarProofs2.
From Verif Require FreeSpec FreeProofs FreeProofs2 FreeProofs6 OpenSpec OpenProofs3 OpenProofs4 QuickUpProofs PropQuickMtu.
Import ListNotations.
Open Scope Z_scope.

(** ** Traps *)
Lemma closed_trap : forall (B as_1 : command -> Prop) (P : history -> Prop) (v : vars) st0 cl st, (forall h, P h -> Forall (fun ev => ~ as_1 (fst ev)) h) ->
  closed B as_1 (fun v (_ : unit) h v1 => P h /\ v1 = v) no_G v st0 cl st -> trap B P st0 cl st.
Proof.
  intros B as_1 P v st0 cl st N [(F & -> & v1 & X & _)|[(_ & v1 & [])|[(h & ev & -> & F & Br & q & [(a & v1 & X & _)|(a & v1 & [])])|(h & ev & -> & F & S & q & [(a & v1 & X & _)|(a & v1 & [])])]]].
  - left. auto.
  - right. exists h, ev. split; [reflexivity|]. rewrite <- app_assoc in X. cbn [app] in X. split; [split; [exact F|exists q; exact X]|]. left. destruct Br as (B1 & B2 & B3 & B4). split; [exact B1|]. split; [exact B2|]. split; [exact B3|].
    destruct B4 as [B4|[B4 _]]; [exact B4|]. exfalso. specialize (N _ X). apply Forall_app in N as [_ N]. inversion N; subst. contradiction.
  - right. exists h, ev. split; [reflexivity|]. rewrite <- app_assoc in X. cbn [app] in X. split; [split; [exact F|exists q; exact X]|]. right. exact S.
Qed.

(** ** What is saved *)
Definition mark_at (s : list Z) : Prop := exists m c w, s = m ++ c :: w /\ marks m /\ c <> 32.
Lemma at_here : forall s,
  match (match strip_prefix !"inet " s with Some r => Some r | None => strip_prefix !"inet6 " s end) with
  | Some r => match take_while (fun c => negb (c =? 32)) r with
              | [] => ~ mark_at s
              | g => exists m w, s = m ++ g ++ w /\ marks m /\ ~ In 32 g /\ forall x w', w = x :: w' -> x = 32
              end
  | None => ~ mark_at s
  end.
Proof.
  intro s. set (q := match strip_prefix !"inet " s with Some r => Some r | None => strip_prefix !"inet6 " s end).
  assert (Q : match q with Some r => exists m, marks m /\ s = m ++ r | None => forall m r, marks m -> s <> m ++ r end).
  { unfold q. destruct (strip_prefix !"inet " s) as [r|] eqn:E1; [apply QuickUpProofs.strip_prefix_some in E1; exists (str "inet "); split; [left; reflexivity|exact E1]|].
    destruct (strip_prefix !"inet6 " s) as [r|] eqn:E2; [apply QuickUpProofs.strip_prefix_some in E2; exists (str "inet6 "); split; [right; reflexivity|exact E2]|].
    intros m r [-> | ->] E; apply QuickUpProofs.strip_prefix_some in E; congruence. }
  assert (U : forall m m' r r', marks m -> marks m' -> m ++ r = m' ++ r' -> r = r').
  { intros m m' r r' [-> | ->] [-> | ->] E; try (apply app_inv_head in E; exact E); discriminate E. }
  destruct q as [r|]; [|intros (m & c & w & E & M & _); exact (Q m (c :: w) M E)]. destruct Q as (m & M & Es).
  assert (F : forall c, negb (c =? 32) = true <-> c <> 32) by (intro c; rewrite negb_true_iff; apply Z.eqb_neq).
  destruct (PropQuickMtu.take_while_spec (fun c => negb (c =? 32)) (fun c => c <> 32) F r) as (b & Er & A & N).
  destruct (take_while _ r) as [|g0 g1].
  - intros (m' & c & w & E & M' & Nc). rewrite E in Es. pose proof (U _ _ _ _ M' M Es) as X. cbn [app] in Er. rewrite <- X in Er. symmetry in Er. exact (N c w Er Nc).
  - exists m, b. rewrite <- Er. split; [exact Es|]. split; [exact M|]. split; [intro K; rewrite Forall_forall in A; exact (A 32 K eq_refl)|]. intros x w' E. destruct (Z.eq_dec x 32) as [X|X]; [exact X|destruct (N x w' E X)].
Qed.
Lemma inet_address_spec : forall l, match inet_address l with Some a => address_line l a | None => forall u s, l = u ++ s -> ~ mark_at s end.
Proof.
  assert (Near : forall l a m w, l = m ++ a ++ w -> marks m -> a <> [] -> ~ In 32 a -> (forall x w', w = x :: w' -> x = 32) -> address_line l a).
  { intros l a m w E M Na Ni W. exists [], m, w. split; [exact E|]. split; [exact M|]. split; [exact Na|]. split; [exact Ni|]. split; [exact W|]. intros u' m' c w' _ _ _. cbn [length]. lia. }
  assert (Far : forall x l a, ~ mark_at (x :: l) -> address_line l a -> address_line (x :: l) a).
  { intros x l a N (u & m & w & E & M & Na & Ni & W & K). exists (x :: u), m, w. split; [cbn [app]; rewrite E; reflexivity|]. split; [exact M|]. split; [exact Na|]. split; [exact Ni|]. split; [exact W|].
    intros u' m' c w' E' M' Nc. destruct u' as [|y u']; [exfalso; apply N; exists m', c, w'; auto|]. cbn [app length] in *. assert (E2 : l = u' ++ m' ++ c :: w') by congruence. specialize (K _ _ _ _ E2 M' Nc). lia. }
  induction l as [|x l IH]; cbn [inet_address]; pose proof (at_here []) as H0.
  - destruct (match strip_prefix !"inet " [] with Some r => Some r | None => strip_prefix !"inet6 " [] end) as [r|]; [|intros u s E; destruct u, s; try discriminate E; exact H0].
    destruct (take_while _ r) as [|g0 g1]; [intros u s E; destruct u, s; try discriminate E; exact H0|]. destruct H0 as (m & w & E & M & Ni & W). eapply Near; eauto. discriminate.
  - clear H0. pose proof (at_here (x :: l)) as H0.
    assert (Next : ~ mark_at (x :: l) -> match inet_address l with Some a => address_line (x :: l) a | None => forall u s, x :: l = u ++ s -> ~ mark_at s end).
    { intro N. destruct (inet_address l) as [a|]; [apply Far; assumption|]. intros u s E. destruct u as [|y u]; [cbn [app] in E; rewrite <- E; exact N|]. assert (E2 : l = u ++ s) by (cbn [app] in E; congruence). exact (IH u s E2). }
    destruct (match strip_prefix !"inet " (x :: l) with Some r => Some r | None => strip_prefix !"inet6 " (x :: l) end) as [r|]; [|exact (Next H0)].
    destruct (take_while _ r) as [|g0 g1]; [exact (Next H0)|]. destruct H0 as (m & w & E & M & Ni & W). eapply Near; eauto. discriminate.
Qed.
Lemma address_fun : forall l a b, address_line l a -> address_line l b -> a = b.
Proof.
  intros l a b (u & m & w & E & M & Na & Ni & W & K) (u2 & m2 & w2 & E2 & M2 & Na2 & Ni2 & W2 & K2).
  destruct a as [|a0 a1]; [congruence|]. destruct b as [|b0 b1]; [congruence|].
  assert (L1 : (length u2 <= length u)%nat). { apply (K2 u m a0 (a1 ++ w)); [exact E|exact M|]. intro X. apply Ni. left. exact X. }
  assert (L2 : (length u <= length u2)%nat). { apply (K u2 m2 b0 (b1 ++ w2)); [exact E2|exact M2|]. intro X. apply Ni2. left. exact X. }
  rewrite E in E2. assert (X : u = u2 /\ m ++ (a0 :: a1) ++ w = m2 ++ (b0 :: b1) ++ w2).
  { clear - E2 L1 L2. assert (L : length u = length u2) by lia. clear L1 L2. revert E2. generalize (m ++ (a0 :: a1) ++ w) (m2 ++ (b0 :: b1) ++ w2). intros p1 p2 E2. revert u2 E2 L. induction u as [|x u IH]; intros [|y u2] E2 L; try discriminate L; [auto|]. cbn [app] in E2. assert (x = y) by congruence. subst y.
    destruct (IH u2) as [-> Y]; [congruence|cbn [length] in L; lia|]. auto. }
  destruct X as [-> X]. assert (Y : (a0 :: a1) ++ w = (b0 :: b1) ++ w2) by (destruct M as [-> | ->], M2 as [-> | ->]; try (apply app_inv_head in X; exact X); discriminate X).
  revert Y Ni Ni2 W W2. generalize (a0 :: a1) (b0 :: b1). clear. intros a. induction a as [|x a IH]; intros [|y b] Y Ni Ni2 W W2; cbn [app] in Y.
  - reflexivity.
  - exfalso. apply Ni2. left. eapply W. exact Y.
  - exfalso. apply Ni. left. eapply W2. symmetry. exact Y.
  - assert (x = y) by congruence. subst y. f_equal. apply IH; [congruence|intro Q; apply Ni; right; exact Q|intro Q; apply Ni2; right; exact Q|exact W|exact W2].
Qed.
Lemma own_picks : forall ls pre, picks (fun _ => address_line) pre ls (own_addresses ls).
Proof.
  induction ls as [|l ls IH]; intros pre; [constructor|]. unfold own_addresses. cbn [flat_map].
  fold (own_addresses ls). pose proof (inet_address_spec l) as C. destruct (inet_address l) as [a|]; cbn [app].
  - constructor; [exact C|apply IH].
  - apply pk_skip; [|apply IH]. intros v (u & m & w & E & M & Na & Ni & _). destruct v as [|v0 v1]; [congruence|]. apply (C u _ E). exists m, v0, (v1 ++ w). split; [reflexivity|]. split; [exact M|]. intro X. apply Ni. left. exact X.
Qed.
Lemma picks_fun_here : forall ls pre a b, picks (fun _ => address_line) pre ls a -> picks (fun _ => address_line) pre ls b -> a = b.
Proof.
  intros ls pre a b H. revert b. induction H as [pre|pre l ls v vs X H IH|pre l ls vs X H IH]; intros b K; inversion K; subst; try reflexivity.
  - f_equal; [eapply address_fun; eassumption|]. apply IH; assumption.
  - exfalso. match goal with Y : forall v, ~ _ |- _ => eapply Y, X end.
  - exfalso. eapply X. eassumption.
  - apply IH; assumption.
Qed.
Lemma saves_is : forall o amp an ac,
  saves o amp an ac (saved_text amp (new_config o (own_addresses (read_complete (a_output an))) (o_dns o) (match o_mtu o with [] => None | m => Some m end)) (captured (a_output ac))).
Proof.
  intros o amp an ac ls addresses rest H4 Hp Hc Ha. apply FreeProofs6.lines_is in H4. subst ls.
  assert (Ea : own_addresses (read_complete (a_output an)) = addresses) by (eapply picks_fun_here; [apply own_picks|exact Hp]).
  rewrite Ea, FreeProofs6.new_config_is. unfold saved_text. rewrite Hc.
  assert (Ep : (if amp then patsub head_line (unlines (str "[Interface]" :: FreeSpec.own_lines o addresses (o_dns o))) else unlines (str "[Interface]" :: FreeSpec.own_lines o addresses (o_dns o))) = unlines (str "[Interface]" :: FreeSpec.own_lines o addresses (o_dns o))).
  { destruct amp; [|reflexivity]. specialize (Ha eq_refl). apply patsub_id; (apply FreeProofs6.not_in_unlines; [discriminate|]); (constructor; [vm_compute; intuition discriminate|]); (eapply Forall_impl; [|exact Ha]); intros l [U1 U2]; assumption. }
  rewrite Ep. unfold head_line. set (new := unlines _).
  assert (Er : forall n r, replace_first (str "[Interface]" ++ [10]) n (str "[Interface]" ++ [10] ++ r) = n ++ r).
  { intros n r. change (str "[Interface]" ++ [10] ++ r) with ((str "[Interface]" ++ [10]) ++ r). vm_compute. reflexivity. }
  rewrite Er, <- app_assoc. reflexivity.
Qed.

Section Down.
Variables (sys : system) (ifc : list Z) (o : options) (conf : list Z) (amp : bool) (ri : list Z).
Notation as_1 := (OpenSpec.swaps conf).
Notation goes := (ShGoes.goes bears (OpenSpec.swaps conf)).
Notation go := (ShGoes.go bears (OpenSpec.swaps conf)).
Notation sample := OpenProofs3.sample.
Lemma flip_if : forall (b : bool) A (x y : A), (if negb b then x else y) = (if b then y else x).
Proof. intros [] A x y; reflexivity. Qed.
Definition prepared (r : list Z * list Z) (h : history) : Prop := exists an au b0 ac,
  h = [(list_addresses ri, an); (argv [str "umask"], au); (argv [str "umask"; str "077"], b0); (FreeSpec.showconf ri, ac)] /\
  fst r = captured (a_output au) /\ saves o amp an ac (snd r).
Lemma go_prepare : goes (DarQuick.prepare sys o amp ri) (fun v r h v1 => prepared r h /\ v1 = v).
Proof.
  unfold DarQuick.prepare. set (t := fun out c => saved_text amp (new_config o (own_addresses (read_complete out)) (o_dns o) (match o_mtu o with [] => None | m => Some m end)) c).
  eapply goes_conseq; [apply goes_thn; [apply go_feed; left; left; right; left; exists ri; reflexivity|intro out; apply goes_thn; [apply go_ask; left; left; right; right; reflexivity|intro old; apply goes_thn; [apply go_must; apply not_bears_umask|intro u;
      eapply (go_ext _ _ _ (a <~ call sys (argv [!"wg"; !"showconf"; ri]) ;; if a_status a =? 0 then pure (old, t out (captured (a_output a))) else quit (a_status a)));
      [intro s; unfold thn; destruct (call sys _ s); try reflexivity; rewrite flip_if; reflexivity|
       apply (go_call_val vars bears as_1 sys _ _ a_status (fun a => (old, t out (captured (a_output a))))); [apply not_bears_wg; discriminate|auto]]]]]|].
  cbv beta. intros v a h v1 (out & h1 & v2 & h2 & -> & (an & -> & -> & ->) & old & h3 & v3 & h4 & -> & (au & -> & -> & ->) & u & h5 & v5 & h6 & -> & (b0 & -> & ->) & ac & -> & -> & ->). split; [|reflexivity].
  exists an, au, b0, ac. split; [reflexivity|]. split; [reflexivity|]. cbn [snd]. apply saves_is.
Qed.
Definition replaced (text : list Z) (h : history) : Prop := exists bw bs bm,
  h = [(mk_cmd [str ">"; conf ++ str ".tmp"] text, bw); (argv [str "sync"; conf ++ str ".tmp"], bs); (argv [str "mv"; conf ++ str ".tmp"; conf], bm)].
Lemma go_replace : forall text, goes (FreeQuick.replace_file sys conf text) (fun v _ h v1 => replaced text h /\ v1 = v).
Proof.
  intro text. eapply (go_ext bears as_1 _ ((w <~ call sys (mk_cmd [!">"; tmp_file conf] text) ;; if a_status w =? 0 then pure tt else quit 1) ;~ must sys [!"sync"; tmp_file conf] ;~
    (m <~ call sys (argv [!"mv"; tmp_file conf; conf]) ;; if a_status m =? 0 then pure tt else quit 1))).
  - intro s. unfold FreeQuick.replace_file, thn. destruct (call sys _ s) as [w s1|st s1|st s1|s1]; try reflexivity. destruct (a_status w =? 0); [|reflexivity]. cbn [negb]. change (@pure vars unit tt s1) with (Fin tt s1). cbv iota.
    destruct (must sys _ s1) as [u s2|st s2|st s2|s2]; try reflexivity. destruct (call sys _ s2) as [m s3|st s3|st s3|s3]; try reflexivity. rewrite flip_if. reflexivity.
  - eapply goes_conseq; [apply goes_thn; [apply (go_call_val vars bears as_1 sys _ _ (fun _ => 1) (fun _ => tt)); [nb|intros a _; right; split; [left; exists text; reflexivity|reflexivity]]|intro u; apply goes_thn; [apply go_must; nb|intro u2;
      apply (go_call_val vars bears as_1 sys _ _ (fun _ => 1) (fun _ => tt)); [nb|intros a _; right; split; [right; reflexivity|reflexivity]]]]|].
    cbv beta. intros v a h v1 (u & h1 & v2 & h2 & -> & (bw & -> & _ & ->) & u2 & h3 & v3 & h4 & -> & (bs & -> & ->) & bm & -> & _ & ->). split; [|reflexivity]. exists bw, bs, bm. reflexivity.
Qed.
Lemma go_rm : goes (must sys [!"rm"; !"-f"; tmp_file conf]) (fun (v : vars) _ h v1 => OpenSpec.removes_temp conf h /\ v1 = v).
Proof. eapply goes_conseq; [apply go_must; nb|]. cbv beta. intros v a h v1 (b & -> & ->). split; [exists b; reflexivity|reflexivity]. Qed.
Lemma rm_not_swap : forall h, OpenSpec.removes_temp conf h -> Forall (fun ev => ~ OpenSpec.swaps conf (fst ev)) h.
Proof. intros h (a & ->). constructor; [|constructor]. intros [(t & E)|E]; apply (f_equal c_argv) in E; discriminate E. Qed.

(** ** Commands that do not replace the file *)
Definition not_replacing (h : history) : Prop := Forall (fun ev : event => ~ OpenSpec.replacing conf (fst ev)) h.
Lemma nr_word : forall w ws i, w <> str ">" -> w <> str "sync" -> w <> str "mv" -> ~ OpenSpec.replacing conf (mk_cmd (w :: ws) i).
Proof. intros w ws i N1 N2 N3 [[(t & E)|E]|E]; apply (f_equal c_argv) in E; cbn [c_argv argv] in E; congruence. Qed.
Lemma nr_mid : forall h1 ev h2, not_replacing (h1 ++ ev :: h2) -> ~ OpenSpec.replacing conf (fst ev).
Proof. intros h1 ev h2 H. apply Forall_app in H as [_ H]. inversion H; assumption. Qed.
Ltac nrw := constructor; [apply nr_word; discriminate|].
Lemma nr_prepared : forall r h, prepared r h -> not_replacing h.
Proof. intros r h (an & au & b0 & ac & -> & _). unfold list_addresses, FreeSpec.showconf. nrw. nrw. nrw. nrw. constructor. Qed.
Lemma nr_hooks : forall l h, OpenSpec.hooks ri ifc l h -> not_replacing h.
Proof.
  intros l h (ts & _ & E). revert ts E. induction h as [|ev h IH]; intros ts E; [constructor|]. destruct ts as [|t ts]; [discriminate E|]. cbn [map] in E. assert (E0 : fst ev = run_hook t) by congruence. assert (E1 : map fst h = map run_hook ts) by congruence.
  constructor; [rewrite E0; apply nr_word; discriminate|eapply IH, E1].
Qed.

(** ** Saving, and what follows *)
Section Save.
Variable rest : act vars unit.
Variable R : history -> Prop.
Hypothesis go_rest : goes rest (fun v _ h v1 => R h /\ v1 = v).
Hypothesis R_nr : forall h, R h -> not_replacing h.
Definition whole (h : history) : Prop := exists h1 h2, h = h1 ++ h2 /\ saving_steps ri o conf amp h1 /\ R h2.
Definition save_ends (h : history) (st : Z) : Prop :=
  (exists h1 h2, h = h1 ++ h2 /\ saving_steps ri o conf amp h1 /\ R h2 /\ Forall fine_b h /\ st = 0) \/
  (exists fwd ev cl st0, h = fwd ++ ev :: cl /\ breaks_off bears whole fwd ev /\ fails_saving conf ev st0 /\ swept conf (fst ev) st0 cl st) \/
  (exists fwd ev cl st0, h = fwd ++ ev :: cl /\ breaks_off bears whole fwd ev /\ a_signal (snd ev) = Some st0 /\ swept_twice conf (fst ev) st0 cl st).
Lemma some_R : exists h, R h.
Proof. destruct (proj1 go_rest vars0) as (q & [(a & v1 & X & _)|(st & v1 & [])]). exists q. exact X. Qed.
Lemma some_replaced : forall t, exists h, replaced t h.
Proof. intro t. exists [(mk_cmd [str ">"; conf ++ str ".tmp"] t, sample); (argv [str "sync"; conf ++ str ".tmp"], sample); (argv [str "mv"; conf ++ str ".tmp"; conf], sample)], sample, sample, sample. reflexivity. Qed.
Lemma steps_of : forall r h1 h2 b, prepared r h1 -> replaced (snd r) h2 -> saving_steps ri o conf amp (h1 ++ h2 ++ [(argv [str "umask"; fst r], b)]).
Proof. intros r h1 h2 b (an & au & b0 & ac & -> & Ef & S) (bw & bs & bm & ->). exists an, au, b0, ac, (snd r), bw, bs, bm, b. rewrite Ef. split; [reflexivity|exact S]. Qed.
Lemma all_replacing : forall t h, replaced t h -> Forall (fun ev => OpenSpec.replacing conf (fst ev)) h.
Proof.
  intros t h (bw & bs & bm & ->). constructor; [left; left; exists t; reflexivity|]. constructor; [right; reflexivity|]. constructor; [left; right; reflexivity|constructor].
Qed.
Lemma save_cases : forall s st H, DarQuick.save_config sys o conf amp ri rest s = (Some st, H) -> exists h, H = s_hist s ++ h /\ save_ends h st.
Proof.
  intros s st H E. unfold DarQuick.save_config in E.
  destruct some_R as [hr Hr].
  apply (no_trap_cases vars bears as_1 _ _ _ _ _ _ _ _ go_prepare) in E as [(r & s1 & h1 & E1 & F1 & (P & V1) & E)|(h & -> & X)].
  2:{ exists h. split; [reflexivity|].
      assert (B : forall p q, ((exists (a : list Z * list Z) v1, (prepared a (p ++ q)) /\ v1 = s_vars s) \/ (exists (st : Z) (v1 : vars), False)) -> (exists rest, whole (p ++ rest)) /\ not_replacing (p ++ q)).
      { intros p q [(r & v1 & P & _)|(st1 & v1 & [])].
        split; [|eapply nr_prepared, P]. destruct (some_replaced (snd r)) as [h2 R2]. exists (q ++ h2 ++ [(argv [str "umask"; fst r], sample)] ++ hr). exists ((p ++ q) ++ h2 ++ [(argv [str "umask"; fst r], sample)]), hr.
          rewrite <- !app_assoc. split; [reflexivity|]. split; [|exact Hr]. rewrite !app_assoc. rewrite <- (app_assoc (p ++ q)). apply steps_of; assumption. }
      destruct X as [[(F & v1 & [])|(h1 & ev & -> & F & Br & q & X)]|(h1 & ev & -> & F & Sg & q & X)].
      - right. left. apply B in X as [(rr & W) Nr]. rewrite <- app_assoc in W, Nr. cbn [app] in W, Nr. exists h1, ev, [], st. split; [reflexivity|]. split; [split; [exact F|exists rr; exact W]|].
        split; [exact Br|]. right. split; [eapply nr_mid, Nr|auto].
      - right. right. apply B in X as [(rr & W) Nr]. rewrite <- app_assoc in W, Nr. cbn [app] in W, Nr. exists h1, ev, [], st. split; [reflexivity|]. split; [split; [exact F|exists rr; exact W]|].
        split; [exact Sg|]. right. split; [eapply nr_mid, Nr|auto]. }
  assert (B : forall p q (a v1 : vars), replaced (snd r) (p ++ q) /\ v1 = a -> (exists rest, whole (h1 ++ p ++ rest)) /\ Forall (fun ev => OpenSpec.replacing conf (fst ev)) (p ++ q)).
  { intros p q a v1 [P2 _]. split; [|eapply all_replacing, P2]. exists (q ++ [(argv [str "umask"; fst r], sample)] ++ hr). exists (h1 ++ (p ++ q) ++ [(argv [str "umask"; fst r], sample)]), hr.
    rewrite <- !app_assoc. split; [reflexivity|]. split; [|exact Hr]. rewrite (app_assoc p). apply steps_of; assumption. }
  apply (region_cases vars bears as_1 _ _ _ _ _ _ _ _ _ _ _ (go_replace (snd r)) go_rm) in E as [(u & s2 & h2 & E2 & F2 & (P2 & V2) & E)|[(h & st0 & v1 & cl & -> & X & C)|(h & st0 & v1 & v2 & c1 & c2 & st1 & -> & X & C1 & C2)]].
  2:{ destruct X as [(_ & v' & [])|(h2 & ev & -> & F & Br & q & [(a & v' & X)|(a & v' & [])])]. apply B in X as [(rr & W) Rp]. exists (h1 ++ h2 ++ ev :: cl). rewrite E1, <- !app_assoc. split; [reflexivity|].
      right. left. exists (h1 ++ h2), ev, cl, st0. rewrite <- !app_assoc. split; [reflexivity|]. rewrite <- !app_assoc in W, Rp. cbn [app] in W, Rp. split; [split; [apply Forall_app; auto|exists rr; rewrite <- app_assoc; exact W]|].
      split; [exact Br|]. left. split; [apply Forall_app in Rp as [_ Rp]; inversion Rp; assumption|]. eapply closed_trap; [exact rm_not_swap|exact C]. }
  2:{ destruct X as (h2 & ev & -> & F & Sg & q & [(a & v' & X)|(a & v' & [])]). apply B in X as [(rr & W) Rp]. exists (h1 ++ h2 ++ ev :: c1 ++ c2). rewrite E1, <- !app_assoc. split; [reflexivity|].
      right. right. exists (h1 ++ h2), ev, (c1 ++ c2), st0. rewrite <- !app_assoc. split; [reflexivity|]. rewrite <- !app_assoc in W, Rp. cbn [app] in W, Rp. split; [split; [apply Forall_app; auto|exists rr; rewrite <- app_assoc; exact W]|].
      split; [exact Sg|]. left. split; [apply Forall_app in Rp as [_ Rp]; inversion Rp; assumption|]. exists c1, c2, st1. split; [reflexivity|]. split; (eapply closed_trap; [exact rm_not_swap|eassumption]). }
  assert (Gl : goes (must sys [!"umask"; fst r] ;~ rest) (fun v (_ : unit) h v1 => (exists b h', h = (argv [str "umask"; fst r], b) :: h' /\ R h') /\ v1 = v)).
  { eapply goes_conseq; [apply goes_thn; [apply go_must; apply not_bears_umask|intro; apply go_rest]|]. cbv beta. intros v a h v1 (u' & h3 & v2 & h4 & -> & (b & -> & ->) & Rh & ->). split; [|reflexivity]. exists b, h4. auto. }
  assert (B3 : forall (p q : list event) b (h' : list event), p ++ q = (argv [str "umask"; fst r], b) :: h' -> R h' -> (exists rest : list event, whole ((h1 ++ h2) ++ p ++ rest)) /\ not_replacing (p ++ q)).
  { intros p q b h' Ep Rh. split; [|rewrite Ep; constructor; [apply nr_word; discriminate|apply R_nr, Rh]]. exists q. exists (h1 ++ h2 ++ [(argv [str "umask"; fst r], b)]), h'. rewrite Ep, <- !app_assoc. split; [reflexivity|].
    split; [apply steps_of; assumption|exact Rh]. }
  apply (no_trap_cases vars bears as_1 _ _ _ _ _ _ _ _ Gl) in E as [(u2 & s3 & h3 & E3 & F3 & ((b & h' & -> & Rh) & V3) & E)|(h & -> & X)].
  - assert (Es : st = 0 /\ H = s_hist s3) by (split; congruence). destruct Es as [-> ->]. exists ((h1 ++ h2 ++ [(argv [str "umask"; fst r], b)]) ++ h'). rewrite E3, E2, E1, <- !app_assoc. split; [reflexivity|]. left.
    exists (h1 ++ h2 ++ [(argv [str "umask"; fst r], b)]), h'. split; [rewrite <- ?app_assoc; reflexivity|]. split; [apply steps_of; assumption|]. split; [exact Rh|]. split; [|reflexivity]. rewrite <- ?app_assoc.
    apply Forall_app. split; [exact F1|]. apply Forall_app. split; [exact F2|exact F3].
  - exists ((h1 ++ h2) ++ h). rewrite E2, E1, <- !app_assoc. split; [reflexivity|].
    destruct X as [[(_ & v1 & [])|(h3 & ev & -> & F & Br & q & [(a & v1 & (b & h' & Ep & Rh) & _)|(a & v1 & [])])]|(h3 & ev & -> & F & Sg & q & [(a & v1 & (b & h' & Ep & Rh) & _)|(a & v1 & [])])].
    + right. left. destruct (B3 _ _ _ _ Ep Rh) as [(rr & W) Nr]. rewrite <- (app_assoc h3 [ev] rr) in W. rewrite <- !app_assoc in W, Nr. cbn [app] in W, Nr. exists (h1 ++ h2 ++ h3), ev, [], st. rewrite <- !app_assoc. split; [reflexivity|]. split; [split; [rewrite !Forall_app; auto|exists rr; rewrite <- !app_assoc; exact W]|].
      split; [exact Br|]. right. split; [eapply nr_mid, Nr|auto].
    + right. right. destruct (B3 _ _ _ _ Ep Rh) as [(rr & W) Nr]. rewrite <- (app_assoc h3 [ev] rr) in W. rewrite <- !app_assoc in W, Nr. cbn [app] in W, Nr. exists (h1 ++ h2 ++ h3), ev, [], st. rewrite <- !app_assoc. split; [reflexivity|]. split; [split; [rewrite !Forall_app; auto|exists rr; rewrite <- !app_assoc; exact W]|].
      split; [exact Sg|]. right. split; [eapply nr_mid, Nr|auto].
Qed.
End Save.

Definition down_rest_steps (h : history) : Prop := exists d post, h = d ++ post /\ gone ri ifc d /\ OpenSpec.hooks ri ifc (o_postdown o) post.
Hypothesis ri_ne : ri <> [].
Lemma go_down_rest : goes (DarQuick.down_rest sys ifc o ri) (fun v _ h v1 => down_rest_steps h /\ v1 = v).
Proof.
  unfold DarQuick.down_rest. eapply goes_conseq; [eapply (goes_thn _ _ _ _ _ _ _ _ (fun _ v (_ : unit) h v1 => OpenSpec.hooks ri ifc (o_postdown o) h /\ v1 = v)); [apply go_gone, ri_ne|intro; apply go_hooks; first [exact o|exact no_glob|exact (fun _ l => l)]]|].
  cbv beta. intros v a h v1 (u & h1 & v2 & h2 & -> & (G & ->) & H & ->). split; [|reflexivity]. exists h1, h2. auto.
Qed.
Lemma nr_gone : forall h, gone ri ifc h -> not_replacing h.
Proof.
  intros h E. unfold gone in E. destruct h as [|[c a] [|[c2 a2] [|e3 h]]]; try discriminate E. cbn [map fst] in E. assert (E1 : c = remove (FreeSpec.socket_path ri)) by congruence. assert (E2 : c2 = remove (name_path ifc)) by congruence. subst.
  constructor; [apply nr_word; discriminate|]. constructor; [apply nr_word; discriminate|constructor].
Qed.
Lemma nr_down_rest : forall h, down_rest_steps h -> not_replacing h.
Proof. intros h (d & post & -> & G & H). apply Forall_app. split; [apply nr_gone, G|eapply nr_hooks, H]. Qed.
End Down.
