(** Proofs about wg-quick on OpenBSD: saving, and taking the interface down. *)
From Coq Require Import String ZArith List Bool Lia.
From Verif Require Import Base Cstr CstrProofs Bash Quick QuickRun QuickSpec QuickRunSpec QuickReloadSpec QuickRouteSpec QuickMain QuickSave Sh ShGoes BsdRoutes BsdRoutesSpec
  BsdRoutesProofs BsdRoutesProofs2 BsdRoutesProofs3 PropQuickReload FreeQuick OpenQuick OpenSpec OpenProofs OpenProofs2 OpenProofs3.
From Verif Require FreeSpec FreeProofs FreeProofs2 FreeProofs6 PropQuickFirewall QuickUpProofs.
Import ListNotations.
Open Scope Z_scope.

(** ** Traps *)
Lemma closed_trap : forall (as_1 : command -> Prop) (P : history -> Prop) (v : vars) st0 cl st, (forall h, P h -> Forall (fun ev => ~ as_1 (fst ev)) h) ->
  closed bears as_1 (fun v (_ : unit) h v1 => P h /\ v1 = v) no_G v st0 cl st -> trap P st0 cl st.
Proof.
  intros as_1 P v st0 cl st N [(F & -> & v1 & X & _)|[(_ & v1 & [])|[(h & ev & -> & F & B & q & [(a & v1 & X & _)|(a & v1 & [])])|(h & ev & -> & F & S & q & [(a & v1 & X & _)|(a & v1 & [])])]]].
  - left. auto.
  - right. exists h, ev. split; [reflexivity|]. rewrite <- app_assoc in X. cbn [app] in X. split; [split; [exact F|exists q; exact X]|]. left. destruct B as (B1 & B2 & B3 & B4). split; [exact B1|]. split; [exact B2|]. split; [exact B3|].
    destruct B4 as [B4|[B4 _]]; [exact B4|]. exfalso. specialize (N _ X). apply Forall_app in N as [_ N]. inversion N; subst. contradiction.
  - right. exists h, ev. split; [reflexivity|]. rewrite <- app_assoc in X. cbn [app] in X. split; [split; [exact F|exists q; exact X]|]. right. exact S.
Qed.

(** ** What is saved *)
Lemma own_picks : forall ls pre, Forall (fun l => ~ In 10 l) ls -> picks (fun _ => address_line) pre ls (own_addresses ls).
Proof.
  induction ls as [|l ls IH]; intros pre N; [constructor|]. inversion N as [|? ? N0 N1]; subst. unfold own_addresses. cbn [flat_map].
  fold (own_addresses ls). pose proof (words_columns l N0) as C. destruct (contains !"Link" (field 2 l)) eqn:E; cbn [app].
  - apply pk_skip; [|apply IH, N1]. intros v (ws & Cw & No & _). apply No. rewrite <- (columns_words l ws N0 Cw). apply PropQuickFirewall.contains_iff. exact E.
  - constructor; [|apply IH, N1]. exists (words l). split; [exact C|]. split; [|reflexivity]. intro O. apply PropQuickFirewall.contains_iff in O. unfold field in E. congruence.
Qed.
Lemma address_fun : forall l a b, ~ In 10 l -> address_line l a -> address_line l b -> a = b.
Proof. intros l a b N (ws & C & _ & ->) (ws' & C' & _ & ->). apply (columns_words l ws N) in C. apply (columns_words l ws' N) in C'. congruence. Qed.
Lemma complete_newline : forall out ls, complete_lines out ls -> Forall (fun l => ~ In 10 l) ls.
Proof.
  intros out ls (full & re & _ & F & _ & T). induction T as [|f l fs ls (p & q & -> & _ & _ & _) T IH]; [constructor|]. inversion F as [|? ? Ff Ffs]; subst.
  constructor; [|exact (IH Ffs)]. intro K. apply Ff. apply in_or_app. right. apply in_or_app. left. exact K.
Qed.
Lemma picks_fun_here : forall ls pre a b, Forall (fun l => ~ In 10 l) ls -> picks (fun _ => address_line) pre ls a -> picks (fun _ => address_line) pre ls b -> a = b.
Proof.
  intros ls pre a b N H. revert b N. induction H as [pre|pre l ls v vs X H IH|pre l ls vs X H IH]; intros b N K; inversion K; subst; try reflexivity.
  - inversion N; subst. f_equal; [eapply address_fun; eassumption|]. apply IH; assumption.
  - exfalso. match goal with Y : forall v, ~ _ |- _ => eapply Y, X end.
  - exfalso. eapply X. eassumption.
  - inversion N; subst. apply IH; assumption.
Qed.
Lemma saves_is : forall o amp an ac x ls, read_complete (a_output an) = x :: ls ->
  saves o amp an ac (saved_text amp (new_config o (own_addresses ls) (o_dns o) (match o_mtu o with [] => None | m => Some m end)) (captured (a_output ac))).
Proof.
  intros o amp an ac x0 ls0 E0 x ls addresses rest H4 Hp Hc Ha.
  pose proof (complete_newline _ _ H4) as N. inversion N as [|? ? _ Nl]; subst. apply FreeProofs6.lines_is in H4. assert (ls0 = ls) by congruence. subst ls0.
  assert (Ea : own_addresses ls = addresses) by (eapply picks_fun_here; [exact Nl|apply own_picks, Nl|exact Hp]).
  rewrite Ea, FreeProofs6.new_config_is. unfold saved_text. rewrite Hc.
  assert (Ep : (if amp then patsub head_line (unlines (str "[Interface]" :: FreeSpec.own_lines o addresses (o_dns o))) else unlines (str "[Interface]" :: FreeSpec.own_lines o addresses (o_dns o))) = unlines (str "[Interface]" :: FreeSpec.own_lines o addresses (o_dns o))).
  { destruct amp; [|reflexivity]. specialize (Ha eq_refl). apply patsub_id; (apply FreeProofs6.not_in_unlines; [discriminate|]); (constructor; [vm_compute; intuition discriminate|]); (eapply Forall_impl; [|exact Ha]); intros l [U1 U2]; assumption. }
  rewrite Ep. unfold head_line. set (new := unlines _).
  assert (Er : forall n r, replace_first (str "[Interface]" ++ [10]) n (str "[Interface]" ++ [10] ++ r) = n ++ r).
  { intros n r. change (str "[Interface]" ++ [10] ++ r) with ((str "[Interface]" ++ [10]) ++ r). vm_compute. reflexivity. }
  rewrite Er, <- app_assoc. reflexivity.
Qed.

Section Down.
Variables (sys : system) (ifc : list Z) (o : options) (conf : list Z) (amp : bool) (ri : list Z).
Notation as_1 := (swaps conf).
Notation goes := (ShGoes.goes bears (swaps conf)).
Notation go := (ShGoes.go bears (swaps conf)).
Lemma go_ext : forall A (m m' : act vars A) D G, (forall s, m' s = m s) -> go m D G -> go m' D G.
Proof. intros A m m' D G E [T H]. split; [exact T|]. intros s. rewrite E. exact (H s). Qed.
Lemma flip_if : forall (b : bool) A (x y : A), (if negb b then x else y) = (if b then y else x).
Proof. intros [] A x y; reflexivity. Qed.

Definition prepared (r : list Z * list Z) (h : history) : Prop := exists an au b0 ac,
  h = [(list_addresses ri, an); (argv [str "umask"], au); (argv [str "umask"; str "077"], b0); (FreeSpec.showconf ri, ac)] /\
  ~ complete_lines (a_output an) [] /\ fst r = captured (a_output au) /\ saves o amp an ac (snd r).
Lemma go_prepare : go (OpenQuick.prepare sys o amp ri) (fun v r h v1 => prepared r h /\ v1 = v) (fun v h st v1 => silent ri h /\ st = 1 /\ v1 = v).
Proof.
  unfold OpenQuick.prepare.
  set (L := fun (out : list Z) (v : vars) (l : list (list Z)) (h : history) (v1 : vars) => (exists x, read_complete out = x :: l) /\ h = [] /\ v1 = v).
  set (GL := fun (out : list Z) (v : vars) (h : history) (st : Z) (v1 : vars) => read_complete out = [] /\ h = [] /\ st = 1 /\ v1 = v).
  eapply go_conseq; [apply go_thn; [apply go_feed; asks|intro out; apply (go_thn vars bears as_1 _ _ _ _ (L out) (GL out) (fun ls v r h v1 => (exists au b0 ac, h = [(argv [str "umask"], au); (argv [str "umask"; str "077"], b0); (FreeSpec.showconf ri, ac)] /\
      r = (captured (a_output au), saved_text amp (new_config o (own_addresses ls) (o_dns o) (match o_mtu o with [] => None | m => Some m end)) (captured (a_output ac)))) /\ v1 = v) (fun _ => no_G))]| |].
  - unfold tail_lines, L, GL. destruct (read_complete out) as [|x l].
    + eapply go_conseq; [apply go_quit|intros v a h v1 []|]. cbv beta. intros v h st v1 (-> & -> & ->). auto.
    + eapply go_conseq; [apply go_pure| |intros v h st v1 []]. cbv beta. intros v a h v1 (-> & -> & ->). split; [exists x; reflexivity|auto].
  - intro ls. eapply goes_conseq; [apply goes_thn; [apply go_ask; left; left; right; right; reflexivity|intro old; apply goes_thn; [apply go_must; apply not_bears_umask|intro u;
      eapply (go_ext _ (a <~ call sys (argv [!"wg"; !"showconf"; ri]) ;; if a_status a =? 0 then pure (old, saved_text amp (new_config o (own_addresses ls) (o_dns o) (match o_mtu o with [] => None | m => Some m end)) (captured (a_output a))) else quit (a_status a)));
      [intro s; unfold thn; destruct (call sys _ s); try reflexivity; rewrite flip_if; reflexivity|
       apply (go_call_val vars bears as_1 sys _ _ a_status (fun a => (old, saved_text amp (new_config o (own_addresses ls) (o_dns o) (match o_mtu o with [] => None | m => Some m end)) (captured (a_output a))))); [apply not_bears_wg; discriminate|auto]]]]|].
    cbv beta. intros v a h v1 (old & h1 & v2 & h2 & -> & (au & -> & -> & ->) & u & h3 & v3 & h4 & -> & (b0 & -> & ->) & ac & -> & -> & ->). split; [|reflexivity]. exists au, b0, ac. auto.
  - unfold L. cbv beta. intros v a h v1 (out & h1 & v2 & h2 & -> & (an & -> & -> & ->) & ls & h3 & v3 & h4 & -> & ((x & E) & -> & ->) & (au & b0 & ac & -> & ->) & ->). split; [|reflexivity].
    exists an, au, b0, ac. split; [reflexivity|]. split; [intro K; apply FreeProofs6.lines_is in K; congruence|]. split; [reflexivity|]. cbn [snd]. eapply saves_is. exact E.
  - unfold GL. cbv beta. intros v h st v1 [[]|(out & h1 & v2 & h2 & -> & (an & -> & -> & ->) & [(E & -> & -> & ->)|(ls & h3 & v3 & h4 & _ & _ & [])])]. split; [|auto].
    exists an. split; [reflexivity|]. rewrite <- E. apply read_complete_spec.
Qed.
Definition replaced (text : list Z) (h : history) : Prop := exists bw bs bm,
  h = [(mk_cmd [str ">"; conf ++ str ".tmp"] text, bw); (argv [str "sync"; conf ++ str ".tmp"], bs); (argv [str "mv"; conf ++ str ".tmp"; conf], bm)].
Lemma go_replace : forall text, goes (FreeQuick.replace_file sys conf text) (fun v _ h v1 => replaced text h /\ v1 = v).
Proof.
  intro text. eapply (go_ext _ ((w <~ call sys (mk_cmd [!">"; tmp_file conf] text) ;; if a_status w =? 0 then pure tt else quit 1) ;~ must sys [!"sync"; tmp_file conf] ;~
    (m <~ call sys (argv [!"mv"; tmp_file conf; conf]) ;; if a_status m =? 0 then pure tt else quit 1))).
  - intro s. unfold FreeQuick.replace_file, thn. destruct (call sys _ s) as [w s1|st s1|st s1|s1]; try reflexivity. destruct (a_status w =? 0); [|reflexivity]. cbn [negb]. change (@pure vars unit tt s1) with (Fin tt s1). cbv iota.
    destruct (must sys _ s1) as [u s2|st s2|st s2|s2]; try reflexivity. destruct (call sys _ s2) as [m s3|st s3|st s3|s3]; try reflexivity. rewrite flip_if. reflexivity.
  - eapply goes_conseq; [apply goes_thn; [apply (go_call_val vars bears as_1 sys _ _ (fun _ => 1) (fun _ => tt)); [nb|intros a _; right; split; [left; exists text; reflexivity|reflexivity]]|intro u; apply goes_thn; [apply go_must; nb|intro u2;
      apply (go_call_val vars bears as_1 sys _ _ (fun _ => 1) (fun _ => tt)); [nb|intros a _; right; split; [right; reflexivity|reflexivity]]]]|].
    cbv beta. intros v a h v1 (u & h1 & v2 & h2 & -> & (bw & -> & _ & ->) & u2 & h3 & v3 & h4 & -> & (bs & -> & ->) & bm & -> & _ & ->). split; [|reflexivity]. exists bw, bs, bm. reflexivity.
Qed.
Lemma go_rm : goes (must sys [!"rm"; !"-f"; tmp_file conf]) (fun (v : vars) _ h v1 => removes_temp conf h /\ v1 = v).
Proof. eapply goes_conseq; [apply go_must; nb|]. cbv beta. intros v a h v1 (b & -> & ->). split; [exists b; reflexivity|reflexivity]. Qed.
Lemma rm_not_swap : forall h, removes_temp conf h -> Forall (fun ev => ~ swaps conf (fst ev)) h.
Proof. intros h (a & ->). constructor; [|constructor]. intros [(t & E)|E]; apply (f_equal c_argv) in E; discriminate E. Qed.

(** ** Commands that do not replace the file *)
Definition not_replacing (h : history) : Prop := Forall (fun ev : event => ~ replacing conf (fst ev)) h.
Lemma nr_word : forall w ws i, w <> str ">" -> w <> str "sync" -> w <> str "mv" -> ~ replacing conf (mk_cmd (w :: ws) i).
Proof. intros w ws i N1 N2 N3 [[(t & E)|E]|E]; apply (f_equal c_argv) in E; cbn [c_argv argv] in E; congruence. Qed.
Lemma nr_mid : forall h1 ev h2, not_replacing (h1 ++ ev :: h2) -> ~ replacing conf (fst ev).
Proof. intros h1 ev h2 H. apply Forall_app in H as [_ H]. inversion H; assumption. Qed.
Ltac nrw := constructor; [apply nr_word; discriminate|].
Lemma nr_prepared : forall r h, prepared r h -> not_replacing h.
Proof. intros r h (an & au & b0 & ac & -> & _). unfold list_addresses, FreeSpec.showconf. nrw. nrw. nrw. nrw. constructor. Qed.
Lemma nr_silent : forall h, silent ri h -> not_replacing h.
Proof. intros h (an & -> & _). unfold list_addresses. nrw. constructor. Qed.
Lemma nr_hooks : forall l h, hooks ri ifc l h -> not_replacing h.
Proof.
  intros l h (ts & _ & E). revert ts E. induction h as [|ev h IH]; intros ts E; [constructor|]. destruct ts as [|t ts]; [discriminate E|]. cbn [map] in E. assert (E0 : fst ev = run_hook t) by congruence. assert (E1 : map fst h = map run_hook ts) by congruence.
  constructor; [rewrite E0; apply nr_word; discriminate|eapply IH, E1].
Qed.
Lemma nr_restoring : forall h, restoring ifc ri h -> not_replacing h.
Proof.
  intros h [(a & -> & _)|(a & b & c & -> & _)]; unfold has_copy.
  - nrw. constructor.
  - nrw. constructor; [unfold no_servers, nameservers; destruct ri; apply nr_word; discriminate|]. constructor; [|constructor]. unfold put_back. intros [[(t & E)|E]|E]; apply (f_equal c_argv) in E; cbn [fst c_argv argv] in E; [discriminate E| |discriminate E].
    assert (E1 : copy ifc = conf ++ str ".tmp") by congruence. assert (E2 : conf = str "/etc/resolv.conf") by congruence. rewrite E2 in E1. unfold copy in E1.
    change (str "/etc/resolv.conf.wg-quick-backup.") with (str "/etc/resolv.conf" ++ str ".wg-quick-backup.") in E1. rewrite <- app_assoc in E1. apply app_inv_head in E1. discriminate E1.
Qed.

(** ** Saving, and what follows *)
Section Save.
Variable rest : act vars unit.
Variable R : history -> Prop.
Hypothesis go_rest : goes rest (fun v _ h v1 => R h /\ v1 = v).
Hypothesis R_nr : forall h, R h -> not_replacing h.
Definition whole (h : history) : Prop := (exists h1 h2, h = h1 ++ h2 /\ saving_steps ri o conf amp h1 /\ R h2) \/ silent ri h.
Definition save_ends (h : history) (st : Z) : Prop :=
  (exists h1 h2, h = h1 ++ h2 /\ saving_steps ri o conf amp h1 /\ R h2 /\ Forall fine h /\ st = 0) \/
  (silent ri h /\ Forall fine h /\ st = 1) \/
  (exists fwd ev cl st0, h = fwd ++ ev :: cl /\ breaks_off whole fwd ev /\ fails_saving conf ev st0 /\ swept conf (fst ev) st0 cl st) \/
  (exists fwd ev cl st0, h = fwd ++ ev :: cl /\ breaks_off whole fwd ev /\ a_signal (snd ev) = Some st0 /\ swept_twice conf (fst ev) st0 cl st).
Lemma some_R : exists h, R h.
Proof. destruct (proj1 go_rest vars0) as (q & [(a & v1 & X & _)|(st & v1 & [])]). exists q. exact X. Qed.
Lemma some_replaced : forall t, exists h, replaced t h.
Proof. intro t. exists [(mk_cmd [str ">"; conf ++ str ".tmp"] t, sample); (argv [str "sync"; conf ++ str ".tmp"], sample); (argv [str "mv"; conf ++ str ".tmp"; conf], sample)], sample, sample, sample. reflexivity. Qed.
Lemma steps_of : forall r h1 h2 b, prepared r h1 -> replaced (snd r) h2 -> saving_steps ri o conf amp (h1 ++ h2 ++ [(argv [str "umask"; fst r], b)]).
Proof. intros r h1 h2 b (an & au & b0 & ac & -> & N & Ef & S) (bw & bs & bm & ->). exists an, au, b0, ac, (snd r), bw, bs, bm, b. rewrite Ef. split; [reflexivity|]. split; assumption. Qed.
Lemma all_replacing : forall t h, replaced t h -> Forall (fun ev => replacing conf (fst ev)) h.
Proof.
  intros t h (bw & bs & bm & ->). constructor; [left; left; exists t; reflexivity|]. constructor; [right; reflexivity|]. constructor; [left; right; reflexivity|constructor].
Qed.
Lemma save_cases : forall s st H, OpenQuick.save_config sys o conf amp ri rest s = (Some st, H) -> exists h, H = s_hist s ++ h /\ save_ends h st.
Proof.
  intros s st H E. unfold OpenQuick.save_config in E.
  destruct some_R as [hr Hr].
  apply (no_trap_cases vars bears as_1 _ _ _ _ _ _ _ _ go_prepare) in E as [(r & s1 & h1 & E1 & F1 & (P & V1) & E)|(h & -> & X)].
  2:{ exists h. split; [reflexivity|].
      assert (B : forall p q, ((exists (a : list Z * list Z) v1, (prepared a (p ++ q)) /\ v1 = s_vars s) \/ (exists st (v1 : vars), silent ri (p ++ q) /\ st = 1 /\ v1 = s_vars s)) -> (exists rest, whole (p ++ rest)) /\ not_replacing (p ++ q)).
      { intros p q [(r & v1 & P & _)|(st1 & v1 & P & _)].
        - split; [|eapply nr_prepared, P]. destruct (some_replaced (snd r)) as [h2 R2]. exists (q ++ h2 ++ [(argv [str "umask"; fst r], sample)] ++ hr). left. exists ((p ++ q) ++ h2 ++ [(argv [str "umask"; fst r], sample)]), hr.
          rewrite <- !app_assoc. split; [reflexivity|]. split; [|exact Hr]. rewrite !app_assoc. rewrite <- (app_assoc (p ++ q)). apply steps_of; assumption.
        - split; [exists q; right; exact P|eapply nr_silent, P]. }
      destruct X as [[(F & v1 & S & -> & _)|(h1 & ev & -> & F & Br & q & X)]|(h1 & ev & -> & F & Sg & q & X)].
      - right. left. auto.
      - right. right. left. apply B in X as [(rr & W) Nr]. rewrite <- app_assoc in W, Nr. cbn [app] in W, Nr. exists h1, ev, [], st. split; [reflexivity|]. split; [split; [exact F|exists rr; exact W]|].
        split; [exact Br|]. right. split; [eapply nr_mid, Nr|auto].
      - right. right. right. apply B in X as [(rr & W) Nr]. rewrite <- app_assoc in W, Nr. cbn [app] in W, Nr. exists h1, ev, [], st. split; [reflexivity|]. split; [split; [exact F|exists rr; exact W]|].
        split; [exact Sg|]. right. split; [eapply nr_mid, Nr|auto]. }
  assert (B : forall p q (a v1 : vars), replaced (snd r) (p ++ q) /\ v1 = a -> (exists rest, whole (h1 ++ p ++ rest)) /\ Forall (fun ev => replacing conf (fst ev)) (p ++ q)).
  { intros p q a v1 [P2 _]. split; [|eapply all_replacing, P2]. exists (q ++ [(argv [str "umask"; fst r], sample)] ++ hr). left. exists (h1 ++ (p ++ q) ++ [(argv [str "umask"; fst r], sample)]), hr.
    rewrite <- !app_assoc. split; [reflexivity|]. split; [|exact Hr]. rewrite (app_assoc p). apply steps_of; assumption. }
  apply (region_cases vars bears as_1 _ _ _ _ _ _ _ _ _ _ _ (go_replace (snd r)) go_rm) in E as [(u & s2 & h2 & E2 & F2 & (P2 & V2) & E)|[(h & st0 & v1 & cl & -> & X & C)|(h & st0 & v1 & v2 & c1 & c2 & st1 & -> & X & C1 & C2)]].
  2:{ destruct X as [(_ & v' & [])|(h2 & ev & -> & F & Br & q & [(a & v' & X)|(a & v' & [])])]. apply B in X as [(rr & W) Rp]. exists (h1 ++ h2 ++ ev :: cl). rewrite E1, <- !app_assoc. split; [reflexivity|].
      right. right. left. exists (h1 ++ h2), ev, cl, st0. rewrite <- !app_assoc. split; [reflexivity|]. rewrite <- !app_assoc in W, Rp. cbn [app] in W, Rp. split; [split; [apply Forall_app; auto|exists rr; rewrite <- app_assoc; exact W]|].
      split; [exact Br|]. left. split; [apply Forall_app in Rp as [_ Rp]; inversion Rp; assumption|]. eapply closed_trap; [exact rm_not_swap|exact C]. }
  2:{ destruct X as (h2 & ev & -> & F & Sg & q & [(a & v' & X)|(a & v' & [])]). apply B in X as [(rr & W) Rp]. exists (h1 ++ h2 ++ ev :: c1 ++ c2). rewrite E1, <- !app_assoc. split; [reflexivity|].
      right. right. right. exists (h1 ++ h2), ev, (c1 ++ c2), st0. rewrite <- !app_assoc. split; [reflexivity|]. rewrite <- !app_assoc in W, Rp. cbn [app] in W, Rp. split; [split; [apply Forall_app; auto|exists rr; rewrite <- app_assoc; exact W]|].
      split; [exact Sg|]. left. split; [apply Forall_app in Rp as [_ Rp]; inversion Rp; assumption|]. exists c1, c2, st1. split; [reflexivity|]. split; (eapply closed_trap; [exact rm_not_swap|eassumption]). }
  assert (Gl : goes (must sys [!"umask"; fst r] ;~ rest) (fun v (_ : unit) h v1 => (exists b h', h = (argv [str "umask"; fst r], b) :: h' /\ R h') /\ v1 = v)).
  { eapply goes_conseq; [apply goes_thn; [apply go_must; apply not_bears_umask|intro; apply go_rest]|]. cbv beta. intros v a h v1 (u' & h3 & v2 & h4 & -> & (b & -> & ->) & Rh & ->). split; [|reflexivity]. exists b, h4. auto. }
  assert (B3 : forall (p q : list event) b (h' : list event), p ++ q = (argv [str "umask"; fst r], b) :: h' -> R h' -> (exists rest : list event, whole ((h1 ++ h2) ++ p ++ rest)) /\ not_replacing (p ++ q)).
  { intros p q b h' Ep Rh. split; [|rewrite Ep; constructor; [apply nr_word; discriminate|apply R_nr, Rh]]. exists q. left. exists (h1 ++ h2 ++ [(argv [str "umask"; fst r], b)]), h'. rewrite Ep, <- !app_assoc. split; [reflexivity|].
    split; [apply steps_of; assumption|exact Rh]. }
  apply (no_trap_cases vars bears as_1 _ _ _ _ _ _ _ _ Gl) in E as [(u2 & s3 & h3 & E3 & F3 & ((b & h' & -> & Rh) & V3) & E)|(h & -> & X)].
  - assert (Es : st = 0 /\ H = s_hist s3) by (split; congruence). destruct Es as [-> ->]. exists ((h1 ++ h2 ++ [(argv [str "umask"; fst r], b)]) ++ h'). rewrite E3, E2, E1, <- !app_assoc. split; [reflexivity|]. left.
    exists (h1 ++ h2 ++ [(argv [str "umask"; fst r], b)]), h'. split; [rewrite <- ?app_assoc; reflexivity|]. split; [apply steps_of; assumption|]. split; [exact Rh|]. split; [|reflexivity]. rewrite <- ?app_assoc.
    apply Forall_app. split; [exact F1|]. apply Forall_app. split; [exact F2|exact F3].
  - exists ((h1 ++ h2) ++ h). rewrite E2, E1, <- !app_assoc. split; [reflexivity|].
    destruct X as [[(_ & v1 & [])|(h3 & ev & -> & F & Br & q & [(a & v1 & (b & h' & Ep & Rh) & _)|(a & v1 & [])])]|(h3 & ev & -> & F & Sg & q & [(a & v1 & (b & h' & Ep & Rh) & _)|(a & v1 & [])])].
    + right. right. left. destruct (B3 _ _ _ _ Ep Rh) as [(rr & W) Nr]. rewrite <- (app_assoc h3 [ev] rr) in W. rewrite <- !app_assoc in W, Nr. cbn [app] in W, Nr. exists (h1 ++ h2 ++ h3), ev, [], st. rewrite <- !app_assoc. split; [reflexivity|]. split; [split; [rewrite !Forall_app; auto|exists rr; rewrite <- !app_assoc; exact W]|].
      split; [exact Br|]. right. split; [eapply nr_mid, Nr|auto].
    + right. right. right. destruct (B3 _ _ _ _ Ep Rh) as [(rr & W) Nr]. rewrite <- (app_assoc h3 [ev] rr) in W. rewrite <- !app_assoc in W, Nr. cbn [app] in W, Nr. exists (h1 ++ h2 ++ h3), ev, [], st. rewrite <- !app_assoc. split; [reflexivity|]. split; [split; [rewrite !Forall_app; auto|exists rr; rewrite <- !app_assoc; exact W]|].
      split; [exact Sg|]. right. split; [eapply nr_mid, Nr|auto].
Qed.
End Save.

Definition down_rest_steps (h : history) : Prop := exists dns a dns2 post, h = dns ++ (FreeSpec.destroy ri, a) :: dns2 ++ post /\ restoring ifc ri dns /\ restoring ifc ri dns2 /\ hooks ri ifc (o_postdown o) post.
Hypothesis ri_ne : ri <> [].
Lemma go_down_rest : goes (OpenQuick.down_rest sys ifc o ri) (fun v _ h v1 => down_rest_steps h /\ v1 = v).
Proof.
  unfold OpenQuick.down_rest, del_if. destruct ri as [|r0 r1] eqn:E; [congruence|]. rewrite <- E.
  eapply goes_conseq; [apply goes_thn; [apply goes_thn; [apply go_unset|intro; apply go_must; apply not_bears_ifconfig; discriminate]|intro; apply goes_thn; [apply go_unset|intro; apply go_hooks]]|].
  cbv beta. intros v a h v1 (u & h1 & v2 & h2 & -> & (u2 & h3 & v3 & h4 & -> & (R1 & ->) & b & -> & ->) & u3 & h5 & v5 & h6 & -> & (R2 & ->) & H & ->). split; [|reflexivity].
  exists h3, b, h5, h6. rewrite <- !app_assoc. rewrite E in *. auto.
Qed.
Lemma nr_down_rest : forall h, down_rest_steps h -> not_replacing h.
Proof.
  intros h (dns & a & dns2 & post & -> & R1 & R2 & H). apply Forall_app. split; [apply nr_restoring, R1|]. constructor; [apply nr_word; discriminate|]. apply Forall_app. split; [apply nr_restoring, R2|eapply nr_hooks, H].
Qed.
End Down.
