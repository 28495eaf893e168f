(** Proofs about wg-quick on FreeBSD: saving, and taking the interface down. *)
From Coq Require Import String ZArith List Bool Lia.
From Verif Require Import Base Cstr CstrProofs Bash Quick QuickRun QuickSpec QuickRunSpec QuickReloadSpec QuickRouteSpec QuickUndoSpec QuickUpProofs PropQuickFirewall PropQuickUndo QuickSave
  QuickProofs QuickRouteProofs PropQuickReload Sh BsdRoutes BsdRoutesSpec BsdRoutesProofs BsdRoutesProofs2 BsdRoutesProofs3 PropBsdRoutes FreeQuick FreeSpec FreeProofs FreeProofs2 FreeProofs3 FreeProofs4 FreeProofs5.
Import ListNotations.
Open Scope Z_scope.

Lemma lines_is : forall out ls, complete_lines out ls -> ls = read_complete out.
Proof. intros out ls H. exact (complete_lines_fun out ls _ H (read_complete_spec out)). Qed.
Lemma field_fourth : forall l a, ~ In 10 l -> fourth l a -> field 3 l = a.
Proof. intros l a N (ws & C & ->). unfold field. rewrite (columns_words l ws N C). reflexivity. Qed.
Lemma field_lines_is : forall key vs, field_lines key vs = unlines (map (own_line key) vs).
Proof. intros key vs. unfold field_lines, unlines, own_line. rewrite map_map. f_equal. apply map_ext. intro v. rewrite <- !app_assoc. reflexivity. Qed.
Lemma unlines_app : forall a b, unlines (a ++ b) = unlines a ++ unlines b.
Proof. intros a b. unfold unlines. rewrite map_app, concat_app. reflexivity. Qed.
Lemma not_in_unlines : forall c ls, c <> 10 -> Forall (fun l => ~ In c l) ls -> ~ In c (unlines ls).
Proof.
  intros c ls N F. unfold unlines. induction F as [|l ls Hl F IH]; cbn [map concat]; [intros []|]. intro K. apply in_app_or in K as [K|K]; [|exact (IH K)].
  apply in_app_or in K as [K|[K|[]]]; [exact (Hl K)|congruence].
Qed.
Lemma new_config_is : forall o a n, new_config o a n (match o_mtu o with [] => None | m => Some m end) = unlines (str "[Interface]" :: own_lines o a n).
Proof.
  intros o a n. unfold new_config, own_lines. rewrite !field_lines_is.
  assert (E1 : (match (match o_mtu o with [] => None | m => Some m end) with Some m => field_lines "MTU" [m] | None => [] end) = unlines (if beq (o_mtu o) [] then [] else [own_line "MTU" (o_mtu o)])).
  { destruct (o_mtu o); [reflexivity|]. rewrite field_lines_is. reflexivity. }
  assert (E2 : (match o_table o with [] => [] | t => field_lines "Table" [t] end) = unlines (if beq (o_table o) [] then [] else [own_line "Table" (o_table o)])).
  { destruct (o_table o); [reflexivity|]. rewrite field_lines_is. reflexivity. }
  assert (E3 : (if o_save o then !"SaveConfig = true" ++ [10] else []) = unlines (if o_save o then [str "SaveConfig = true"] else [])) by (destruct (o_save o); reflexivity).
  rewrite E1, E2, E3. change (unlines (str "[Interface]" :: ?l)) with (str "[Interface]" ++ [10] ++ unlines l).
  rewrite !unlines_app. reflexivity.
Qed.
Lemma saves_is : forall o amp a4 a6 an ac,
  saves o amp a4 a6 an ac (saved_text amp (new_config o (map (field 3) (tl (read_complete (a_output a4)) ++ tl (read_complete (a_output a6))))
    (flat_map (fun l => match nameserver l with Some v => [v] | None => [] end) (read_complete (a_output an))) (match o_mtu o with [] => None | m => Some m end)) (captured (a_output ac))).
Proof.
  intros o amp a4 a6 an ac x l4 y l6 ads ls srv rest H4 H6 Hf Hn Hp Hc Ha.
  assert (T4 : forall out l r, complete_lines out (l :: r) -> Forall (fun l => ~ In 10 l) r).
  { intros out l r (full & re & _ & F & _ & T). inversion T as [|f0 l0 fs rs T0 T1]; subst. inversion F as [|? ? F0 F1]; subst. clear - F1 T1. induction T1 as [|f l fs ls (p & q & -> & _ & _ & _) T IH]; [constructor|]. inversion F1 as [|? ? Ff Ffs]; subst.
    constructor; [|exact (IH Ffs)]. intro K. apply Ff. apply in_or_app. right. apply in_or_app. left. exact K. }
  pose proof (T4 _ _ _ H4) as N4. pose proof (T4 _ _ _ H6) as N6. apply lines_is in H4, H6, Hn. rewrite <- H4, <- H6, <- Hn. cbn [tl].
  assert (Ea : map (field 3) (l4 ++ l6) = ads).
  { assert (N : Forall (fun l => ~ In 10 l) (l4 ++ l6)) by (apply Forall_app; auto). clear - Hf N. induction Hf as [|l a r s X Hf IH]; [reflexivity|]. inversion N as [|? ? N0 N1]; subst. cbn [map]. f_equal; [apply field_fourth; assumption|apply IH, N1]. }
  assert (En : flat_map (fun l => match nameserver l with Some v => [v] | None => [] end) ls = srv).
  { eapply (picks_fun (fun _ => nameserver_line)); [|apply picks_nameserver|exact Hp]. intros pre l v v' X Y. apply nameserver_iff in X, Y. congruence. }
  rewrite Ea, En, new_config_is. unfold saved_text. rewrite Hc.
  assert (Ep : (if amp then patsub head_line (unlines (str "[Interface]" :: own_lines o ads srv)) else unlines (str "[Interface]" :: own_lines o ads srv)) = unlines (str "[Interface]" :: own_lines o ads srv)).
  { destruct amp; [|reflexivity]. specialize (Ha eq_refl). apply patsub_id; (apply not_in_unlines; [discriminate|]); (constructor; [vm_compute; intuition discriminate|]); (eapply Forall_impl; [|exact Ha]); intros l [U1 U2]; assumption. }
  rewrite Ep. unfold head_line. set (new := unlines _). 
  assert (Er : forall n r, replace_first (str "[Interface]" ++ [10]) n (str "[Interface]" ++ [10] ++ r) = n ++ r).
  { intros n r. change (str "[Interface]" ++ [10] ++ r) with ((str "[Interface]" ++ [10]) ++ r). vm_compute. reflexivity. }
  rewrite Er, <- app_assoc. reflexivity.
Qed.

Section Down.
Variables (sys : system) (fuel : nat) (ifc : list Z) (o : options) (conf : list Z) (amp : bool) (d : list Z).
Hypothesis d_ne : d <> [].
Notation goes := (goes ifc o d).
Ltac ne := solve [apply not_excused; vm_compute; intuition discriminate].

Lemma goes_ext : forall A (m m' : act vars A) D, (forall s, m' s = m s) -> goes m D -> goes m' D.
Proof. intros A m m' D E [T H]. split; [exact T|]. intros s Hs. rewrite E. exact (H s Hs). Qed.
Lemma goes_call_val : forall A c (k : answer -> Z) (f : answer -> A), ~ excused c -> (forall t, c <> register ifc t) -> (forall a, a_status a <> 0 -> k a = a_status a \/ (reported_1 c /\ k a = 1)) ->
  goes (a <~ call sys c ;; if negb (a_status a =? 0) then quit (k a) else pure (f a)) (fun v r h v1 => exists a, h = [(c, a)] /\ r = f a /\ v1 = v).
Proof.
  intros A c k f X N K. split; [intros v _; exists (f (mk_answer 0 [] None)), [(c, mk_answer 0 [] None)], v, (mk_answer 0 [] None); auto|]. intros s _. unfold thn, call. set (a := sys (s_hist s) c). destruct (a_signal a) as [st|] eqn:S.
  - exists [], (c, a). cbn [s_hist s_vars app]. split; [reflexivity|]. split; [constructor|]. split; [apply tracks_one, N|]. split; [exact S|].
    exists (f a), [], (s_vars s), a. auto.
  - destruct (Z.eqb_spec (a_status a) 0) as [E|E]; unfold pure, quit; cbn [s_hist s_vars negb].
    + exists [(c, a)]. split; [reflexivity|]. split; [constructor; [split; [exact S|left; exact E]|constructor]|]. split; [apply tracks_one, N|exists a; auto].
    + exists [], (c, a). split; [reflexivity|]. split; [constructor|]. split; [apply tracks_one, N|]. split; [|exists (f a), [], (s_vars s), a; auto].
      split; [exact S|]. left. split; [exact X|]. split; [exact E|]. apply K, E.
Qed.
Lemma goes_lines : forall f, goes (t <~ feed sys (c_argv (list_addresses f ifc)) ;; tail_lines t)
  (fun v l h v1 => exists a, h = [(list_addresses f ifc, a)] /\ l = tl (read_complete (a_output a)) /\ v1 = v).
Proof.
  intro f. assert (X : excused (list_addresses f ifc)) by (left; asking_word). assert (N : forall t, list_addresses f ifc <> register ifc t) by (intros t E; apply (f_equal c_argv) in E; discriminate E).
  split; [intros v _; exists [], [(list_addresses f ifc, mk_answer 0 [] None)], v, (mk_answer 0 [] None); auto|].
  intros s _. unfold feed, thn, call, tail_lines. change (argv (c_argv (list_addresses f ifc))) with (list_addresses f ifc). set (c := list_addresses f ifc) in *. set (a := sys (s_hist s) c). destruct (a_signal a) as [st|] eqn:S.
  - exists [], (c, a). cbn [s_hist s_vars app]. split; [reflexivity|]. split; [constructor|]. split; [apply tracks_one, N|]. split; [exact S|]. exists (tl (read_complete (a_output a))), [], (s_vars s), a. auto.
  - unfold pure at 1. destruct (read_complete (a_output a)) as [|x l] eqn:E; unfold pure, quit; cbn [s_hist s_vars].
    + exists [], (c, a). split; [reflexivity|]. split; [constructor|]. split; [apply tracks_one, N|]. split; [|exists (tl (read_complete (a_output a))), [], (s_vars s), a; auto].
      split; [exact S|]. right. exists f, ifc. split; [reflexivity|]. split; [|reflexivity]. cbn [snd]. rewrite <- E. apply read_complete_spec.
    + exists [(c, a)]. split; [reflexivity|]. split; [constructor; [split; [exact S|right; exact X]|constructor]|]. split; [apply tracks_one, N|]. exists a. rewrite E. auto.
Qed.
Lemma goes_gather : goes (FreeQuick.gather sys ifc o) (fun v r h v1 => exists a4 a6 an, h = [(list_addresses F4 ifc, a4); (list_addresses F6 ifc, a6); (list_dns ifc, an)] /\
  r = new_config o (map (field 3) (tl (read_complete (a_output a4)) ++ tl (read_complete (a_output a6))))
    (flat_map (fun l => match nameserver l with Some v => [v] | None => [] end) (read_complete (a_output an))) (match o_mtu o with [] => None | m => Some m end) /\ v1 = v).
Proof.
  eapply (goes_ext _ (l4 <~ (t <~ feed sys (c_argv (list_addresses F4 ifc)) ;; tail_lines t) ;; l6 <~ (t <~ feed sys (c_argv (list_addresses F6 ifc)) ;; tail_lines t) ;;
    ns <~ feed sys [!"resolvconf"; !"-l"; ifc] ;; pure (new_config o (map (field 3) (l4 ++ l6))
                   (flat_map (fun l => match nameserver l with Some v => [v] | None => [] end) (read_complete ns)) (match o_mtu o with [] => None | m => Some m end)))).
  - intro s. unfold FreeQuick.gather, thn. change [!"netstat"; !"-I"; ifc; !"-n"; !"-W"; !"-f"; !"inet"] with (c_argv (list_addresses F4 ifc)). change [!"netstat"; !"-I"; ifc; !"-n"; !"-W"; !"-f"; !"inet6"] with (c_argv (list_addresses F6 ifc)).
    destruct (feed sys (c_argv (list_addresses F4 ifc)) s) as [t s1|st s1|st s1|s1]; try reflexivity. destruct (tail_lines t s1) as [l4 s2|st s2|st s2|s2]; try reflexivity.
    destruct (feed sys (c_argv (list_addresses F6 ifc)) s2) as [t6 s3|st s3|st s3|s3]; try reflexivity.
  - eapply goes_conseq; [eapply goes_thn; [apply goes_lines|intro l4; eapply goes_thn; [apply goes_lines|intro l6; eapply goes_thn; [apply goes_feed; [asks|reflexivity]|intro ns; apply goes_pure|]|]|]|]; cbv beta.
    1,2,3: intros v a h v1 Hv (r & _ & _ & ->); exact Hv.
    intros v a h v1 _ (l4 & h1 & v2 & h2 & -> & (a4 & -> & -> & ->) & l6 & h3 & v3 & h4 & -> & (a6 & -> & -> & ->) & ns & h5 & v5 & h6 & -> & (an & -> & -> & ->) & -> & -> & ->).
    exists a4, a6, an. auto.
Qed.
Definition prepared (r : list Z * list Z) (h : history) : Prop := exists a4 a6 an au b0 ac,
  h = [(list_addresses F4 ifc, a4); (list_addresses F6 ifc, a6); (list_dns ifc, an); (argv [str "umask"], au); (argv [str "umask"; str "077"], b0); (showconf ifc, ac)] /\
  fst r = captured (a_output au) /\ saves o amp a4 a6 an ac (snd r).
Lemma goes_prepare : goes (FreeQuick.prepare sys ifc o amp) (fun v r h v1 => prepared r h /\ v1 = v).
Proof.
  unfold FreeQuick.prepare. eapply goes_conseq; [eapply goes_thn; [apply goes_gather|intro new; eapply goes_thn; [apply goes_ask; [left; right; right; reflexivity|reflexivity]|intro old; eapply goes_thn;
    [apply goes_must; [apply not_excused_umask|reflexivity]|intro u; apply (goes_call_val _ _ (fun a => a_status a) (fun c => (old, saved_text amp new (captured (a_output c))))); [apply not_excused_wg; discriminate|intros t E; discriminate (f_equal c_argv E)|auto]|]|]|]|]; cbv beta.
  - intros v a h v1 Hv (r & _ & ->). exact Hv.
  - intros v a h v1 Hv (r & _ & _ & ->). exact Hv.
  - intros v a h v1 Hv (a4 & a6 & an & _ & _ & ->). exact Hv.
  - intros v a h v1 _ (new & h1 & v2 & h2 & -> & (a4 & a6 & an & -> & -> & ->) & old & h3 & v3 & h4 & -> & (au & -> & -> & ->) & u & h5 & v5 & h6 & -> & (b0 & -> & ->) & ac & -> & -> & ->).
    split; [|reflexivity]. exists a4, a6, an, au, b0, ac. split; [reflexivity|]. split; [reflexivity|]. cbn [snd]. apply saves_is.
Qed.
Definition replaced (text : list Z) (h : history) : Prop := exists bw bs bm,
  h = [(mk_cmd [str ">"; conf ++ str ".tmp"] text, bw); (argv [str "sync"; conf ++ str ".tmp"], bs); (argv [str "mv"; conf ++ str ".tmp"; conf], bm)].
Lemma goes_replace : forall text, goes (FreeQuick.replace_file sys conf text) (fun v _ h v1 => replaced text h /\ v1 = v).
Proof.
  intro text. eapply (goes_ext _ ((w <~ call sys (mk_cmd [!">"; tmp_file conf] text) ;; if negb (a_status w =? 0) then quit 1 else pure tt) ;~ must sys [!"sync"; tmp_file conf] ;~
    (m <~ call sys (argv [!"mv"; tmp_file conf; conf]) ;; if negb (a_status m =? 0) then quit 1 else pure tt))).
  - intro s. unfold FreeQuick.replace_file, thn. destruct (call sys _ s) as [w s1|st s1|st s1|s1]; try reflexivity. destruct (negb (a_status w =? 0)); reflexivity.
  - assert (R : forall w ws, w = !">" \/ w = !"mv" -> reported_1 (argv (w :: ws)) /\ forall i, reported_1 (mk_cmd (w :: ws) i)) by (intros w ws Hw; split; [exists w, ws; auto|intro i; exists w, ws; auto]).
    eapply goes_conseq; [eapply goes_thn; [apply (goes_call_val _ _ (fun _ => 1) (fun _ => tt)); [ne|intros t E; discriminate (f_equal c_argv E)|intros a _; right; split; [apply R; auto|reflexivity]]|intro u; eapply goes_thn; [apply goes_must; [ne|reflexivity]|intro u2;
      apply (goes_call_val _ _ (fun _ => 1) (fun _ => tt)); [ne|intros t E; discriminate (f_equal c_argv E)|intros a _; right; split; [apply R; auto|reflexivity]]|]|]|]; cbv beta.
    + intros v a h v1 Hv (r & _ & ->). exact Hv.
    + intros v a h v1 Hv (r & _ & _ & ->). exact Hv.
    + intros v a h v1 _ (u & h1 & v2 & h2 & -> & (bw & -> & _ & ->) & u2 & h3 & v3 & h4 & -> & (bs & -> & ->) & bm & -> & _ & ->). split; [|reflexivity]. exists bw, bs, bm. reflexivity.
Qed.
Lemma goes_tidy_here : goes (clean_temp sys) (Dtidy d).
Proof. apply goes_tidy; first [exact d_ne|exact fuel|exact (fun _ => [])|exact d]. Qed.
Definition Dfile (v : vars) (_ : unit) (h : history) (v1 : vars) : Prop := (exists a b, h = [(argv [str "rm"; str "-f"; conf ++ str ".tmp"], a); (remove_dir d, b)]) /\ v1 = v.
Lemma goes_file : goes (must sys [!"rm"; !"-f"; tmp_file conf] ;~ clean_temp sys) Dfile.
Proof.
  eapply goes_conseq; [eapply goes_thn; [apply goes_must; [ne|reflexivity]|intro u; apply goes_tidy_here|]|]; cbv beta.
  - intros v a h v1 Hv (r & _ & ->). exact Hv.
  - intros v a h v1 _ (u & h1 & v2 & h2 & -> & (r & -> & ->) & (b & ->) & ->). split; [|reflexivity]. exists r, b. reflexivity.
Qed.
Lemma remove_not_excused : forall ws, ~ excused (argv (str "rm" :: ws)).
Proof. intro ws. ne. Qed.
Lemma broke_status : forall ws a st, broke (argv (str "rm" :: ws), a) st -> a_status a <> 0 /\ st = a_status a.
Proof.
  intros ws a st [_ [(_ & S & [->|[(w & ws' & Ew & [-> | ->]) _]])|(f & x & Ex & _)]]; [auto|discriminate Ew|discriminate Ew|]. apply (f_equal c_argv) in Ex. discriminate Ex.
Qed.
Lemma tidied_file_of : forall v st0 cl st, finished Dfile v st0 cl st -> tidied_file d conf st0 cl st.
Proof.
  intros v st0 cl st [(v1 & [(a & b & ->) _] & F & ->)|(cl1 & ev & cl2 & v1 & -> & [(a & b & E) _] & F & B)].
  - exists a, [(remove_dir d, b)]. split; [reflexivity|]. left. inversion F as [|? ? [_ [S|X]] F2]; subst; [|destruct (remove_not_excused _ X)]. split; [exact S|]. exists b. split; [reflexivity|]. left.
    inversion F2 as [|? ? [_ [S2|X]] _]; subst; [auto|]. destruct (remove_not_excused _ X).
  - destruct cl1 as [|x [|y cl1]].
    + cbn [app] in E. assert (ev = (argv [str "rm"; str "-f"; conf ++ str ".tmp"], a)) by congruence. subst ev. exists a, []. split; [reflexivity|]. right. apply broke_status in B as [B ->]. auto.
    + cbn [app] in E. assert (Ex : x = (argv [str "rm"; str "-f"; conf ++ str ".tmp"], a)) by congruence. assert (ev = (remove_dir d, b)) by congruence. subst ev x. exists a, [(remove_dir d, b)]. split; [reflexivity|]. left.
      inversion F as [|? ? [_ [S|X]] _]; subst; [|destruct (remove_not_excused _ X)]. split; [exact S|]. exists b. split; [reflexivity|]. right. apply broke_status in B as [B ->]. auto.
    + assert (L := f_equal (@length event) E). cbn in L. rewrite app_length in L. cbn in L. lia.
Qed.

(** ** Traps *)
Definition trapped (Dc : vars -> unit -> history -> vars -> Prop) (ev : event) (cl : history) (st : Z) : Prop := exists st0 v1,
  (broke ev st0 /\ (finished Dc v1 st0 cl st \/ cut Dc v1 cl st)) \/ (a_signal (snd ev) = Some st0 /\ twice ifc o Dc v1 st0 cl st).
Definition not_replacing (h : history) : Prop := Forall (fun ev : event => ~ replacing conf (fst ev)) h.
Lemma not_replacing_word : forall w ws i, w <> str ">" -> w <> str "sync" -> w <> str "mv" -> ~ replacing conf (mk_cmd (w :: ws) i).
Proof. intros w ws i N1 N2 N3 [(t & E)|[E|E]]; apply (f_equal c_argv) in E; cbn [argv c_argv] in E; congruence. Qed.
Ltac nr := solve [apply not_replacing_word; discriminate].
Lemma not_replacing_in : forall h1 ev h2, not_replacing (h1 ++ ev :: h2) -> ~ replacing conf (fst ev).
Proof. intros h1 ev h2 F. apply Forall_app in F as [_ F]. inversion F; assumption. Qed.
Lemma prepared_nr : forall r h, prepared r h -> not_replacing h.
Proof. intros r h (a4 & a6 & an & au & b0 & ac & -> & _). repeat (constructor; [cbn [fst]; nr|]). constructor. Qed.

Section Save.
Variables (rest : act vars unit) (R : history -> Prop).
Hypothesis Hrest : goes rest (fun v _ h v1 => (v_dns v = false -> R h) /\ v1 = v).
Hypothesis Rnr : forall h, R h -> not_replacing h.
Definition save_ends (h : history) (st : Z) : Prop :=
  (exists h1 h2 cl v1, h = h1 ++ h2 ++ cl /\ saving_steps ifc o conf amp h1 /\ R h2 /\ Forall fine (h1 ++ h2) /\ (finished (Dtidy d) v1 0 cl st \/ cut (Dtidy d) v1 cl st)) \/
  (exists h1 h2 fwd ev more cl, h = fwd ++ ev :: cl /\ h1 ++ h2 = fwd ++ ev :: more /\ saving_steps ifc o conf amp h1 /\ R h2 /\ Forall fine fwd /\
     ((replacing conf (fst ev) /\ trapped Dfile ev cl st) \/ (~ replacing conf (fst ev) /\ trapped (Dtidy d) ev cl st))).
Lemma some_rest : exists h, R h.
Proof. destruct (proj1 Hrest (first_vars d) eq_refl) as (u & h & v1 & X & _). exists h. exact (X eq_refl). Qed.
Lemma steps_of : forall r h1 h2 b, prepared r h1 -> replaced (snd r) h2 -> saving_steps ifc o conf amp (h1 ++ h2 ++ [(argv [str "umask"; fst r], b)]).
Proof.
  intros r h1 h2 b (a4 & a6 & an & au & b0 & ac & -> & E & S) (bw & bs & bm & ->). exists a4, a6, an, au, b0, ac, (snd r), bw, bs, bm, b. split; [rewrite E; reflexivity|exact S].
Qed.
Lemma some_replaced : forall t, exists h, replaced t h.
Proof. intro t. set (b := mk_answer 0 [] None). eexists. exists b, b, b. reflexivity. Qed.
Lemma save_cases : forall s st H, v_tmp (s_vars s) = d -> v_dns (s_vars s) = false -> FreeQuick.save_config sys ifc o conf amp rest s = (Some st, H) -> exists h, H = s_hist s ++ h /\ save_ends h st.
Proof.
  intros s st H Hs Hdns E. unfold FreeQuick.save_config in E. destruct some_rest as (hr & Hr). set (b := mk_answer 0 [] None).
  destruct (region_goes ifc o d _ _ _ _ _ _ _ _ _ goes_prepare goes_tidy_here Hs E) as [(r & s1 & h1 & _ & E1 & F1 & K1 & [P1 V1] & En)|(h & -> & h1 & ev & v1 & cl & -> & F1 & K1 & (r & h2 & v2 & P1 & _) & st0 & Fi)].
  2: { exists (h1 ++ ev :: cl). split; [reflexivity|]. right. destruct (some_replaced (snd r)) as (h3 & P3).
    exists ((h1 ++ ev :: h2) ++ h3 ++ [(argv [str "umask"; fst r], b)]), hr, h1, ev, (h2 ++ h3 ++ [(argv [str "umask"; fst r], b)] ++ hr), cl. split; [reflexivity|].
    split; [rewrite <- !app_assoc; reflexivity|]. split; [apply steps_of; assumption|]. split; [exact Hr|]. split; [exact F1|]. right. split; [eapply not_replacing_in, prepared_nr, P1|]. exists st0, v1. exact Fi. }
  cbv beta in En. assert (Hs1 : v_tmp (s_vars s1) = d) by congruence.
  destruct (region_goes ifc o d _ _ _ _ _ _ _ _ _ (goes_replace (snd r)) goes_file Hs1 En) as [(u2 & s2 & h2 & _ & E2 & F2 & K2 & [P2 V2] & En2)|(h & -> & h2 & ev & v2 & cl & -> & F2 & K2 & (u2 & h3 & v3 & P2 & _) & st0 & Fi)].
  2: { exists (h1 ++ h2 ++ ev :: cl). rewrite E1, <- app_assoc. split; [reflexivity|]. right.
    exists (h1 ++ (h2 ++ ev :: h3) ++ [(argv [str "umask"; fst r], b)]), hr, (h1 ++ h2), ev, (h3 ++ [(argv [str "umask"; fst r], b)] ++ hr), cl. split; [rewrite <- app_assoc; reflexivity|].
    split; [rewrite <- !app_assoc; reflexivity|]. split; [apply steps_of; assumption|]. split; [exact Hr|]. split; [apply Forall_app; auto|]. left. split; [|exists st0, v2; exact Fi].
    destruct P2 as (bw & bs & bm & P2). assert (Hin : In ev [(mk_cmd [str ">"; conf ++ str ".tmp"] (snd r), bw); (argv [str "sync"; conf ++ str ".tmp"], bs); (argv [str "mv"; conf ++ str ".tmp"; conf], bm)]) by (rewrite <- P2; apply in_or_app; right; left; reflexivity).
    destruct Hin as [<-|[<-|[<-|[]]]]; [left; exists (snd r); reflexivity|right; left; reflexivity|right; right; reflexivity]. }
  cbv beta in En2. assert (Hs2 : v_tmp (s_vars s2) = d) by congruence.
  assert (G3 : goes (must sys [!"umask"; fst r] ;~ rest) (fun v _ h v1 => (exists b h', h = (argv [str "umask"; fst r], b) :: h' /\ (v_dns v = false -> R h')) /\ v1 = v)).
  { eapply goes_conseq; [eapply goes_thn; [apply goes_must; [apply not_excused_umask|reflexivity]|intro u; apply Hrest|]|]; cbv beta.
    - intros v a h v1 Hv (x & _ & ->). exact Hv.
    - intros v a h v1 _ (u & g1 & w1 & g2 & -> & (x & -> & ->) & HR & ->). split; [|reflexivity]. exists x, g2. auto. }
  assert (Hd2 : v_dns (s_vars s2) = false) by congruence.
  destruct (region_goes ifc o d _ _ _ _ _ _ _ _ _ G3 goes_tidy_here Hs2 En2) as [(u3 & s3 & h3 & _ & E3 & F3 & K3 & [(b3 & h3' & -> & P3) V3] & En3)|(h & -> & h3 & ev & v3 & cl & -> & F3 & K3 & (u3 & h4 & v4 & (b3 & h3' & P3 & HR) & _) & st0 & Fi)].
  - specialize (P3 Hd2). unfold the_end in En3. assert (Hs3 : v_tmp (s_vars s3) = d) by congruence. destruct (at_exit_goes ifc o d _ (Dtidy d) s3 0 st H goes_tidy_here Hs3 En3) as (cl & -> & T).
    exists ((h1 ++ h2 ++ [(argv [str "umask"; fst r], b3)]) ++ h3' ++ cl). rewrite E3, E2, E1, <- !app_assoc. split; [reflexivity|]. left.
    exists (h1 ++ h2 ++ [(argv [str "umask"; fst r], b3)]), h3', cl, (s_vars s3). split; [rewrite <- !app_assoc; reflexivity|]. split; [apply steps_of; assumption|]. split; [exact P3|]. split; [|exact T].
    rewrite <- !app_assoc. apply Forall_app. split; [exact F1|]. apply Forall_app. split; [exact F2|exact F3].
  - specialize (HR Hd2). exists (h1 ++ h2 ++ h3 ++ ev :: cl). rewrite E2, E1, <- !app_assoc. split; [reflexivity|]. right.
    exists (h1 ++ h2 ++ [(argv [str "umask"; fst r], b3)]), h3', (h1 ++ h2 ++ h3), ev, h4, cl. split; [rewrite <- !app_assoc; reflexivity|].
    split; [rewrite <- !app_assoc, P3; reflexivity|]. split; [apply steps_of; assumption|]. split; [exact HR|]. split; [rewrite !Forall_app; auto|]. right. split; [|exists st0, v3; exact Fi].
    apply (not_replacing_in h3 ev h4). rewrite P3. constructor; [cbn [fst]; nr|apply Rnr, HR].
Qed.
End Save.

(** ** Down *)
Lemma hooks_nr : forall l h, hooks ifc l h -> not_replacing h.
Proof.
  intros l h (ts & _ & E). assert (G : forall ts h, map fst h = map run_hook ts -> not_replacing h); [|eapply G, E]. clear. intros ts h. revert ts. induction h as [|[c a] h IH]; intros [|t ts] E; try discriminate E; [constructor|].
  cbn [map fst] in E. assert (Ec : c = run_hook t) by congruence. assert (E' : map fst h = map run_hook ts) by congruence. subst c. constructor; [cbn [fst]; nr|]. exact (IH ts E').
Qed.
Definition down_rest_steps (h : history) : Prop := exists down dns post, h = down ++ dns ++ post /\ takes_down ifc down /\
  (o_dns o = [] -> dns = []) /\ (o_dns o <> [] -> exists a, dns = [(unregister ifc, a)]) /\ hooks ifc (o_postdown o) post.
Lemma down_rest_nr : forall h, down_rest_steps h -> not_replacing h.
Proof.
  intros h (down & dns & post & -> & (a & b & w & U & Hd) & N & Dn & Hh). apply Forall_app. split; [|apply Forall_app; split; [|eapply hooks_nr, Hh]].
  - assert (W : not_replacing w) by (clear - U; induction U; [constructor; [cbn [fst]; nr|constructor]|constructor; [cbn [fst]; nr|constructor; [cbn [fst]; nr|assumption]]]).
    destruct Hd as [[_ ->]|[_ ->]]; (constructor; [cbn [fst]; nr|constructor; [cbn [fst]; nr|exact W]]).
  - destruct (o_dns o) as [|x l]; [rewrite N by reflexivity; constructor|]. destruct Dn as (c & ->); [discriminate|]. constructor; [cbn [fst]; nr|constructor].
Qed.
Lemma goes_down_rest : goes (FreeQuick.down_rest sys fuel ifc o) (fun v _ h v1 => (v_dns v = false -> down_rest_steps h) /\ v1 = v).
Proof.
  unfold FreeQuick.down_rest. eapply goes_conseq; [eapply goes_thn; [apply goes_del_if|intro u; eapply goes_thn; [apply goes_unset|intro u2; apply goes_hooks|]|]|]; cbv beta.
  all: try exact d_ne; try exact (fun _ => []); try exact fuel; try exact d.
  - intros v a h v1 Hv (-> & _). exact Hv.
  - intros v a h v1 Hv (_ & ->). exact Hv.
  - intros v a h v1 _ (u & h1 & v2 & h2 & -> & ((dns & down & -> & _ & K & Td) & ->) & u2 & h3 & v3 & h4 & -> & (-> & N & Dn) & Hh & ->). split; [|reflexivity]. intro Hd.
    rewrite (K Hd). exists down, h3, h4. cbn [app]. auto 6.
Qed.
Definition says_listed (a : answer) : bool := contains (32 :: ifc ++ [32]) (32 :: captured (a_output a) ++ [32]).
Definition ask_interfaces : command := argv [str "wg"; str "show"; str "interfaces"].
Definition not_listed_ends (a : answer) (r : history) (st : Z) : Prop :=
  (a_signal a = None /\ says_listed a = false /\ (finished (Dtidy d) (first_vars d) 1 r st \/ cut (Dtidy d) (first_vars d) r st)) \/
  (exists st0, a_signal a = Some st0 /\ twice ifc o (Dtidy d) (first_vars d) st0 r st).
Lemma check_cases : forall A (m : act vars A) k s st H, s_vars s = first_vars d -> region (clean_temp sys) (FreeQuick.check_interface sys ifc ;~ m) k s = (Some st, H) ->
  exists a, let s1 := mk_sh (s_hist s ++ [(ask_interfaces, a)]) (first_vars d) in
  (exists r, H = s_hist s ++ (ask_interfaces, a) :: r /\ not_listed_ends a r st) \/
  (a_signal a = None /\ says_listed a = true /\ region (clean_temp sys) m k s1 = (Some st, H)).
Proof.
  intros A m k s st H Hv E. rewrite region_thn in E. unfold FreeQuick.check_interface, ask in E. unfold thn in E. unfold call, pure in E. change (argv [!"wg"; !"show"; !"interfaces"]) with ask_interfaces in E.
  set (a := sys (s_hist s) ask_interfaces) in *. exists a. cbv zeta. rewrite Hv in E. set (s1 := mk_sh (s_hist s ++ [(ask_interfaces, a)]) (first_vars d)) in *.
  assert (Hs1 : v_tmp (s_vars s1) = d) by reflexivity. destruct (a_signal a) as [st0|] eqn:S.
  - left. destruct (interrupted_goes ifc o d _ (Dtidy d) s1 st0 st H goes_tidy_here Hs1 E) as (cl & -> & T). exists cl. unfold s1. cbn [s_hist]. rewrite <- app_assoc. split; [reflexivity|]. right. exists st0. auto.
  - fold (says_listed a) in E. destruct (says_listed a) eqn:L.
    + right. auto.
    + left. unfold quit in E. destruct (at_exit_goes ifc o d _ (Dtidy d) s1 1 st H goes_tidy_here Hs1 E) as (cl & -> & T). exists cl. unfold s1. cbn [s_hist]. rewrite <- app_assoc. split; [reflexivity|]. left. auto.
Qed.
Definition down_ends (r : history) (st : Z) : Prop :=
  (exists q cl v1, r = all_dsteps q ++ cl /\ down_in_order ifc o conf amp q /\ Forall fine (all_dsteps q) /\ (finished (Dtidy d) v1 0 cl st \/ cut (Dtidy d) v1 cl st)) \/
  (exists q fwd ev more cl, r = fwd ++ ev :: cl /\ all_dsteps q = fwd ++ ev :: more /\ down_in_order ifc o conf amp q /\ Forall fine fwd /\
     ((replacing conf (fst ev) /\ trapped Dfile ev cl st) \/ (~ replacing conf (fst ev) /\ trapped (Dtidy d) ev cl st))).
Lemma some_saving : exists h, saving_steps ifc o conf amp h.
Proof.
  set (b := mk_answer 0 [] None). destruct (proj1 goes_prepare (first_vars d) eq_refl) as (r & h1 & v1 & P & _). destruct (some_replaced (snd r)) as (h2 & P2). eexists. exact (steps_of r h1 h2 b P P2).
Qed.
Lemma down_cases : forall s st H, s_vars s = first_vars d -> FreeQuick.cmd_down sys fuel ifc o conf amp s = (Some st, H) -> exists a r, H = s_hist s ++ (ask_interfaces, a) :: r /\
  (not_listed_ends a r st \/ (a_signal a = None /\ says_listed a = true /\ down_ends r st)).
Proof.
  intros s st H Hv E. unfold FreeQuick.cmd_down in E. destruct (check_cases _ _ _ s st H Hv E) as (a & X). cbv zeta in X. exists a. destruct X as [(r & -> & N)|(S & L & E1)].
  { exists r. auto. }
  assert (Gh : goes (execute_hooks sys ifc (o_predown o)) (fun v _ h v1 => hooks ifc (o_predown o) h /\ v1 = v)) by (apply goes_hooks; first [exact d_ne|exact (fun _ => [])|exact fuel|exact d]).
  set (s1 := mk_sh (s_hist s ++ [(ask_interfaces, a)]) (first_vars d)) in *. assert (Hs1 : v_tmp (s_vars s1) = d) by reflexivity.
  assert (Eh1 : s_hist s1 = s_hist s ++ [(ask_interfaces, a)]) by reflexivity. assert (Hv1 : s_vars s1 = first_vars d) by reflexivity. clearbody s1.
  destruct some_saving as (hs & Hsv). destruct (some_rest (FreeQuick.down_rest sys fuel ifc o) down_rest_steps goes_down_rest) as (hd & Hd).
  set (sv := if o_save o then hs else []). assert (Sv : (o_save o = true -> saving_steps ifc o conf amp sv) /\ (o_save o = false -> sv = [])) by (unfold sv; destruct (o_save o); split; intro; congruence || assumption).
  assert (Order : forall pre sv h, hooks ifc (o_predown o) pre -> (o_save o = true -> saving_steps ifc o conf amp sv) -> (o_save o = false -> sv = []) -> down_rest_steps h ->
    exists q, all_dsteps q = pre ++ sv ++ h /\ down_in_order ifc o conf amp q).
  { intros pre sv' h Hp H1 H2 (down & dns & post & -> & Td & N & Dn & Hh). exists (mk_dsteps pre sv' down dns post). split; [reflexivity|]. unfold down_in_order. cbn [q_pre q_save q_down q_dns q_post]. auto 8. }
  destruct (region_goes ifc o d _ _ _ _ _ _ _ _ _ Gh goes_tidy_here Hs1 E1) as [(u & s2 & h1 & _ & E2 & F1 & K1 & [P1 V1] & En)|(h & -> & h1 & ev & v1 & cl & -> & F1 & K1 & (u & h2 & v2 & P1 & _) & st0 & Fi)].
  2: { exists (h1 ++ ev :: cl). rewrite Eh1, <- app_assoc. split; [reflexivity|]. right. split; [exact S|]. split; [exact L|]. right. destruct Sv as [Sv1 Sv2].
    destruct (Order (h1 ++ ev :: h2) sv hd P1 Sv1 Sv2 Hd) as (q & Eq & Oq). exists q, h1, ev, (h2 ++ sv ++ hd), cl. split; [reflexivity|]. split; [rewrite Eq, <- !app_assoc; reflexivity|].
    split; [exact Oq|]. split; [exact F1|]. right. split; [eapply not_replacing_in, hooks_nr, P1|]. exists st0, v1. exact Fi. }
  cbv beta in En. assert (Hs2 : v_tmp (s_vars s2) = d) by congruence. assert (Hd2 : v_dns (s_vars s2) = false) by (rewrite V1, Hv1; reflexivity). destruct (o_save o) eqn:So.
  - destruct (save_cases _ _ goes_down_rest down_rest_nr s2 st H Hs2 Hd2 En) as (h & -> & [(g1 & g2 & cl & v1 & -> & Sg & Rg & F & T)|(g1 & g2 & fwd & ev & more & cl & -> & Eg & Sg & Rg & F & T)]).
    + exists (h1 ++ g1 ++ g2 ++ cl). rewrite E2, Eh1, <- !app_assoc. split; [reflexivity|]. right. split; [exact S|]. split; [exact L|]. left.
      destruct (Order h1 g1 g2 P1) as (q & Eq & Oq); [intros _; exact Sg|discriminate|exact Rg|]. exists q, cl, v1. rewrite Eq, <- !app_assoc. split; [reflexivity|]. split; [exact Oq|]. split; [apply Forall_app; auto|exact T].
    + exists (h1 ++ fwd ++ ev :: cl). rewrite E2, Eh1, <- !app_assoc. split; [reflexivity|]. right. split; [exact S|]. split; [exact L|]. right.
      destruct (Order h1 g1 g2 P1) as (q & Eq & Oq); [intros _; exact Sg|discriminate|exact Rg|]. exists q, (h1 ++ fwd), ev, more, cl. split; [rewrite <- app_assoc; reflexivity|]. split; [rewrite Eq, Eg, <- app_assoc; reflexivity|].
      split; [exact Oq|]. split; [apply Forall_app; auto|exact T].
  - destruct (region_goes ifc o d _ _ _ _ _ _ _ _ _ goes_down_rest goes_tidy_here Hs2 En) as [(u3 & s3 & h3 & _ & E3 & F3 & K3 & [P3 V3] & En3)|(h & -> & h3 & ev & v3 & cl & -> & F3 & K3 & (u3 & h4 & v4 & P3 & _) & st0 & Fi)].
    + unfold the_end in En3. assert (Hs3 : v_tmp (s_vars s3) = d) by congruence. destruct (at_exit_goes ifc o d _ (Dtidy d) s3 0 st H goes_tidy_here Hs3 En3) as (cl & -> & T).
      exists (h1 ++ h3 ++ cl). rewrite E3, E2, Eh1, <- !app_assoc. split; [reflexivity|]. right. split; [exact S|]. split; [exact L|]. left.
      destruct (Order h1 [] h3 P1) as (q & Eq & Oq); [discriminate|reflexivity|exact (P3 Hd2)|]. exists q, cl, (s_vars s3). rewrite Eq. cbn [app]. rewrite <- !app_assoc. split; [reflexivity|]. split; [exact Oq|]. split; [apply Forall_app; auto|exact T].
    + exists (h1 ++ h3 ++ ev :: cl). rewrite E2, Eh1, <- !app_assoc. split; [reflexivity|]. right. split; [exact S|]. split; [exact L|]. right.
      destruct (Order h1 [] (h3 ++ ev :: h4) P1) as (q & Eq & Oq); [discriminate|reflexivity|exact (P3 Hd2)|]. exists q, (h1 ++ h3), ev, h4, cl. split; [rewrite <- app_assoc; reflexivity|]. split; [rewrite Eq; cbn [app]; rewrite <- app_assoc; reflexivity|].
      split; [exact Oq|]. split; [apply Forall_app; auto|]. right. split; [eapply not_replacing_in, down_rest_nr, (P3 Hd2)|]. exists st0, v3. exact Fi.
Qed.
Lemma goes_nothing : goes (pure tt) (fun v _ h v1 => (v_dns v = false -> h = []) /\ v1 = v).
Proof. eapply goes_conseq; [apply goes_pure|]. cbv beta. intros v a h v1 _ (_ & -> & ->). auto. Qed.
Lemma save_cmd_cases : forall s st H, s_vars s = first_vars d -> FreeQuick.cmd_save sys ifc o conf amp s = (Some st, H) -> exists a r, H = s_hist s ++ (ask_interfaces, a) :: r /\
  (not_listed_ends a r st \/ (a_signal a = None /\ says_listed a = true /\ save_ends (fun h => h = []) r st)).
Proof.
  intros s st H Hv E. unfold FreeQuick.cmd_save in E.
  assert (E' : region (clean_temp sys) (FreeQuick.check_interface sys ifc ;~ pure tt) (fun _ : unit => FreeQuick.save_config sys ifc o conf amp (pure tt)) s = (Some st, H)).
  { rewrite <- E. unfold region, thn. destruct (FreeQuick.check_interface sys ifc s) as [[] x|x y|x y|x]; reflexivity. }
  destruct (check_cases _ _ _ s st H Hv E') as (a & X). cbv zeta in X. exists a. destruct X as [(r & -> & N)|(S & L & E1)].
  { exists r. auto. }
  unfold region, pure in E1. destruct (save_cases _ _ goes_nothing ltac:(intros h ->; constructor) _ st H (eq_refl : v_tmp (s_vars (mk_sh (s_hist s ++ [(ask_interfaces, a)]) (first_vars d))) = d) eq_refl E1) as (h & -> & Se).
  exists h. cbn [s_hist]. rewrite <- app_assoc. split; [reflexivity|]. right. auto.
Qed.
End Down.
