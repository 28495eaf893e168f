(** C49: taking an interface down. *)
From Coq Require Import String ZArith List Bool Lia.
From Verif Require Import Base Cstr Bash Quick QuickRun QuickRunSpec QuickRunProofs QuickUpProofs QuickDoes QuickSave QuickSaveProofs QuickRouteSpec QuickRouteProofs
  QuickDownSpec QuickDownProofs PropQuickFirewall.
Import ListNotations.
Open Scope Z_scope.

(** ** Which interfaces *)
Lemma glue_first : forall n (ns : list (list Z)), ns <> [] -> glue [32] (n :: ns) = n ++ 32 :: glue [32] ns.
Proof. intros n [|x ns] H; [contradiction|reflexivity]. Qed.

(** The words between single spaces. *)
Fixpoint pieces (cur s : list Z) : list (list Z) :=
  match s with
  | [] => [rev cur]
  | c :: s' => if c =? 32 then rev cur :: pieces [] s' else pieces (c :: cur) s'
  end.
Lemma pieces_word : forall w cur s, ~ In 32 w -> pieces cur (w ++ s) = pieces (rev w ++ cur) s.
Proof.
  induction w as [|c w IH]; intros cur s H; [reflexivity|]. cbn [app pieces]. destruct (Z.eqb_spec c 32) as [->|N]; [exfalso; apply H; left; reflexivity|].
  rewrite IH by (intro K; apply H; right; exact K). cbn [rev]. rewrite <- app_assoc. reflexivity.
Qed.
Lemma pieces_glue : forall ns, ns <> [] -> Forall (fun n => ~ In 32 n) ns -> pieces [] (glue [32] ns) = ns.
Proof.
  induction ns as [|n ns IH]; intros Hn F; [contradiction|]. destruct ns as [|m ns].
  - cbn [glue]. rewrite <- (app_nil_r n) at 1. rewrite pieces_word by exact (Forall_inv F). cbn [pieces]. rewrite app_nil_r, rev_involutive. reflexivity.
  - rewrite glue_first by discriminate. rewrite pieces_word by exact (Forall_inv F). cbn [pieces Z.eqb Pos.eqb]. rewrite app_nil_r, rev_involutive, IH; [reflexivity|discriminate|exact (Forall_inv_tail F)].
Qed.
Lemma pieces_split : forall s cur t, pieces cur (s ++ 32 :: t) = pieces cur s ++ pieces [] t.
Proof.
  induction s as [|c s IH]; intros cur t; cbn [app pieces]; [reflexivity|]. destruct (c =? 32); rewrite IH; reflexivity.
Qed.
Lemma listed_iff : forall ifc ns, ~ In 32 ifc -> ifc <> [] -> Forall (fun n => ~ In 32 n) ns ->
  contains (32 :: ifc ++ [32]) (32 :: glue [32] ns ++ [32]) = true <-> In ifc ns.
Proof.
  intros ifc ns Hi Hne F. rewrite contains_iff. split.
  - intros (a & b & E).
    assert (P : pieces [] (32 :: glue [32] ns ++ [32]) = pieces [] a ++ ifc :: pieces [] b).
    { rewrite E. change ((32 :: ifc ++ [32]) ++ b) with (32 :: (ifc ++ [32]) ++ b). rewrite pieces_split, <- app_assoc, pieces_word by exact Hi.
      cbn [app pieces Z.eqb Pos.eqb]. rewrite app_nil_r, rev_involutive. reflexivity. }
    cbn [pieces Z.eqb Pos.eqb rev] in P. rewrite pieces_split in P. cbn [pieces rev] in P.
    destruct ns as [|n ns].
    + cbn [glue pieces rev app] in P. assert (K : In ifc [[]; []; []]) by (rewrite P; apply in_or_app; right; left; reflexivity). cbn [In] in K. intuition congruence.
    + rewrite pieces_glue in P by (try discriminate; exact F). assert (K : In ifc ([] :: (n :: ns) ++ [[]])) by (rewrite P; apply in_or_app; right; left; reflexivity).
      destruct K as [K|K]; [congruence|]. apply in_app_iff in K. destruct K as [K|[K|[]]]; [exact K|congruence].
  - intro H. clear F. induction ns as [|n ns IH]; [contradiction|]. destruct H as [->|H].
    + destruct ns as [|m ns]; [exists [], []; rewrite app_nil_r; reflexivity|]. rewrite glue_first by discriminate.
      exists [], (glue [32] (m :: ns) ++ [32]). cbn [app]. rewrite <- !app_assoc. reflexivity.
    + destruct (IH H) as (a & b & E). destruct ns as [|m ns]; [contradiction|]. rewrite glue_first by discriminate.
      exists (32 :: n ++ a), b. cbn [app]. f_equal. rewrite <- !app_assoc. f_equal. cbn [app]. rewrite E. cbn [app]. rewrite <- app_assoc. reflexivity.
Qed.

Section Order.
Variable sys : system.
Variable glob : list Z -> list (list Z).
Variable fuel : nat.
Variable ifc : list Z.
Variable o : options.
Variable conf : list Z.
Variable amp : bool.

Lemma captured_names : forall ns, Forall plain_name ns -> captured (glue [32] ns ++ [10]) = glue [32] ns.
Proof.
  intros ns F. apply captured_line.
  - induction ns as [|n [|m ns] IH]; [intros []|exact (proj1 (proj2 (Forall_inv F)))|]. rewrite glue_first by discriminate. intro K. apply in_app_iff in K.
    destruct K as [K|[K|K]]; [exact (proj1 (proj2 (Forall_inv F)) K)|discriminate|exact (IH (Forall_inv_tail F) K)].
  - induction ns as [|n [|m ns] IH]; [intros []|exact (proj1 (proj2 (proj2 (Forall_inv F))))|]. rewrite glue_first by discriminate. intro K. apply in_app_iff in K.
    destruct K as [K|[K|K]]; [exact (proj1 (proj2 (proj2 (Forall_inv F))) K)|discriminate|exact (IH (Forall_inv_tail F) K)].
Qed.

Lemma check_run : forall ns, plain_name ifc -> Forall plain_name ns ->
  a_output (sys [] show_interfaces) = glue [32] ns ++ [10] -> a_signal (sys [] show_interfaces) = None ->
  let s := mk_shell [(show_interfaces, sys [] show_interfaces)] false false in
  (In ifc ns -> check_interface sys ifc (mk_shell [] false false) = Done 0 s) /\
  (~ In ifc ns -> check_interface sys ifc (mk_shell [] false false) = Exited 1 s).
Proof.
  intros ns (Hi & _ & _ & Hne) F Eo Es. cbv zeta.
  assert (L := listed_iff ifc ns Hi Hne (Forall_impl _ (fun n (H : plain_name n) => proj1 H) F)).
  assert (E : check_interface sys ifc (mk_shell [] false false) =
    (if contains (32 :: ifc ++ [32]) (32 :: glue [32] ns ++ [32]) then Done 0 else Exited 1) (mk_shell [(show_interfaces, sys [] show_interfaces)] false false)).
  { unfold check_interface, is_wireguard, query, bind, run. cbn [sh_hist sh_dns sh_fw]. fold show_interfaces. rewrite Es. cbn [ret app]. rewrite Eo, captured_names by exact F.
    destruct (contains _ _); reflexivity. }
  rewrite E. destruct (contains _ _) eqn:Ec.
  - split; [reflexivity|]. intro N. exfalso. apply N, L. reflexivity.
  - split; [|reflexivity]. intro N. apply L in N. discriminate N.
Qed.

Definition after_check (h : history) : Prop := exists a, h = [(show_interfaces, a)].
Lemma run_steps : forall A (m : prog A) D s, goes ifc at_any m D -> sh_dns s = false -> sh_fw s = false -> undisturbed (sh_hist (QuickSaveProofs.ends (m s))) ->
  match m s with
  | Done a s1 => sh_dns s1 = false /\ sh_fw s1 = false /\ exists h, sh_hist s1 = sh_hist s ++ h /\ careful ifc (sh_hist s) h /\ D a (changes h)
  | Exited st s1 => st <> 0 /\ exists h ev, sh_hist s1 = sh_hist s ++ h ++ [ev] /\ careful ifc (sh_hist s) h /\ a_status (snd ev) <> 0 /\
      exists a cs, D a (changes (h ++ [ev]) ++ cs)
  | Signalled _ _ => False
  | Loops _ => True
  end.
Proof.
  intros A m D s H F1 F2 U. specialize (H s I F1 F2). destruct (m s); try exact H. destruct H as (ev & Hin & Hs). apply Hs. exact (U ev Hin).
Qed.

(** From a state after [h0], with [c0] changes made, everything heeded, to the end of the script. *)
Lemma down_finish : forall s st h pre save c0,
  undisturbed h -> sh_dns s = false -> sh_fw s = false -> heeds ifc (sh_hist s) -> changes (sh_hist s) = c0 ->
  hooked ifc (o_predown o) pre -> (if o_save o then saving conf save else save = []) ->
  c0 = pre ++ save ->
  finish (down_rest sys fuel ifc o) s = (Some st, h) -> down_run ifc o conf st h.
Proof.
  intros s st h pre save c0 U F1 F2 Hh Ec (tpre & Fpre & ->) Hsave -> E. unfold finish, followed in E.
  pose proof (run_steps _ _ _ s (goes_down_rest sys ifc fuel o) F1 F2) as R.
  assert (Order : forall cs, rest_order ifc o cs -> down_order ifc o conf ((map run_hook tpre ++ save) ++ cs)).
  { intros cs (rules & dns & fw & post & (Hr1 & Hr2) & Hd & Hf & (tpost & Fpost & ->) & ->). exists tpre, tpost, save, rules, dns, fw.
    do 7 (split; [assumption|]). rewrite <- !app_assoc. reflexivity. }
  destruct (down_rest sys fuel ifc o s) as [v s1|st1 s1|st1 s1|s1]; cbn [QuickSaveProofs.ends] in R; injection E; [intros <- <- |intros <- <- |intros <- <- |].
  - destruct (R U) as (_ & _ & h1 & E1 & C1 & D1). exists (sh_hist s1), [], []. rewrite !app_nil_r, E1, changes_app, Ec. split; [reflexivity|]. split; [apply Order, D1|].
    left. split; [reflexivity|]. split; [reflexivity|]. split; [reflexivity|]. split; [apply careful_heeds, careful_app; [exact Hh|exact C1]|].
    assert (Hin : In (link_delete ifc) (changes h1)).
    { destruct D1 as (rules & dns & fw & post & _ & _ & _ & _ & ->). rewrite !in_app_iff. cbn [In]. tauto. }
    apply filter_In in Hin. destruct Hin as [Hin _]. apply in_map_iff in Hin. destruct Hin as ([c a] & Ea & Hin). cbn [fst] in Ea. subst c.
    exists a. split; [apply in_or_app; right; exact Hin|].
    destruct (Z.eq_dec (a_status a) 0) as [Z0|N]; [exact Z0|]. exfalso. apply in_split in Hin. destruct Hin as (l1 & l2 & ->).
    assert (K := C1 l1 (link_delete ifc, a) l2 (a_status a) eq_refl). destruct K as [_ [K|K]]; [split; [reflexivity|split; [reflexivity|exact N]]|discriminate|discriminate K|discriminate K].
  - destruct (R U) as (Hst & h1 & ev & E1 & C1 & He & _ & cs & D1). exists (sh_hist s1), [], cs. split; [rewrite app_nil_r; reflexivity|].
    split; [rewrite E1, changes_app, Ec, <- app_assoc; apply Order, D1|]. right. split; [exact Hst|]. split; [|left; reflexivity].
    exists (sh_hist s ++ h1), ev. split; [rewrite E1, app_assoc; reflexivity|]. split; [apply careful_heeds, careful_app; [exact Hh|exact C1]|exact He].
  - destruct (R U).
  - intros _ Hn. discriminate Hn.
Qed.

Lemma in_changes : forall c a h, asks c = false -> In (c, a) h -> In c (changes h).
Proof. intros c a h Ha Hin. apply filter_In. split; [apply in_map_iff; exists (c, a); auto|]. rewrite Ha. reflexivity. Qed.
Lemma undisturbed_app : forall h1 h2, undisturbed (h1 ++ h2) -> undisturbed h1.
Proof. intros h1 h2 U ev Hin. apply U, in_or_app. auto. Qed.

(** What guarded does after its body, when no trap is involved. *)
Lemma after_finish : forall (m : prog Z) s, (match m s with
  | Done _ s2 => (Some 0, sh_hist s2) | Exited st s2 | Signalled st s2 => (Some st, sh_hist s2) | Loops s2 => (None, sh_hist s2) end) = finish m s.
Proof. intros m s. unfold finish, followed. destruct (m s); reflexivity. Qed.

Lemma down_saving : forall s st h pre,
  undisturbed h -> sh_dns s = false -> sh_fw s = false -> heeds ifc (sh_hist s) -> changes (sh_hist s) = pre -> o_save o = true ->
  hooked ifc (o_predown o) pre ->
  save_config sys glob ifc o conf amp (down_rest sys fuel ifc o) s = (Some st, h) -> down_run ifc o conf st h.
Proof.
  intros s st h pre U F1 F2 Hh Ec So Hpre E. destruct (Hpre) as (tpre & Fpre & Epre).
  assert (Sv : forall text old, saving conf (save_head ++ save_body conf text ++ [argv [str "umask"; old]])) by (intros text old; exists text, old; reflexivity).
  assert (Order : forall text old, exists cs, down_order ifc o conf (pre ++ (save_head ++ save_body conf text ++ [argv [str "umask"; old]]) ++ cs)).
  { intros text old. destruct (hooked_some ifc (o_postdown o)) as (post & tpost & Fpost & Ep).
    assert (D0 : exists dns, unregisters_dns ifc o dns).
    { unfold unregisters_dns. destruct (o_dns o); [exists []; auto|]. eexists. right. split; [discriminate|]. exists []. reflexivity. }
    destruct D0 as (dns0 & Hdns0). exists ([] ++ [link_delete ifc] ++ dns0 ++ [] ++ map run_hook tpost). rewrite Epre.
    exists tpre, tpost, (save_head ++ save_body conf text ++ [argv [str "umask"; old]]), [], dns0, [].
    split; [exact Fpre|]. split; [exact Fpost|]. split; [rewrite So; apply Sv|]. split; [constructor|]. split; [auto|]. split; [exact Hdns0|]. split; [constructor|]. reflexivity. }
  unfold save_config, followed in E. pose proof (run_steps _ _ _ s (goes_prepare sys ifc glob o amp) F1 F2) as R.
  destruct (prepare sys glob ifc o amp s) as [[old text] s1|st1 s1|st1 s1|s1]; cbn [QuickSaveProofs.ends fst snd] in R, E.
  2: { injection E as <- <-. destruct (R U) as (Hst & h1 & ev & E1 & C1 & He & _ & cs & D1). destruct (Order [] []) as (cs' & O).
       exists (sh_hist s1), [], (cs ++ (save_body conf [] ++ [argv [str "umask"; []]]) ++ cs'). split; [rewrite app_nil_r; reflexivity|]. split.
       - rewrite E1, changes_app, Ec, <- app_assoc, (app_assoc (changes (h1 ++ [ev]))), D1, (app_assoc save_head). exact O.
       - right. split; [exact Hst|]. split; [|left; reflexivity]. exists (sh_hist s ++ h1), ev. split; [rewrite E1, app_assoc; reflexivity|].
         split; [apply careful_heeds, careful_app; [exact Hh|exact C1]|exact He]. }
  2: { injection E as <- <-. destruct (R U). }
  2: { discriminate E. }
  unfold guarded in E.
  pose proof (goes_replace sys ifc conf text s1 I) as R2.
  assert (Ext : exists k, h = sh_hist s1 ++ k).
  { assert (On : only (fun _ => True) (replace_file sys conf text)).
    { unfold replace_file. apply only_bind; [apply only_run; exact I|]. intro w. destruct (negb _); [apply only_exit|].
      apply only_bind; [apply only_bind; [apply only_run; exact I|]; intro v; destruct (_ && _); [apply only_exit|apply only_ret]|]. intros _.
      apply only_bind; [apply only_run; exact I|]. intro m. destruct (negb _); [apply only_exit|apply only_ret]. }
    assert (Os : forall ws, only (fun _ => True) (step sys true ws)).
    { intro ws. apply only_bind; [apply only_run; exact I|]; intro v; destruct (_ && _); [apply only_exit|apply only_ret]. }
    destruct (On s1) as (k & Ek & _). destruct (replace_file sys conf text s1) as [v s2|st2 s2|st2 s2|s2]; cbn [QuickSaveProofs.ends] in Ek.
    - assert (Od : only (fun _ => True) (step sys true [str "umask"; old] ;;; down_rest sys fuel ifc o)).
      { apply only_bind; [apply Os|]. intros _. intro s9. destruct (proj2 (proj2 (calm_down_rest sys fuel ifc o)) s9) as (h9 & E9 & _). exists h9. split; [exact E9|]. apply Forall_forall. auto. }
      destruct (Od s2) as (k2 & Ek2 & _). exists (k ++ k2). rewrite app_assoc, <- Ek, <- Ek2.
      destruct ((step sys true [str "umask"; old] ;;; down_rest sys fuel ifc o) s2); injection E as _ <-; reflexivity.
    - unfold exit_trap in E. destruct (Os [str "rm"; str "-f"; tmp_file conf] s2) as (k2 & Ek2 & _). exists (k ++ k2). rewrite app_assoc, <- Ek, <- Ek2.
      destruct (step sys true _ s2); injection E as _ <-; reflexivity.
    - destruct (Os [str "rm"; str "-f"; tmp_file conf] s2) as (k2 & Ek2 & _). unfold exit_trap in E.
      destruct (step sys true [str "rm"; str "-f"; tmp_file conf] s2) as [v3 s3|v3 s3|v3 s3|s3]; cbn [QuickSaveProofs.ends] in Ek2;
      [destruct (Os [str "rm"; str "-f"; tmp_file conf] s3) as (k3 & Ek3 & _); exists (k ++ k2 ++ k3); rewrite !app_assoc, <- Ek, <- Ek2, <- Ek3;
       destruct (step sys true _ s3); injection E as _ <-; reflexivity ..|discriminate E].
    - discriminate E. }
  destruct Ext as (kx & Ex). rewrite Ex in U. destruct (R (undisturbed_app _ _ U)) as (G1 & G2 & h1 & E1 & C1 & D1). rewrite <- Ex in U. clear R.
  specialize (R2 G1 G2). destruct (replace_file sys conf text s1) as [v s2|st2 s2|st2 s2|s2].
  - (* the file was replaced *)
    destruct R2 as (K1 & K2 & h2 & E2 & C2 & D2). rewrite after_finish in E.
    assert (Hs2 : heeds ifc (sh_hist s2)).
    { rewrite E2, E1. apply careful_heeds. apply careful_app; [apply careful_app; [exact Hh|exact C1]|]. rewrite E1 in C2. exact C2. }
    assert (Ec2 : changes (sh_hist s2) = pre ++ save_head ++ save_body conf text).
    { rewrite E2, E1, !changes_app, Ec, D1, D2, <- app_assoc. reflexivity. }
    unfold finish, followed, bind in E. pose proof (run_steps _ _ _ s2 (goes_step sys ifc at_any [str "umask"; old] [] eq_refl) K1 K2) as R3. unfold step in E.
    destruct (step_in sys true [str "umask"; old] [] s2) as [v3 s3|st3 s3|st3 s3|s3] eqn:E3; cbn [QuickSaveProofs.ends] in R3.
    + assert (U3 : undisturbed (sh_hist s3)).
      { destruct (proj2 (proj2 (calm_down_rest sys fuel ifc o)) s3) as (k9 & E9 & _). apply (undisturbed_app _ k9). rewrite <- E9.
        destruct (down_rest sys fuel ifc o s3); injection E as _ <-; exact U. }
      destruct (R3 U3) as (L1 & L2 & h3 & E4 & C3 & D3).
      eapply (down_finish s3 st h pre (save_head ++ save_body conf text ++ [argv [str "umask"; old]])); try eassumption.
      * rewrite E4. apply careful_heeds. apply careful_app; [exact Hs2|exact C3].
      * reflexivity.
      * rewrite So. apply Sv.
      * rewrite E4, changes_app, Ec2, D3, <- !app_assoc. reflexivity.
    + injection E as <- <-. destruct (R3 U) as (Hst & h3 & ev & E4 & C3 & He & _ & cs & D3). destruct (Order text old) as (cs' & O).
      exists (sh_hist s3), [], (cs ++ cs'). split; [rewrite app_nil_r; reflexivity|]. split.
      * rewrite E4, changes_app, Ec2, <- app_assoc, (app_assoc (changes (h3 ++ [ev]))), D3. rewrite <- !app_assoc in O. rewrite <- !app_assoc. exact O.
      * right. split; [exact Hst|]. split; [|left; reflexivity]. exists (sh_hist s2 ++ h3), ev. split; [rewrite E4, app_assoc; reflexivity|].
        split; [apply careful_heeds, careful_app; [exact Hs2|exact C3]|exact He].
    + injection E as <- <-. destruct (R3 U).
    + discriminate E.
  - (* it was not: the temporary file is removed *)
    destruct R2 as (Hst & h2 & ev & E2 & C2 & He & _ & cs & D2). destruct (Order text old) as (cs' & O).
    assert (Rm : exists a, h = sh_hist s2 ++ [(argv [str "rm"; str "-f"; tmp_file conf], a)] /\ st <> 0).
    { unfold exit_trap, step, step_in, bind, run in E. set (a := sys (sh_hist s2) _) in E. exists a. destruct (a_signal a) as [sg|] eqn:Es.
      - exfalso. injection E as _ <-. assert (K : a_signal a = None); [|congruence]. apply (U (mk_cmd [str "rm"; str "-f"; tmp_file conf] [], a)). cbn [sh_hist]. apply in_or_app. right. left. reflexivity.
      - destruct (Z.eqb_spec (a_status a) 0) as [Z0|N]; cbn [andb negb ret exit_with sh_hist] in E; injection E as <- <-; auto. }
    destruct Rm as (a & -> & Hst'). exists (sh_hist s2), [(argv [str "rm"; str "-f"; tmp_file conf], a)], (cs ++ [argv [str "umask"; old]] ++ cs').
    split; [reflexivity|]. split.
    + rewrite E2, E1, !changes_app, Ec, D1, <- changes_app, <- !app_assoc, (app_assoc (changes (h2 ++ [ev]))), D2. rewrite <- !app_assoc in O. exact O.
    + right. split; [exact Hst'|]. split.
      * exists (sh_hist s1 ++ h2), ev. split; [rewrite E2, app_assoc; reflexivity|]. split; [|exact He].
        apply careful_heeds. apply careful_app; [rewrite E1; apply careful_app; [exact Hh|exact C1]|exact C2].
      * right. split; [exact So|]. split; [exists a; reflexivity|]. intros b Hin. apply in_changes in Hin; [|reflexivity].
        rewrite E2, E1, !changes_app, Ec, D1 in Hin. rewrite Epre in Hin.
        assert (Hin' : In (link_delete ifc) (map run_hook tpre ++ save_head ++ save_body conf text)).
        { rewrite <- D2, changes_app. repeat rewrite in_app_iff in Hin. repeat rewrite in_app_iff. tauto. }
        rewrite !in_app_iff in Hin'. destruct Hin' as [K|[K|K]].
        -- apply in_map_iff in K. destruct K as (x & K & _). discriminate K.
        -- cbn [In save_head] in K. destruct K as [K|[K|[]]]; discriminate K.
        -- cbn [In save_body] in K. destruct K as [K|[K|[K|[]]]]; discriminate K.
  - destruct R2 as (ev & Hin & Hs). exfalso. apply Hs. apply U.
    assert (Os : forall ws, only (fun _ => True) (step sys true ws)).
    { intro ws. apply only_bind; [apply only_run; exact I|]; intro v; destruct (_ && _); [apply only_exit|apply only_ret]. }
    assert (Sub : exists k, h = sh_hist s2 ++ k); [|destruct Sub as (k & ->); apply in_or_app; auto].
    destruct (Os [str "rm"; str "-f"; tmp_file conf] s2) as (k2 & Ek2 & _). unfold exit_trap in E.
    destruct (step sys true [str "rm"; str "-f"; tmp_file conf] s2) as [v3 s3|v3 s3|v3 s3|s3]; cbn [QuickSaveProofs.ends] in Ek2;
      [destruct (Os [str "rm"; str "-f"; tmp_file conf] s3) as (k3 & Ek3 & _); exists (k2 ++ k3); rewrite !app_assoc, <- Ek2, <- Ek3;
       destruct (step sys true _ s3); injection E as _ <-; reflexivity ..|discriminate E].
  - discriminate E.
Qed.
End Order.

Theorem C49_not_wireguard : forall sys glob fuel ifc o conf amp ns,
  plain_name ifc -> Forall plain_name ns ->
  a_output (sys [] show_interfaces) = glue [32] ns ++ [10] -> a_signal (sys [] show_interfaces) = None ->
  ~ In ifc ns ->
  cmd_down sys glob fuel ifc o conf amp = (Some 1, [(show_interfaces, sys [] show_interfaces)]) /\
  cmd_save sys glob ifc o conf amp = (Some 1, [(show_interfaces, sys [] show_interfaces)]).
Proof.
  intros sys glob fuel ifc o conf amp ns Hi F Eo Es N. destruct (check_run sys ifc ns Hi F Eo Es) as [_ H]. specialize (H N).
  unfold cmd_down, cmd_save, followed, bind. rewrite H. split; reflexivity.
Qed.

Theorem C49_order : forall sys glob fuel ifc o conf amp st h,
  cmd_down sys glob fuel ifc o conf amp = (Some st, h) -> undisturbed h ->
  (st = 1 /\ exists a, h = [(show_interfaces, a)]) \/ down_run ifc o conf st h.
Proof.
  intros sys glob fuel ifc o conf amp st h E U. unfold cmd_down in E. unfold followed at 1 in E.
  unfold bind at 1 in E. unfold check_interface, is_wireguard, query, bind at 1, bind at 1, bind at 1, run at 1 in E. cbn [sh_hist sh_dns sh_fw app] in E. fold show_interfaces in E.
  set (a := sys [] show_interfaces) in E. destruct (a_signal a) as [sg|] eqn:Es.
  { exfalso. injection E as _ <-. assert (K : a_signal a = None); [|congruence]. exact (U (show_interfaces, a) (or_introl eq_refl)). }
  cbn [ret] in E. destruct (contains _ _); cbn [ret exit_with] in E.
  2: { injection E as <- <-. left. split; [reflexivity|]. exists a. reflexivity. }
  right. set (s0 := mk_shell [(show_interfaces, a)] false false) in E.
  pose proof (goes_hooks sys ifc at_any (o_predown o) lasting_any s0 I eq_refl eq_refl) as R.
  assert (H0 : heeds ifc (sh_hist s0)) by (apply careful_heeds, careful_one; left; reflexivity).
  assert (C0 : changes (sh_hist s0) = []) by reflexivity.
  destruct (execute_hooks sys ifc true (o_predown o) s0) as [v s1|st1 s1|st1 s1|s1].
  - destruct R as (F1 & F2 & h1 & E1 & C1 & D1).
    assert (Hs : heeds ifc (sh_hist s1)) by (rewrite E1; apply careful_heeds, careful_app; [exact H0|exact C1]).
    assert (Ec : changes (sh_hist s1) = changes h1) by (rewrite E1, changes_app, C0; reflexivity).
    destruct (o_save o) eqn:So.
    + eapply down_saving; eassumption.
    + eapply (down_finish sys glob fuel ifc o conf s1 st h (changes h1) [] (changes h1)); try eassumption; rewrite ?So, ?app_nil_r; reflexivity.
  - injection E as <- <-. destruct R as (Hst & h1 & ev & E1 & C1 & He & _ & cs & (tpre & Fpre & D1)).
    destruct (hooked_some ifc (o_postdown o)) as (post & tpost & Fpost & Ep).
    assert (D0 : exists dns, unregisters_dns ifc o dns).
    { unfold unregisters_dns. destruct (o_dns o); [exists []; auto|]. eexists. right. split; [discriminate|]. exists []. reflexivity. }
    destruct D0 as (dns0 & Hdns0).
    assert (S0 : exists sv, if o_save o then saving conf sv else sv = []).
    { destruct (o_save o); [|exists []; reflexivity]. eexists. exists [], []. reflexivity. }
    destruct S0 as (sv & Hsv).
    exists (sh_hist s1), [], (cs ++ sv ++ [] ++ [link_delete ifc] ++ dns0 ++ [] ++ map run_hook tpost). split; [rewrite app_nil_r; reflexivity|]. split.
    + rewrite E1, changes_app, C0. cbn [app]. rewrite app_assoc, D1. exists tpre, tpost, sv, [], dns0, [].
      split; [exact Fpre|]. split; [exact Fpost|]. split; [exact Hsv|]. split; [constructor|]. split; [auto|]. split; [exact Hdns0|]. split; [constructor|]. reflexivity.
    + right. split; [exact Hst|]. split; [|left; reflexivity]. exists (sh_hist s0 ++ h1), ev. split; [rewrite E1, app_assoc; reflexivity|].
      split; [apply careful_heeds, careful_app; [exact H0|exact C1]|exact He].
  - exfalso. injection E as _ <-. destruct R as (ev & Hin & Hs). apply Hs. apply U. exact Hin.
  - discriminate E.
Qed.
