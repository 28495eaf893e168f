(** C64: what 'wg-quick' does to the system on FreeBSD, in which order, and what it takes back when a step fails or a signal arrives. *)
From Coq Require Import String ZArith List Bool Lia.
From Verif Require Import Base Cstr CstrProofs Bash Quick QuickRun QuickSpec QuickRunSpec QuickReloadSpec QuickRouteSpec QuickUndoSpec QuickUpProofs PropQuickFirewall PropQuickUndo QuickSave QuickMain
  QuickProofs QuickRouteProofs PropQuickReload Sh BsdRoutes BsdRoutesSpec BsdRoutesProofs BsdRoutesProofs2 BsdRoutesProofs3 PropBsdRoutes FreeQuick FreeSpec FreeProofs FreeProofs2 FreeProofs3 FreeProofs4 FreeProofs5 FreeProofs6.
Import ListNotations.
Open Scope Z_scope.

Lemma one_signal : forall pre ev post h1 ev' cl, calm pre -> calm post -> a_signal (snd ev) <> None -> calm h1 -> a_signal (snd ev') <> None ->
  pre ++ ev :: post = h1 ++ ev' :: cl -> pre = h1 /\ ev = ev' /\ post = cl.
Proof.
  induction pre as [|x pre IH]; intros ev post h1 ev' cl C1 C2 S C3 S' E; destruct h1 as [|y h1]; cbn [app] in E.
  - assert (ev = ev' /\ post = cl) by (split; congruence). tauto.
  - assert (ev = y) by congruence. subst y. inversion C3; subst. contradiction.
  - assert (x = ev') by congruence. subst x. inversion C1; subst. contradiction.
  - assert (x = y) by congruence. assert (E' : pre ++ ev :: post = h1 ++ ev' :: cl) by congruence. subst y. inversion C1; subst. inversion C3; subst.
    destruct (IH ev post h1 ev' cl) as (-> & -> & ->); auto.
Qed.
Lemma fine_calm : forall h, Forall fine h -> calm h.
Proof. intros h F. eapply Forall_impl; [|exact F]. intros ev [S _]. exact S. Qed.
Lemma broke_calm : forall ev st, broke ev st -> a_signal (snd ev) = None.
Proof. intros ev st [S _]. exact S. Qed.
(** No signal in a trap that runs to its end. *)
Lemma finished_calm : forall D v st0 cl st, finished D v st0 cl st -> calm cl.
Proof.
  intros D v st0 cl st [(v1 & _ & F & _)|(cl1 & ev & cl2 & v1 & -> & _ & F & B)]; [apply fine_calm, F|]. apply calm_app. split; [apply fine_calm, F|]. constructor; [eapply broke_calm, B|constructor].
Qed.
Lemma cut_signal : forall D v cl st, cut D v cl st -> exists cl1 ev cl2 v1, cl = cl1 ++ [ev] /\ calm cl1 /\ a_signal (snd ev) = Some st /\ D v tt (cl1 ++ ev :: cl2) v1.
Proof. intros D v cl st (cl1 & ev & cl2 & v1 & -> & X & F & S). exists cl1, ev, cl2, v1. split; [reflexivity|]. split; [apply fine_calm, F|]. auto. Qed.

Section Up.
Variables (sys : system) (glob : list Z -> list (list Z)) (fuel : nat) (ifc : list Z) (o : options) (us d : list Z).
Hypothesis d_ne : d <> [].
Lemma twice_tidied : forall v st0 cl st, calm cl -> twice ifc o (Dtidy d) v st0 cl st -> tidied_twice d st0 cl st.
Proof.
  intros v st0 cl st C (c1 & c2 & st1 & v2 & -> & A & _ & B). apply calm_app in C as [C1 C2]. exists c1, c2, st1. split; [reflexivity|].
  destruct A as [A|A]; [|destruct (not_cut _ _ _ _ C1 A)]. destruct B as [B|B]; [|destruct (not_cut _ _ _ _ C2 B)]. split; eapply tidied_of; eassumption || exact d_ne || idtac; eassumption.
Qed.
Lemma twice_undone : forall v h st0 cl st, calm cl -> (v_dns v = true <-> registered ifc h) -> (v_dns v = true -> o_dns o <> []) -> twice ifc o (Dundo ifc o d) v st0 cl st ->
  exists c1 c2 st1, cl = c1 ++ c2 /\ undone ifc o d h st0 c1 st1 /\ undone ifc o d (h ++ c1) st1 c2 st.
Proof.
  intros v h st0 cl st C Iff Ne (c1 & c2 & st1 & v2 & -> & A & (_ & K2 & K3) & B). apply calm_app in C as [C1 C2]. exists c1, c2, st1. split; [reflexivity|].
  destruct A as [A|A]; [|destruct (not_cut _ _ _ _ C1 A)]. destruct B as [B|B]; [|destruct (not_cut _ _ _ _ C2 B)].
  split; [eapply undone_of; eassumption|]. eapply undone_of; [|intro X; apply K3 in X as [X|X]; [apply Ne, X|exact X]|exact B]. rewrite K2, Iff, registered_app. reflexivity.
Qed.
Lemma start_registered : forall h v1, tracks ifc o (first_vars d) h v1 -> (v_dns v1 = true <-> registered ifc h) /\ (v_dns v1 = true -> o_dns o <> []).
Proof. intros h v1 (_ & K2 & K3). cbn [v_dns first_vars] in *. split; [rewrite K2; split; [intros [X|X]; [discriminate X|exact X]|auto]|]. intro X. apply K3 in X as [X|X]; [discriminate X|exact X]. Qed.
Lemma kept_of : forall p rs v1, routes_all_of o F4 rs \/ routes_all_of o F6 rs -> up_complete ifc o (first_vars d) p rs v1 -> hosts_kept ifc o rs (p_hosts p).
Proof.
  intros p rs v1 X (vr & (G4 & G6 & Ge & A4 & A6) & U & _). cbn [first_vars v_eps v_gw4 v_gw6] in *. destruct (U X) as (_ & B4 & B6 & (a4 & a6 & ae & L & R4 & R6 & I1 & I2) & K); [rewrite Ge; constructor|].
  exists a4, a6, ae, (v_gw4 v1), (v_gw6 v1), (fresh_eps ae), (v_auto4 v1), (v_auto6 v1). split; [exact L|]. split; [rewrite R4; apply gateway_spec|]. split; [rewrite R6; apply gateway_spec|]. split; [apply hosts_spec|].
  split; [rewrite B4; exact A4|]. split; [rewrite B6; exact A6|]. intros B T Kn No.
  assert (S : sound B vr B) by (split; [|rewrite Ge; intros e f []]; intros f e; rewrite Ge; split; [intros [[] _]|reflexivity]).
  destruct (K B B T Kn No S) as [Hd _]. intros f e. destruct (Hd f e) as [H1 H2]. split.
  - intros [Hi Hw]. apply H1. split; [eapply I2; eassumption|exact Hw].
  - intro N. apply H2. intros [Hi Hw]. apply N. split; [apply I1, Hi|exact Hw].
Qed.
Lemma not_registered_first : v_dns (first_vars d) = true <-> registered ifc [].
Proof. split; [discriminate|]. intro X. destruct (not_registered_nil ifc X). Qed.

(** 'wg-quick up' without signals: nothing if the interface is there already; otherwise the interface is created and the documented steps run in order, all
    successful, or one fails and what had been done is taken back. *)
Theorem C64_up : forall h0 h st, cmd_up sys glob fuel ifc o us (mk_sh h0 (first_vars d)) = (Some st, h0 ++ h) -> undisturbed h -> exists a r, h = (is_there ifc, a) :: r /\
  ((captured (a_output a) <> [] /\ tidied d 1 r st) \/
   (captured (a_output a) = [] /\
    ((exists cr p rs cl, r = cr ++ all_steps p ++ cl /\ created us ifc cr /\ in_order glob ifc o rs p /\ Forall fine (all_steps p) /\ tidied d 0 cl st /\
        (routes_all_of o F4 rs \/ routes_all_of o F6 rs -> hosts_kept ifc o rs (p_hosts p))) \/
     (exists cr st0 cl, r = cr ++ cl /\ not_created us ifc cr st0 /\ undone ifc o d [] st0 cl st) \/
     (exists cr fwd ev rest p rs st0 cl, r = cr ++ fwd ++ ev :: cl /\ created us ifc cr /\ in_order glob ifc o rs p /\ all_steps p = fwd ++ ev :: rest /\ Forall fine fwd /\
        broke ev st0 /\ undone ifc o d (fwd ++ [ev]) st0 cl st)))).
Proof.
  intros h0 h st E C. destruct (up_cases sys glob fuel ifc o us d d_ne (mk_sh h0 (first_vars d)) st _ eq_refl E) as (a & r & Eh & X). cbn [s_hist] in Eh. apply app_inv_head in Eh. subst h. exists a, r. split; [reflexivity|].
  inversion C as [|? ? Ca Cr]; subst. cbn [snd] in Ca. fold (calm r) in Cr. destruct X as [(_ & N & X)|[(st0 & S & _)|(_ & N & X)]]; [|congruence|].
  - left. split; [exact N|]. destruct X as [X|X]; [eapply tidied_of; eassumption|destruct (not_cut _ _ _ _ Cr X)].
  - right. split; [exact N|]. destruct X as [(cr & p & rs & cl & v1 & -> & Cd & _ & IO & F & U & X)|[(cr & cl & st0 & -> & Cd & _ & X)|[(cr & ev & cl & st0 & -> & _ & S & _)|
      (cr & fwd & ev & cl & p & rs & rest & v1 & st0 & -> & Cd & _ & IO & Ep & F & K & X)]]].
    + left. apply calm_app in Cr as [_ Cr]. apply calm_app in Cr as [_ Cr]. exists cr, p, rs, cl. split; [reflexivity|]. split; [exact Cd|]. split; [exact IO|]. split; [exact F|].
      split; [|intro Y; eapply kept_of; eassumption]. destruct X as [X|X]; [eapply tidied_of; eassumption|destruct (not_cut _ _ _ _ Cr X)].
    + right. left. apply calm_app in Cr as [_ Cr]. exists cr, st0, cl. split; [reflexivity|]. split; [exact Cd|]. destruct X as [X|X]; [|destruct (not_cut _ _ _ _ Cr X)].
      eapply undone_of; [apply not_registered_first|discriminate|exact X].
    + apply calm_app in Cr as [_ Cr]. inversion Cr as [|? ? Ce _]; subst. congruence.
    + right. right. apply calm_app in Cr as [_ Cr]. apply calm_app in Cr as [_ Cr]. inversion Cr as [|? ? Ce Cl]; subst. exists cr, fwd, ev, rest, p, rs, st0, cl. split; [reflexivity|]. split; [exact Cd|]. split; [exact IO|]. split; [exact Ep|].
      split; [exact F|]. destruct X as [(B & X)|(S & _)]; [|congruence]. split; [exact B|]. apply start_registered in K as [K1 K2]. destruct X as [X|X]; [|destruct (not_cut _ _ _ _ Cl X)]. eapply undone_of; eassumption.
Qed.
(** A signal arrives while a command runs: during the set-up, all that had been done is taken back, and the trap runs a second time. *)
Theorem C64_up_interrupted : forall h0 pre ev post st st0, cmd_up sys glob fuel ifc o us (mk_sh h0 (first_vars d)) = (Some st, h0 ++ pre ++ ev :: post) ->
  undisturbed pre -> undisturbed post -> a_signal (snd ev) = Some st0 ->
  (pre = [] /\ fst ev = is_there ifc /\ tidied_twice d st0 post st) \/
  (exists a cr fwd, pre = (is_there ifc, a) :: cr ++ fwd /\ captured (a_output a) = [] /\
     ((fwd = [] /\ creating us ifc cr (fst ev)) \/ (created us ifc cr /\ exists p rs rest, in_order glob ifc o rs p /\ all_steps p = fwd ++ ev :: rest /\ Forall fine fwd)) /\
     exists c1 c2 st1, post = c1 ++ c2 /\ undone ifc o d (fwd ++ [ev]) st0 c1 st1 /\ undone ifc o d (fwd ++ [ev] ++ c1) st1 c2 st) \/
  (* the script was ending already *)
  (post = [] /\ st = st0 /\ (fst ev = remove_dir d \/ exists before cl1 cl2, pre = before ++ cl1 /\ exists h, undoing ifc o d h (cl1 ++ ev :: cl2))).
Proof.
  intros h0 pre ev post st st0 E C1 C2 S. destruct (up_cases sys glob fuel ifc o us d d_ne (mk_sh h0 (first_vars d)) st _ eq_refl E) as (a & r & Eh & X). cbn [s_hist] in Eh. apply app_inv_head in Eh.
  assert (Sn : a_signal (snd ev) <> None) by congruence.
  assert (Tidy : forall h1 v cl, cut (Dtidy d) v cl st -> calm h1 -> pre ++ ev :: post = h1 ++ cl -> post = [] /\ st = st0 /\ fst ev = remove_dir d).
  { intros h1 v cl Hc Ch Ex. apply cut_signal in Hc as (cl1 & ev' & cl2 & v1 & -> & Cc & S' & [(b & D) _]). rewrite app_assoc in Ex. apply one_signal in Ex as (_ & <- & ->); try assumption; [|apply calm_app; auto|congruence].
    split; [reflexivity|]. split; [congruence|]. destruct cl1 as [|x [|y cl1]]; [|discriminate D|discriminate D]. cbn [app] in D. assert (De : ev = (remove_dir d, b)) by congruence. rewrite De. reflexivity. }
  assert (NoTidy : forall h1 v st1 cl, finished (Dtidy d) v st1 cl st -> calm h1 -> pre ++ ev :: post <> h1 ++ cl).
  { intros h1 v st1 cl Hf Ch Ex. assert (Ca : calm (pre ++ ev :: post)) by (rewrite Ex; apply calm_app; split; [exact Ch|eapply finished_calm, Hf]). apply calm_app in Ca as [_ Ca]. inversion Ca; subst. contradiction. }
  assert (NoUndo : forall h1 v st1 cl, finished (Dundo ifc o d) v st1 cl st -> calm h1 -> pre ++ ev :: post <> h1 ++ cl).
  { intros h1 v st1 cl Hf Ch Ex. assert (Ca : calm (pre ++ ev :: post)) by (rewrite Ex; apply calm_app; split; [exact Ch|eapply finished_calm, Hf]). apply calm_app in Ca as [_ Ca]. inversion Ca; subst. contradiction. }
  assert (Undo : forall h1 h v cl, (v_dns v = true <-> registered ifc h) -> (v_dns v = true -> o_dns o <> []) -> cut (Dundo ifc o d) v cl st -> calm h1 -> pre ++ ev :: post = h1 ++ cl ->
     post = [] /\ st = st0 /\ exists before cl1 cl2, pre = before ++ cl1 /\ exists h, undoing ifc o d h (cl1 ++ ev :: cl2)).
  { intros h1 h v cl Iff Ne Hc Ch Ex. apply cut_signal in Hc as (cl1 & ev' & cl2 & v1 & -> & Cc & S' & [D _]). rewrite app_assoc in Ex. apply one_signal in Ex as (-> & <- & ->); try assumption; [|apply calm_app; auto|congruence].
    split; [reflexivity|]. split; [congruence|]. exists h1, cl1, cl2. split; [reflexivity|]. exists h. eapply undoing_of; eassumption. }
  destruct X as [(Sa & N & X)|[(st1 & Sa & X)|(Sa & N & X)]].
  - right. right. change ((is_there ifc, a) :: r) with ([(is_there ifc, a)] ++ r) in Eh. assert (Ch : calm [(is_there ifc, a)]) by (constructor; [exact Sa|constructor]).
    destruct X as [X|X]; [destruct (NoTidy _ _ _ _ X Ch Eh)|]. destruct (Tidy _ _ _ X Ch Eh) as (-> & -> & ->). auto.
  - left. apply (one_signal pre ev post [] (is_there ifc, a) r) in Eh as (-> & -> & ->); try assumption; [|constructor|cbn [snd]; congruence]. split; [reflexivity|]. split; [reflexivity|]. cbn [snd] in S. assert (st1 = st0) by congruence. subst st1.
    eapply twice_tidied; eassumption.
  - assert (Ch : calm [(is_there ifc, a)]) by (constructor; [exact Sa|constructor]). change ((is_there ifc, a) :: r) with ([(is_there ifc, a)] ++ r) in Eh.
    destruct X as [(cr & p & rs & cl & v1 & -> & Cd & Cc & IO & F & U & X)|[(cr & cl & st1 & -> & Cd & Cc & X)|[(cr & ev' & cl & st1 & -> & Cc & S' & Cd & X)|
      (cr & fwd & ev' & cl & p & rs & rest & v1 & st1 & -> & Cd & Cc & IO & Ep & F & K & X)]]].
    + right. right. rewrite !app_assoc in Eh. assert (Ch' : calm (([(is_there ifc, a)] ++ cr) ++ all_steps p)) by (rewrite !calm_app; split; [split; assumption|apply fine_calm, F]).
      destruct X as [X|X]; [destruct (NoTidy _ _ _ _ X Ch' Eh)|]. destruct (Tidy _ _ _ X Ch' Eh) as (-> & -> & ->). auto.
    + right. right. rewrite app_assoc in Eh. assert (Ch' : calm ([(is_there ifc, a)] ++ cr)) by (apply calm_app; auto).
      destruct X as [X|X]; [destruct (NoUndo _ _ _ _ X Ch' Eh)|]. destruct (Undo _ [] _ _ not_registered_first ltac:(discriminate) X Ch' Eh) as (-> & -> & Y). auto.
    + right. left. rewrite app_assoc in Eh. apply one_signal in Eh as (-> & <- & <-); try assumption; [|apply calm_app; auto|congruence]. exists a, cr, []. rewrite app_nil_r. split; [reflexivity|]. split; [exact N|]. split; [left; auto|].
      assert (st1 = st0) by congruence. subst st1. apply (twice_undone (first_vars d) ([] ++ [ev])) in X; [|exact C2| |discriminate].
      * destruct X as (c1 & c2 & st1 & Ex & U1 & U2). exists c1, c2, st1. rewrite app_assoc. auto.
      * cbn [app]. split; [discriminate|]. intros (t & b & [Ee|[]] & _ & Sb). exfalso. rewrite Ee in S. cbn [snd] in S. congruence.
    + rewrite !app_assoc in Eh. assert (Ch' : calm (([(is_there ifc, a)] ++ cr) ++ fwd)) by (rewrite !calm_app; split; [split; assumption|apply fine_calm, F]). apply start_registered in K as [K1 K2].
      destruct X as [(B & X)|(S' & X)].
      * right. right. assert (Ch2 : calm ((([(is_there ifc, a)] ++ cr) ++ fwd) ++ [ev'])) by (apply calm_app; split; [exact Ch'|constructor; [eapply broke_calm, B|constructor]]).
        change (ev' :: cl) with ([ev'] ++ cl) in Eh. rewrite app_assoc in Eh. destruct X as [X|X]; [destruct (NoUndo _ _ _ _ X Ch2 Eh)|]. destruct (Undo _ _ _ _ K1 K2 X Ch2 Eh) as (-> & -> & Y). auto.
      * right. left. apply one_signal in Eh as (-> & <- & <-); try assumption; [|congruence]. exists a, cr, fwd. split; [rewrite <- app_assoc; reflexivity|]. split; [exact N|].
        split; [right; split; [exact Cd|]; exists p, rs, rest; auto|]. assert (st1 = st0) by congruence. subst st1. destruct (twice_undone _ _ _ _ _ C2 K1 K2 X) as (c1 & c2 & st1 & Ex & U1 & U2). exists c1, c2, st1.
        rewrite app_assoc. auto.
Qed.
End Up.

Section Down.
Variables (sys : system) (fuel : nat) (ifc : list Z) (o : options) (conf d : list Z) (amp : bool).
Hypothesis d_ne : d <> [].
Lemma tidied_here : forall v st0 cl st, finished (Dtidy d) v st0 cl st -> tidied d st0 cl st.
Proof. apply (tidied_of (fun _ => []) ifc). Qed.
Lemma listed_iff : forall a, says_listed ifc a = true <-> named_in ifc (a_output a).
Proof. intro a. unfold says_listed, named_in. apply contains_iff. Qed.
Lemma not_listed_iff : forall a, says_listed ifc a = false <-> ~ named_in ifc (a_output a).
Proof. intro a. rewrite <- listed_iff. destruct (says_listed ifc a); split; congruence. Qed.
Lemma trapped_tidy : forall ev cl st, trapped ifc o (Dtidy d) ev cl st -> a_signal (snd ev) = None -> calm cl -> exists st0, broke ev st0 /\ tidied d st0 cl st.
Proof.
  intros ev cl st (st0 & v1 & [(B & X)|(S & _)]) N C; [|congruence]. exists st0. split; [exact B|]. destruct X as [X|X]; [eapply tidied_here; eassumption|destruct (not_cut _ _ _ _ C X)].
Qed.
Lemma trapped_file : forall ev cl st, trapped ifc o (Dfile conf d) ev cl st -> a_signal (snd ev) = None -> calm cl -> exists st0, broke ev st0 /\ tidied_file d conf st0 cl st.
Proof.
  intros ev cl st (st0 & v1 & [(B & X)|(S & _)]) N C; [|congruence]. exists st0. split; [exact B|]. destruct X as [X|X]; [eapply tidied_file_of; eassumption|destruct (not_cut _ _ _ _ C X)].
Qed.
Lemma twice_tidied_file : forall v st0 cl st, calm cl -> twice ifc o (Dfile conf d) v st0 cl st -> tidied_file_twice d conf st0 cl st.
Proof.
  intros v st0 cl st C (c1 & c2 & st1 & v2 & -> & A & _ & B). apply calm_app in C as [C1 C2]. exists c1, c2, st1. split; [reflexivity|].
  destruct A as [A|A]; [|destruct (not_cut _ _ _ _ C1 A)]. destruct B as [B|B]; [|destruct (not_cut _ _ _ _ C2 B)]. split; eapply tidied_file_of; eassumption.
Qed.
Definition swept (c : command) (st0 : Z) (cl : history) (st : Z) : Prop :=
  (replacing conf c -> tidied_file d conf st0 cl st) /\ (~ replacing conf c -> tidied d st0 cl st).
Definition swept_twice (c : command) (st0 : Z) (cl : history) (st : Z) : Prop :=
  (replacing conf c -> tidied_file_twice d conf st0 cl st) /\ (~ replacing conf c -> tidied_twice d st0 cl st).
Lemma swept_of : forall ev cl st, (replacing conf (fst ev) /\ trapped ifc o (Dfile conf d) ev cl st) \/ (~ replacing conf (fst ev) /\ trapped ifc o (Dtidy d) ev cl st) ->
  a_signal (snd ev) = None -> calm cl -> exists st0, broke ev st0 /\ swept (fst ev) st0 cl st.
Proof.
  intros ev cl st [(R & T)|(R & T)] N C.
  - destruct (trapped_file _ _ _ T N C) as (st0 & B & X). exists st0. split; [exact B|]. split; [auto|contradiction].
  - destruct (trapped_tidy _ _ _ T N C) as (st0 & B & X). exists st0. split; [exact B|]. split; [contradiction|auto].
Qed.
(** 'wg-quick down' without signals. *)
Theorem C64_down : forall h0 h st, cmd_down sys fuel ifc o conf amp (mk_sh h0 (first_vars d)) = (Some st, h0 ++ h) -> undisturbed h -> exists a r, h = (show_interfaces, a) :: r /\
  ((~ named_in ifc (a_output a) /\ tidied d 1 r st) \/
   (named_in ifc (a_output a) /\
    ((exists q cl, r = all_dsteps q ++ cl /\ down_in_order ifc o conf amp q /\ Forall fine (all_dsteps q) /\ tidied d 0 cl st) \/
     (exists q fwd ev rest st0 cl, r = fwd ++ ev :: cl /\ all_dsteps q = fwd ++ ev :: rest /\ down_in_order ifc o conf amp q /\ Forall fine fwd /\ broke ev st0 /\
        (replacing conf (fst ev) -> tidied_file d conf st0 cl st) /\ (~ replacing conf (fst ev) -> tidied d st0 cl st))))).
Proof.
  intros h0 h st E C. destruct (down_cases sys fuel ifc o conf amp d d_ne (mk_sh h0 (first_vars d)) st _ eq_refl E) as (a & r & Eh & X). cbn [s_hist] in Eh. apply app_inv_head in Eh. subst h.
  exists a, r. split; [reflexivity|]. inversion C as [|? ? Ca Cr]; subst. cbn [snd] in Ca. fold (calm r) in Cr. destruct X as [[(_ & L & X)|(st0 & S & _)]|(_ & L & X)]; [|congruence|].
  - left. split; [apply not_listed_iff, L|]. destruct X as [X|X]; [eapply tidied_here; eassumption|destruct (not_cut _ _ _ _ Cr X)].
  - right. split; [apply listed_iff, L|]. destruct X as [(q & cl & v1 & -> & Oq & F & X)|(q & fwd & ev & more & cl & -> & Eq & Oq & F & X)].
    + left. apply calm_app in Cr as [_ Cr]. exists q, cl. split; [reflexivity|]. split; [exact Oq|]. split; [exact F|]. destruct X as [X|X]; [eapply tidied_here; eassumption|destruct (not_cut _ _ _ _ Cr X)].
    + right. apply calm_app in Cr as [_ Cr]. inversion Cr as [|? ? Ce Cl]; subst. destruct (swept_of ev cl st X Ce Cl) as (st0 & B & Sw). exists q, fwd, ev, more, st0, cl. split; [reflexivity|]. auto 6.
Qed.
(** 'wg-quick save' without signals. *)
Theorem C64_save : forall h0 h st, cmd_save sys ifc o conf amp (mk_sh h0 (first_vars d)) = (Some st, h0 ++ h) -> undisturbed h -> exists a r, h = (show_interfaces, a) :: r /\
  ((~ named_in ifc (a_output a) /\ tidied d 1 r st) \/
   (named_in ifc (a_output a) /\
    ((exists q cl, r = q ++ cl /\ saving_steps ifc o conf amp q /\ Forall fine q /\ tidied d 0 cl st) \/
     (exists q fwd ev rest st0 cl, r = fwd ++ ev :: cl /\ q = fwd ++ ev :: rest /\ saving_steps ifc o conf amp q /\ Forall fine fwd /\ broke ev st0 /\
        (replacing conf (fst ev) -> tidied_file d conf st0 cl st) /\ (~ replacing conf (fst ev) -> tidied d st0 cl st))))).
Proof.
  intros h0 h st E C. destruct (save_cmd_cases sys ifc o conf amp d d_ne (mk_sh h0 (first_vars d)) st _ eq_refl E) as (a & r & Eh & X). cbn [s_hist] in Eh. apply app_inv_head in Eh. subst h.
  exists a, r. split; [reflexivity|]. inversion C as [|? ? Ca Cr]; subst. cbn [snd] in Ca. fold (calm r) in Cr. destruct X as [[(_ & L & X)|(st0 & S & _)]|(_ & L & X)]; [|congruence|].
  - left. split; [apply not_listed_iff, L|]. destruct X as [X|X]; [eapply tidied_here; eassumption|destruct (not_cut _ _ _ _ Cr X)].
  - right. split; [apply listed_iff, L|]. destruct X as [(q & h2 & cl & v1 & -> & Oq & -> & F & X)|(q & h2 & fwd & ev & more & cl & -> & Eq & Oq & -> & F & X)].
    + left. rewrite app_nil_r in F. apply calm_app in Cr as [_ Cr]. exists q, cl. split; [reflexivity|]. split; [exact Oq|]. split; [exact F|]. destruct X as [X|X]; [eapply tidied_here; eassumption|destruct (not_cut _ _ _ _ Cr X)].
    + right. rewrite app_nil_r in Eq. apply calm_app in Cr as [_ Cr]. inversion Cr as [|? ? Ce Cl]; subst. destruct (swept_of ev cl st X Ce Cl) as (st0 & B & Sw). exists (fwd ++ ev :: more), fwd, ev, more, st0, cl. split; [reflexivity|]. auto 7.
Qed.
Lemma trap_signal : forall pre ev post h1 ev' cl st st0, calm pre -> calm post -> a_signal (snd ev) = Some st0 -> pre ++ ev :: post = h1 ++ ev' :: cl ->
  (replacing conf (fst ev') /\ trapped ifc o (Dfile conf d) ev' cl st) \/ (~ replacing conf (fst ev') /\ trapped ifc o (Dtidy d) ev' cl st) -> calm h1 ->
  (pre = h1 /\ ev = ev' /\ swept_twice (fst ev) st0 post st) \/
  (post = [] /\ st = st0 /\ (fst ev = remove_dir d \/ fst ev = argv [str "rm"; str "-f"; conf ++ str ".tmp"])).
Proof.
  intros pre ev post h1 ev' cl st st0 C1 C2 S E X Ch. assert (Sn : a_signal (snd ev) <> None) by congruence. destruct (a_signal (snd ev')) as [st1|] eqn:S'.
  - left. apply one_signal in E as (-> & <- & <-); try assumption; [|congruence]. split; [reflexivity|]. split; [reflexivity|].
    destruct X as [(R & st2 & v1 & [(B & _)|(S2 & T)])|(R & st2 & v1 & [(B & _)|(S2 & T)])]; try (apply broke_calm in B; congruence); (assert (st2 = st0) by congruence; subst st2); (split; [intro R'|intro R']); try contradiction.
    + eapply twice_tidied_file; eassumption.
    + eapply (twice_tidied (fun _ => [])); eassumption.
  - right. assert (Ch2 : calm (h1 ++ [ev'])) by (apply calm_app; split; [exact Ch|constructor; [exact S'|constructor]]). change (ev' :: cl) with ([ev'] ++ cl) in E. rewrite app_assoc in E.
    assert (No : forall D v s1, finished D v s1 cl st -> False).
    { intros D v s1 Hf. assert (Ca : calm (pre ++ ev :: post)) by (rewrite E; apply calm_app; split; [exact Ch2|eapply finished_calm, Hf]). apply calm_app in Ca as [_ Ca]. inversion Ca; subst. contradiction. }
    destruct X as [(R & st2 & v1 & [(B & [X|X])|(S2 & T)])|(R & st2 & v1 & [(B & [X|X])|(S2 & T)])]; try congruence; try (destruct (No _ _ _ X)).
    + apply cut_signal in X as (cl1 & e & cl2 & v2 & -> & Cc & S2 & [(b & b' & D) _]). rewrite app_assoc in E. apply one_signal in E as (_ & <- & ->); try assumption; [|apply calm_app; auto|congruence].
      split; [reflexivity|]. split; [congruence|]. destruct cl1 as [|x [|y cl1]]; cbn [app] in D.
      * right. assert (De : ev = (argv [str "rm"; str "-f"; conf ++ str ".tmp"], b)) by congruence. rewrite De. reflexivity.
      * left. assert (De : ev = (remove_dir d, b')) by congruence. rewrite De. reflexivity.
      * assert (L := f_equal (@length event) D). cbn in L. rewrite app_length in L. cbn in L. lia.
    + apply cut_signal in X as (cl1 & e & cl2 & v2 & -> & Cc & S2 & [(b & D) _]). rewrite app_assoc in E. apply one_signal in E as (_ & <- & ->); try assumption; [|apply calm_app; auto|congruence].
      split; [reflexivity|]. split; [congruence|]. destruct cl1 as [|x [|y cl1]]; [|discriminate D|discriminate D]. cbn [app] in D. left. assert (De : ev = (remove_dir d, b)) by congruence. rewrite De. reflexivity.
Qed.
Lemma tidy_signal : forall pre ev post h1 v st1 cl st st0, calm pre -> calm post -> a_signal (snd ev) = Some st0 -> pre ++ ev :: post = h1 ++ cl ->
  finished (Dtidy d) v st1 cl st \/ cut (Dtidy d) v cl st -> calm h1 -> post = [] /\ st = st0 /\ fst ev = remove_dir d.
Proof.
  intros pre ev post h1 v st1 cl st st0 C1 C2 S E X Ch. assert (Sn : a_signal (snd ev) <> None) by congruence. destruct X as [X|X].
  - assert (Ca : calm (pre ++ ev :: post)) by (rewrite E; apply calm_app; split; [exact Ch|eapply finished_calm, X]). apply calm_app in Ca as [_ Ca]. inversion Ca; subst. contradiction.
  - apply cut_signal in X as (cl1 & e & cl2 & v2 & -> & Cc & S2 & [(b & D) _]). rewrite app_assoc in E. apply one_signal in E as (_ & <- & ->); try assumption; [|apply calm_app; auto|congruence].
    split; [reflexivity|]. split; [congruence|]. destruct cl1 as [|x [|y cl1]]; [|discriminate D|discriminate D]. cbn [app] in D. assert (De : ev = (remove_dir d, b)) by congruence. rewrite De. reflexivity.
Qed.
(** A signal arrives while a command of 'wg-quick down' runs: nothing more is taken down, the temporary files are removed, and once more. *)
Theorem C64_down_interrupted : forall h0 pre ev post st st0, cmd_down sys fuel ifc o conf amp (mk_sh h0 (first_vars d)) = (Some st, h0 ++ pre ++ ev :: post) ->
  undisturbed pre -> undisturbed post -> a_signal (snd ev) = Some st0 ->
  (pre = [] /\ fst ev = show_interfaces /\ tidied_twice d st0 post st) \/
  (exists a fwd q rest, pre = (show_interfaces, a) :: fwd /\ named_in ifc (a_output a) /\ all_dsteps q = fwd ++ ev :: rest /\ down_in_order ifc o conf amp q /\ Forall fine fwd /\
     (replacing conf (fst ev) -> tidied_file_twice d conf st0 post st) /\ (~ replacing conf (fst ev) -> tidied_twice d st0 post st)) \/
  (* the script was ending already *)
  (post = [] /\ st = st0 /\ (fst ev = remove_dir d \/ fst ev = argv [str "rm"; str "-f"; conf ++ str ".tmp"])).
Proof.
  intros h0 pre ev post st st0 E C1 C2 S. destruct (down_cases sys fuel ifc o conf amp d d_ne (mk_sh h0 (first_vars d)) st _ eq_refl E) as (a & r & Eh & X). cbn [s_hist] in Eh. apply app_inv_head in Eh.
  assert (Sn : a_signal (snd ev) <> None) by congruence. change ((ask_interfaces, a) :: r) with ([(show_interfaces, a)] ++ r) in Eh.
  destruct X as [[(Sa & L & X)|(st1 & Sa & X)]|(Sa & L & X)].
  - right. right. destruct (tidy_signal pre ev post _ _ _ _ _ _ C1 C2 S Eh X ltac:(constructor; [exact Sa|constructor])) as (-> & -> & ->). auto.
  - left. apply (one_signal pre ev post [] (show_interfaces, a) r) in Eh as (-> & -> & ->); try assumption; [|constructor|cbn [snd]; congruence]. split; [reflexivity|]. split; [reflexivity|].
    cbn [snd] in S. assert (st1 = st0) by congruence. subst st1. eapply (twice_tidied (fun _ => [])); eassumption.
  - assert (Ch : calm [(show_interfaces, a)]) by (constructor; [exact Sa|constructor]). destruct X as [(q & cl & v1 & -> & Oq & F & X)|(q & fwd & ev' & more & cl & -> & Eq & Oq & F & X)]; rewrite app_assoc in Eh.
    + right. right. destruct (tidy_signal pre ev post _ _ _ _ _ _ C1 C2 S Eh X ltac:(apply calm_app; split; [exact Ch|apply fine_calm, F])) as (-> & -> & ->). auto.
    + right. destruct (trap_signal pre ev post _ ev' cl st st0 C1 C2 S Eh X ltac:(apply calm_app; split; [exact Ch|apply fine_calm, F])) as [(-> & <- & Sw)|Y]; [|right; exact Y].
      left. exists a, fwd, q, more. split; [reflexivity|]. split; [apply listed_iff, L|]. split; [exact Eq|]. split; [exact Oq|]. split; [exact F|]. exact Sw.
Qed.
Theorem C64_save_interrupted : forall h0 pre ev post st st0, cmd_save sys ifc o conf amp (mk_sh h0 (first_vars d)) = (Some st, h0 ++ pre ++ ev :: post) ->
  undisturbed pre -> undisturbed post -> a_signal (snd ev) = Some st0 ->
  (pre = [] /\ fst ev = show_interfaces /\ tidied_twice d st0 post st) \/
  (exists a fwd q rest, pre = (show_interfaces, a) :: fwd /\ named_in ifc (a_output a) /\ q = fwd ++ ev :: rest /\ saving_steps ifc o conf amp q /\ Forall fine fwd /\
     (replacing conf (fst ev) -> tidied_file_twice d conf st0 post st) /\ (~ replacing conf (fst ev) -> tidied_twice d st0 post st)) \/
  (* the script was ending already *)
  (post = [] /\ st = st0 /\ (fst ev = remove_dir d \/ fst ev = argv [str "rm"; str "-f"; conf ++ str ".tmp"])).
Proof.
  intros h0 pre ev post st st0 E C1 C2 S. destruct (save_cmd_cases sys ifc o conf amp d d_ne (mk_sh h0 (first_vars d)) st _ eq_refl E) as (a & r & Eh & X). cbn [s_hist] in Eh. apply app_inv_head in Eh.
  assert (Sn : a_signal (snd ev) <> None) by congruence. change ((ask_interfaces, a) :: r) with ([(show_interfaces, a)] ++ r) in Eh.
  destruct X as [[(Sa & L & X)|(st1 & Sa & X)]|(Sa & L & X)].
  - right. right. destruct (tidy_signal pre ev post _ _ _ _ _ _ C1 C2 S Eh X ltac:(constructor; [exact Sa|constructor])) as (-> & -> & ->). auto.
  - left. apply (one_signal pre ev post [] (show_interfaces, a) r) in Eh as (-> & -> & ->); try assumption; [|constructor|cbn [snd]; congruence]. split; [reflexivity|]. split; [reflexivity|].
    cbn [snd] in S. assert (st1 = st0) by congruence. subst st1. eapply (twice_tidied (fun _ => [])); eassumption.
  - assert (Ch : calm [(show_interfaces, a)]) by (constructor; [exact Sa|constructor]).
    destruct X as [(q & h2 & cl & v1 & -> & Oq & -> & F & X)|(q & h2 & fwd & ev' & more & cl & -> & Eq & Oq & -> & F & X)]; rewrite ?app_nil_r in *; cbn [app] in Eh.
    + right. right. cbn [app] in Eh. change ((show_interfaces, a) :: q ++ cl) with (((show_interfaces, a) :: q) ++ cl) in Eh. destruct (tidy_signal pre ev post _ _ _ _ _ _ C1 C2 S Eh X ltac:(constructor; [exact Sa|apply fine_calm, F])) as (-> & -> & ->). auto.
    + right. change ((show_interfaces, a) :: fwd ++ ev' :: cl) with (((show_interfaces, a) :: fwd) ++ ev' :: cl) in Eh.
      destruct (trap_signal pre ev post _ ev' cl st st0 C1 C2 S Eh X ltac:(constructor; [exact Sa|apply fine_calm, F])) as [(-> & <- & Sw)|Y]; [|right; exact Y].
      left. exists a, fwd, q, more. split; [reflexivity|]. split; [apply listed_iff, L|]. split; [exact Eq|]. split; [exact Oq|]. split; [exact F|]. exact Sw.
Qed.
End Down.

Print Assumptions C64_up.
Print Assumptions C64_up_interrupted.
Print Assumptions C64_down.
Print Assumptions C64_save.
Print Assumptions C64_down_interrupted.
Print Assumptions C64_save_interrupted.
