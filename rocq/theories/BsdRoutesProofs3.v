(** Proofs about the host routes to the endpoints: one round, the monitor, the removal. *)
From Coq Require Import String ZArith List Bool Lia.
From Verif Require Import Base Cstr CstrProofs Bash Quick QuickSpec QuickRun QuickReloadSpec QuickProofs PropQuick PropQuickFirewall PropQuickReload Sh BsdRoutes BsdRoutesSpec BsdRoutesProofs BsdRoutesProofs2.
Import ListNotations.
Open Scope Z_scope.

Lemma thn_fin : forall V A B (m : act V A) (f : A -> act V B) s b s1, thn m f s = Fin b s1 -> exists a s2, m s = Fin a s2 /\ f a s2 = Fin b s1.
Proof. intros V A B m f s b s1 H. unfold thn in H. destruct (m s) as [a s2| | |]; try discriminate. exists a, s2. auto. Qed.
Lemma feed_fin : forall V sys ws (s s1 : sh V) out, feed sys ws s = Fin out s1 -> exists a, s1 = mk_sh (s_hist s ++ [(argv ws, a)]) (s_vars s) /\ out = a_output a /\ a = sys (s_hist s) (argv ws).
Proof.
  intros V sys ws s s1 out H. unfold feed, call in H. apply thn_fin in H as (a & s2 & H1 & H2). destruct (a_signal _); [discriminate|]. injection H2 as <- <-. injection H1 as <- <-.
  eexists. split; [reflexivity|]. auto.
Qed.

Section Round.
Variables (sys : system) (ifc : list Z) (nl : bool).
Definition fresh_gw (a : answer) : list Z := gateway nl (read_complete (a_output a)).
Definition fresh_eps (a : answer) : list (list Z) := BsdRoutes.hosts (read_complete (a_output a)).
Definition seen (v : vars) (a4 a6 ae : answer) : vars := with_eps (fresh_eps ae) (with_gw6 (fresh_gw a6) (with_gw4 (fresh_gw a4) v)).
Definition changed (v0 v : vars) : bool := negb (beq (v_gw4 v0) (v_gw4 v)) || negb (beq (v_gw6 v0) (v_gw6 v)).
Definition olds (v0 v : vars) : list (list Z) := if changed v0 v then merge (v_eps v0) (v_eps v) else v_eps v0.
Definition asks (a4 a6 ae : answer) : history := [(ask_routes F4, a4); (ask_routes F6, a6); (ask_endpoints ifc, ae)].

Lemma round_runs : forall s s1, set_endpoint_direct_route sys ifc nl s = Fin tt s1 -> exists a4 a6 ae h1 h2,
  s_hist s1 = s_hist s ++ asks a4 a6 ae ++ h1 ++ h2 /\ routing h1 /\ routing h2 /\
  let v0 := s_vars s in let v := seen v0 a4 a6 ae in let all := changed v0 v in let old := olds v0 v in
  s_vars s1 = with_eps (filter (fun e => (negb all && listed_in e old) || counted v e) (v_eps v)) v /\
  removed (v_auto4 v) (v_auto6 v) (filter (fun e => all || negb (listed_in e (v_eps v))) old) h1 /\
  (filter (fun e => all || negb (listed_in e (v_eps v))) old = [] -> h1 = []) /\
  added_to (v_auto4 v) (v_auto6 v) (v_gw4 v) (v_gw6 v) (filter (fun e => all || negb (listed_in e old)) (v_eps v)) h2 /\
  (forallb (fun e => (negb all && listed_in e old) || negb (counted v e)) (v_eps v) = true -> h2 = []).
Proof.
  intros s s1 H. unfold set_endpoint_direct_route, get in H. apply thn_fin in H as ([] & s2 & Hg & H). apply thn_fin in H as ([] & s3 & He & H).
  unfold collect_gateways in Hg. apply thn_fin in Hg as (t4 & q1 & Hg1 & Hg). apply feed_fin in Hg1 as (a4 & -> & -> & _). unfold put in Hg. apply thn_fin in Hg as ([] & q2 & Hp & Hg).
  injection Hp as <-. apply thn_fin in Hg as (t6 & q3 & Hg1 & Hg). apply feed_fin in Hg1 as (a6 & -> & -> & _). injection Hg as <-.
  unfold collect_endpoints, put in He. apply thn_fin in He as (te & q4 & He1 & He). apply feed_fin in He1 as (ae & -> & -> & _). injection He as <-.
  cbn [s_hist s_vars] in H. set (v := with_eps _ _) in H. change v with (seen (s_vars s) a4 a6 ae) in H. clear v.
  set (v := seen (s_vars s) a4 a6 ae) in H. apply thn_fin in H as ([] & s2 & Hd & H). apply thn_fin in H as (added & s3 & Ha & H). unfold put in H. injection H as <-.
  apply drop_loop in Hd as (V1 & h1 & E1 & R1 & Q1 & N1). apply add_loop in Ha as (V2 & h2 & E2 & Ea & R2 & Q2 & N2). cbn [s_hist s_vars] in *.
  exists a4, a6, ae, h1, h2. split; [rewrite E2, E1; rewrite <- !app_assoc; reflexivity|]. split; [exact Q1|]. split; [exact Q2|].
  cbn zeta. fold v. split; [rewrite V2, V1; fold v; rewrite Ea; reflexivity|]. split; [exact R1|]. split; [exact N1|]. split; [exact R2|exact N2].
Qed.

Definition held (B : table) (v : vars) (T : table) : Prop := routed_to B (v_auto4 v) (v_auto6 v) (v_gw4 v) (v_gw6 v) (v_eps v) T.
Definition clear_of (B : table) (l : list (list Z)) : Prop := forall e f, In e l -> fits f e -> B f e = None.

Lemma asks_quiet : forall a4 a6 ae, Forall (fun ev => ~ route_command (fst ev)) (asks a4 a6 ae).
Proof.
  intros. unfold asks. repeat constructor; cbn [fst]; (intros [(f & e & t & E)|(f & e & E)]; apply (f_equal c_argv) in E; [unfold adds in E|unfold deletes in E]; cbn [argv c_argv app ask_routes ask_endpoints] in E; discriminate E).
Qed.
Lemma changed_false : forall v0 v, changed v0 v = false -> v_gw4 v0 = v_gw4 v /\ v_gw6 v0 = v_gw6 v.
Proof. intros v0 v H. unfold changed in H. apply orb_false_iff in H as [H1 H2]. apply negb_false_iff in H1, H2. apply beq_eq in H1, H2. auto. Qed.
Lemma wanted_counted : forall v f e, wanted (v_auto4 v) (v_auto6 v) f e -> counted v e = true.
Proof.
  intros v f e [W1 W2]. unfold counted. destruct f; [rewrite W2; apply orb_true_r|]. cbn [fits] in W1. apply has_colon in W1. rewrite W1, W2. reflexivity.
Qed.

Lemma round_held : forall s s1, set_endpoint_direct_route sys ifc nl s = Fin tt s1 -> Forall host_word (v_eps (s_vars s)) ->
  exists a4 a6 ae h, s_hist s1 = s_hist s ++ asks a4 a6 ae ++ h /\ routing h /\
    v_auto4 (s_vars s1) = v_auto4 (s_vars s) /\ v_auto6 (s_vars s1) = v_auto6 (s_vars s) /\ v_gw4 (s_vars s1) = fresh_gw a4 /\ v_gw6 (s_vars s1) = fresh_gw a6 /\
    Forall host_word (v_eps (s_vars s1)) /\ (forall e, In e (v_eps (s_vars s1)) -> In e (fresh_eps ae)) /\
    (forall f e, wanted (v_auto4 (s_vars s)) (v_auto6 (s_vars s)) f e -> In e (fresh_eps ae) -> In e (v_eps (s_vars s1))) /\
    (forall B T T', kernel T (asks a4 a6 ae ++ h) T' -> held B (s_vars s) T -> clear_of B (v_eps (s_vars s)) -> clear_of B (fresh_eps ae) -> held B (s_vars s1) T').
Proof.
  intros s s1 H W0. apply round_runs in H as (a4 & a6 & ae & h1 & h2 & E & Q1 & Q2 & H). set (v0 := s_vars s) in *. cbn zeta in H. set (v := seen v0 a4 a6 ae) in *.
  destruct H as (Ev & R1 & _ & R2 & _).
  assert (WE : Forall host_word (v_eps v)) by (apply hosts_words).
  assert (WO : Forall host_word (olds v0 v)) by (unfold olds; destruct (changed v0 v); [apply merge_words; assumption|exact W0]).
  exists a4, a6, ae, (h1 ++ h2). split; [exact E|]. split; [apply Forall_app; auto|]. rewrite Ev. split; [reflexivity|]. split; [reflexivity|]. split; [reflexivity|]. split; [reflexivity|].
  assert (Hin : forall e, In e (v_eps (with_eps (filter (fun e => (negb (changed v0 v) && listed_in e (olds v0 v)) || counted v e) (v_eps v)) v)) -> In e (v_eps v)).
  { intros e Hi. cbn [v_eps with_eps] in Hi. apply filter_In in Hi as [Hi _]. exact Hi. }
  split; [apply Forall_forall; intros e Hi; rewrite Forall_forall in WE; apply WE, Hin, Hi|]. split; [exact Hin|].
  assert (Hwt : forall f e, wanted (v_auto4 v) (v_auto6 v) f e -> In e (v_eps v) -> In e (filter (fun e => (negb (changed v0 v) && listed_in e (olds v0 v)) || counted v e) (v_eps v))).
  { intros f e Hw Hi. apply filter_In. split; [exact Hi|]. rewrite (wanted_counted v f e Hw). apply orb_true_r. }
  split; [exact Hwt|].
  intros B T T' K HT C0 C1. rewrite (app_assoc) in K. apply kernel_app in K as (T2 & K & K2). apply kernel_app in K as (T1 & K0 & K1).
  pose proof (kernel_others _ _ _ K0 (asks_quiet a4 a6 ae)) as S0. unfold held. cbn [v_auto4 v_auto6 v_gw4 v_gw6 v_eps with_eps].
  change (v_auto4 (with_eps _ v)) with (v_auto4 v0) in *. intros f e.
  destruct (R1 _ _ K1 f e) as [D1 D2], (R2 _ _ K2 f e) as [A1 A2]. destruct (HT f e) as [I1 I2]. specialize (S0 f e). clear R1 R2 K0 K1 K2.
  change (v_auto4 v) with (v_auto4 v0) in *. change (v_auto6 v) with (v_auto6 v0) in *.
  destruct (wanted_dec (v_auto4 v0) (v_auto6 v0) f e) as [Hw|Hw].
  2:{ split; [intros [_ X]; contradiction|]. intros _. rewrite A2 by (intros [_ X]; contradiction). rewrite D2 by (intros [_ X]; contradiction). rewrite S0. apply I2. intros [_ X]; contradiction. }
  assert (Hf : fits f e) by (apply Hw).
  assert (Hold : forall e, In e (v_eps v0) -> host_word e) by (rewrite Forall_forall in W0; exact W0).
  assert (Heps : forall e, In e (v_eps v) -> host_word e) by (rewrite Forall_forall in WE; exact WE).
  assert (Lold : forall e, host_word e -> (listed_in e (olds v0 v) = true <-> In e (olds v0 v))) by (intros; apply listed_iff; assumption).
  assert (Leps : forall e, host_word e -> (listed_in e (v_eps v) = true <-> In e (v_eps v))) by (intros; apply listed_iff; assumption).
  assert (Fd : In e (filter (fun e => changed v0 v || negb (listed_in e (v_eps v))) (olds v0 v)) <-> In e (olds v0 v) /\ (changed v0 v = true \/ ~ In e (v_eps v))).
  { rewrite filter_In, orb_true_iff, negb_true_iff. split; intros [X Y]; (split; [exact X|]); (destruct Y as [Y|Y]; [left; exact Y|right]).
    - intro Z. apply Leps in Z; [congruence|apply Heps, Z].
    - apply not_true_iff_false. intro Z. apply Y. apply Leps; [|exact Z]. rewrite Forall_forall in WO. apply WO, X. }
  assert (Fa : In e (filter (fun e => changed v0 v || negb (listed_in e (olds v0 v))) (v_eps v)) <-> In e (v_eps v) /\ (changed v0 v = true \/ ~ In e (olds v0 v))).
  { rewrite filter_In, orb_true_iff, negb_true_iff. split; intros [X Y]; (split; [exact X|]); (destruct Y as [Y|Y]; [left; exact Y|right]).
    - intro Z. apply Lold in Z; [congruence|]. rewrite Forall_forall in WO. apply WO, Z.
    - apply not_true_iff_false. intro Z. apply Y. apply Lold; [|exact Z]. apply Heps, X. }
  rewrite Fd in D1, D2. rewrite Fa in A1, A2. clear Fd Fa. split.
  - intros [Hi _]. apply filter_In in Hi as [Hi _]. destruct (changed v0 v) eqn:Ch.
    + assert (N : T2 f e = None). { apply D1. split; [|exact Hw]. split; [|left; reflexivity]. unfold olds. rewrite Ch. apply merge_in; [assumption|assumption|]. right. exact Hi. }
      rewrite N in A1. apply A1. auto.
    + destruct (changed_false _ _ Ch) as [G4 G6]. unfold olds in *. rewrite Ch in *.
      destruct (in_dec (list_eq_dec Z.eq_dec) e (v_eps v0)) as [O|O].
      * destruct I1 as (t & At & I1); [auto|]. exists t. split; [rewrite <- G4, <- G6; exact At|]. rewrite A2 by (intros [[_ [X|X]] _]; [discriminate|contradiction]).
        rewrite D2 by (intros [[_ [X|X]] _]; [discriminate|contradiction]). rewrite S0. exact I1.
      * rewrite D2 in A1 by (intros [[X _] _]; contradiction). rewrite S0, I2 in A1 by (intros [X _]; contradiction). rewrite (C1 e f Hi Hf) in A1. apply A1. auto.
  - intro N. assert (N1 : ~ In e (v_eps v)) by (intro X; apply N; split; [apply (Hwt f); assumption|exact Hw]).
    rewrite A2 by (intros [[X _] _]; contradiction). destruct (in_dec (list_eq_dec Z.eq_dec) e (olds v0 v)) as [O|O].
    + rewrite D1 by (split; [split; [exact O|right; exact N1]|exact Hw]). symmetry. apply C0; [|exact Hf]. unfold olds in O. destruct (changed v0 v); [|exact O].
      apply merge_in in O; [|assumption|assumption]. destruct O as [O|O]; [exact O|contradiction].
    + rewrite D2 by (intros [[X _] _]; contradiction). rewrite S0. apply I2. intros [X _]. apply O. unfold olds. destruct (changed v0 v); [apply merge_in; auto|exact X].
Qed.
End Round.

(** ** Removal *)
Definition lead (l : list Z) : Prop := l = [] \/ exists c l', l = c :: l' /\ ~ blank c.
Lemma drop_lead : forall l, lead (drop_while blankb l).
Proof.
  induction l as [|c l IH]; [left; reflexivity|]. cbn [drop_while]. destruct (blankb c) eqn:Bc; [exact IH|]. right. exists c, l. split; [reflexivity|]. apply blankb_false. exact Bc.
Qed.
Lemma drop_blanks : forall a b, Forall blank a -> drop_while blankb (a ++ b) = drop_while blankb b.
Proof. intros a b H. induction H as [|c a Hc H IH]; [reflexivity|]. cbn [app drop_while]. apply blankb_iff in Hc. rewrite Hc. exact IH. Qed.
Lemma drop_word : forall w b, Forall (fun c => ~ blank c) w -> (b = [] \/ exists c b', b = c :: b' /\ blank c) -> drop_while (fun c => negb (blankb c)) (w ++ b) = b.
Proof.
  intros w b H Hb. induction H as [|c w Hc H IH]; cbn [app drop_while].
  - destruct Hb as [->|(c & b' & -> & Hc)]; [reflexivity|]. cbn [drop_while]. apply blankb_iff in Hc. rewrite Hc. reflexivity.
  - apply blankb_false in Hc. rewrite Hc. exact IH.
Qed.
Lemma columns_drop : forall l ws, columns l ws -> columns (drop_while blankb l) ws.
Proof.
  intros l ws H. destruct H as [s H|a w b ws Ha Hn Hw Hb H].
  - replace (drop_while blankb s) with (@nil Z); [constructor; constructor|]. rewrite <- (app_nil_r s), drop_blanks by exact H. reflexivity.
  - rewrite drop_blanks by exact Ha. destruct w as [|c w]; [contradiction|]. cbn [app drop_while]. pose proof Hw as Hw'. inversion Hw' as [|? ? Hc _]; subst. apply blankb_false in Hc. rewrite Hc.
    apply (co_cons [] (c :: w) b ws); auto.
Qed.
Lemma rest_one : forall l ws, lead l -> columns l ws -> columns (rest_from 1 l) (tl ws).
Proof.
  intros l ws L H. unfold rest_from. cbn [Nat.iter nat_rect]. destruct H as [s H|a w b ws Ha Hn Hw Hb H].
  - destruct L as [->|(c & l' & -> & Hc)]; [constructor; constructor|]. inversion H; subst. contradiction.
  - assert (a = []). { destruct Ha as [|c a Hc Ha]; [reflexivity|]. destruct L as [L|(d & l' & L & Hd)]; cbn [app] in L; [discriminate|]. exfalso. apply Hd. replace d with c by congruence. exact Hc. }
    subst a. cbn [app tl]. rewrite drop_word by assumption. apply columns_drop, H.
Qed.
Lemma rest_columns : forall n l ws, lead l -> columns l ws -> columns (rest_from n l) (skipn n ws) /\ lead (rest_from n l).
Proof.
  induction n as [|n IH]; intros l ws L H; [split; assumption|].
  destruct (IH l ws L H) as [C D]. split.
  - apply rest_one in C; [|exact D]. replace (skipn (S n) ws) with (tl (skipn n ws)); [exact C|]. clear. revert ws. induction n as [|n IH]; intros [|w ws]; try reflexivity. apply (IH ws).
  - unfold rest_from. cbn [Nat.iter nat_rect]. apply drop_lead.
Qed.
Lemma rest_S : forall n l, rest_from (S n) l = drop_while blankb (drop_while (fun c => negb (blankb c)) (rest_from n l)).
Proof. reflexivity. Qed.
Lemma rest_suffix : forall n l, exists p, l = p ++ rest_from n l.
Proof.
  assert (D : forall (q : Z -> bool) l, exists p, l = p ++ drop_while q l).
  { intros q l. induction l as [|c l (p & IH)]; [exists []; reflexivity|]. cbn [drop_while]. destruct (q c); [exists (c :: p); cbn [app]; f_equal; exact IH|exists []; reflexivity]. }
  induction n as [|n IH]; intro l; [exists []; reflexivity|]. destruct (IH l) as (p & E). rewrite rest_S.
  destruct (D (fun c => negb (blankb c)) (rest_from n l)) as (p1 & E1). set (x := drop_while (fun c => negb (blankb c)) (rest_from n l)) in *. destruct (D blankb x) as (p2 & E2).
  exists (p ++ p1 ++ p2). rewrite <- !app_assoc. rewrite <- E2, <- E1. exact E.
Qed.
Lemma trimmed_ends : forall l, trimmed blank l l -> l = [] \/ exists x y u v, l = x :: u /\ l = v ++ [y] /\ ~ blank x /\ ~ blank y.
Proof. intros l (a & b & _ & _ & _ & H). exact H. Qed.
Lemma trimmed_lead : forall l, trimmed blank l l -> lead l.
Proof. intros l H. destruct (trimmed_ends l H) as [->|(x & y & u & v & E & _ & Hx & _)]; [left; reflexivity|]. right. eauto. Qed.
(** Text without blanks at its ends that is one column is that column. *)
Lemma columns_single : forall n l w, trimmed blank l l -> columns (rest_from n l) [w] -> rest_from n l = w.
Proof.
  intros n l w Ht H. assert (L : lead (rest_from n l)). { destruct n; [apply trimmed_lead, Ht|]. rewrite rest_S. apply drop_lead. }
  destruct (rest_suffix n l) as (p & E). remember (rest_from n l) as r eqn:Er. clear Er. remember [w] as ws. destruct H as [s H|a w0 b ws Ha Hn Hw Hb H]; [discriminate|].
  assert (w0 = w) by congruence. assert (ws = []) by congruence. subst w0 ws. inversion H as [s Hs|]; subst.
  assert (a = []). { destruct Ha as [|c a Hc Ha]; [reflexivity|]. destruct L as [L|(d & l' & L & Hd)]; cbn [app] in L; [discriminate|]. exfalso. apply Hd. replace d with c by congruence. exact Hc. }
  subst a. cbn [app] in *. destruct (trimmed_ends _ Ht) as [E0|(x & y & u & v & E1 & E2 & _ & Hy)].
  - destruct p; [|discriminate]. destruct w; [contradiction|discriminate].
  - assert (Nb : b = []). { destruct (rev b) as [|z b'] eqn:Rb; [rewrite <- (rev_involutive b), Rb; reflexivity|]. exfalso. apply (f_equal (@rev Z)) in Rb. rewrite rev_involutive in Rb. cbn [rev] in Rb.
      assert (z = y). { rewrite Rb in E2. rewrite !app_assoc in E2. apply app_inj_tail in E2. symmetry. symmetry. apply E2. }
      subst z. apply Hy. rewrite Forall_forall in Hs. apply Hs. rewrite Rb. apply in_or_app. right. left. reflexivity. }
    rewrite Nb, app_nil_r. reflexivity.
Qed.
Lemma device_column : forall d, device_word d -> columns d [d].
Proof.
  intros d [N F]. pose proof (co_cons [] d [] [] (Forall_nil _) N) as H. cbn [app] in H. rewrite app_nil_r in H. apply H; [|left; reflexivity|constructor; constructor].
  eapply Forall_impl; [|exact F]. cbn beta. tauto.
Qed.
Lemma columns_lo : forall r ws, lead r -> columns r ws -> (starts_with !"lo" r = true <-> exists c more, ws = c :: more /\ exists x, c = str "lo" ++ x).
Proof.
  intros r ws L H. rewrite str_inj_app. destruct H as [s H|a w b ws Ha Hn Hw Hb H].
  - split; [|intros (c & more & E & _); discriminate]. intros (x & ->). inversion H as [|? ? Hc]; subst. destruct Hc; discriminate.
  - assert (a = []). { destruct Ha as [|c a Hc Ha]; [reflexivity|]. destruct L as [L|(d & l' & L & Hd)]; cbn [app] in L; [discriminate|]. exfalso. apply Hd. replace d with c by congruence. exact Hc. }
    subst a. cbn [app]. split.
    + intros (x & E). exists w, ws. split; [reflexivity|]. change (str "lo" ++ x) with (108 :: 111 :: x) in E.
      destruct w as [|c1 w]; [contradiction|]. cbn [app] in E. destruct w as [|c2 w].
      * cbn [app] in E. destruct Hb as [->|(c & b' & -> & Hc)]; [discriminate|]. exfalso. destruct Hc as [->| ->]; discriminate E.
      * cbn [app] in E. exists w. change (str "lo" ++ w) with (108 :: 111 :: w). congruence.
    + intros (c & more & E & x & Ex). assert (w = c) by congruence. subst. exists (x ++ b). rewrite app_assoc. reflexivity.
Qed.
Definition line_of (l : list Z) : Prop := ~ In 10 l /\ trimmed blank l l.
Lemma deletes4_iff : forall ifc ls e, device_word ifc -> Forall line_of ls -> (In e (deletes4 ifc ls) <-> exists l, In l ls /\ goes_by F4 ifc l e).
Proof.
  intros ifc ls e D F. unfold deletes4. rewrite in_flat_map. rewrite Forall_forall in F. split.
  - intros (l & Hl & He). exists l. split; [exact Hl|]. destruct (F l Hl) as [Nl Tl]. destruct (beq (field 5 l) ifc) eqn:Bq; [|destruct He]. apply beq_eq in Bq. destruct He as [<-|[]].
    cbn [goes_by]. pose proof (words_columns l Nl) as C. unfold field in *. destruct D as [D _].
    destruct (words l) as [|w1 [|w2 [|w3 [|w4 [|w5 [|w6 more]]]]]]; cbn [nth] in Bq; subst; try contradiction. cbn [nth]. exists w2, w3, w4, w5, more. exact C.
  - intros (l & Hl & c2 & c3 & c4 & c5 & more & C). exists l. split; [exact Hl|]. destruct (F l Hl) as [Nl Tl]. apply columns_iff in C; [|exact Nl]. unfold field. rewrite C. cbn [nth]. rewrite beq_refl. left. reflexivity.
Qed.
Lemma deletes6_iff : forall ifc ls e, device_word ifc -> Forall line_of ls -> (In e (deletes6 ifc ls) <-> exists l, In l ls /\ goes_by F6 ifc l e).
Proof.
  intros ifc ls e D F. unfold deletes6. rewrite in_flat_map. rewrite Forall_forall in F.
  assert (K : forall l, In l ls -> ((beq (rest_from 3 l) ifc || (starts_with !"lo" (rest_from 3 l) && beq (field 1 l) ifc)) = true <->
     skipn 3 (words l) = [ifc] \/ (nth 1 (words l) [] = ifc /\ exists c more, skipn 3 (words l) = c :: more /\ exists x, c = str "lo" ++ x))).
  { intros l Hl. destruct (F l Hl) as [Nl Tl]. pose proof (words_columns l Nl) as C. destruct (rest_columns 3 l (words l) (trimmed_lead l Tl) C) as [C3 L3].
    rewrite orb_true_iff, andb_true_iff, (columns_lo _ _ L3 C3), !beq_eq. unfold field.
    assert (N3 : ~ In 10 (rest_from 3 l)). { intro X. apply Nl. destruct (rest_suffix 3 l) as (p & E). rewrite E. apply in_or_app. right. exact X. }
    assert (Q : rest_from 3 l = ifc <-> skipn 3 (words l) = [ifc]).
    { split; intro E.
      - apply columns_iff in C3; [|exact N3]. rewrite <- C3, E. apply columns_iff; [rewrite <- E; exact N3|]. apply device_column, D.
      - rewrite E in C3. apply columns_single; assumption. }
    rewrite Q. tauto. }
  split.
  - intros (l & Hl & He). exists l. split; [exact Hl|]. destruct (F l Hl) as [Nl Tl]. specialize (K l Hl). destruct (_ || _); [|destruct He]. destruct He as [<-|[]].
    pose proof (words_columns l Nl) as C. unfold field. cbn [goes_by]. destruct K as [K _]. destruct (K eq_refl) as [E|(E1 & c & more & E & X)];
      destruct (words l) as [|w1 [|w2 [|w3 ws]]]; cbn [skipn] in E; try discriminate; cbn [nth] in *; subst ws.
    + left. exists w2, w3. exact C.
    + right. subst w2. exists w3, c, more. auto.
  - intros (l & Hl & G). exists l. split; [exact Hl|]. destruct (F l Hl) as [Nl Tl]. specialize (K l Hl).
    assert (X : (beq (rest_from 3 l) ifc || (starts_with !"lo" (rest_from 3 l) && beq (field 1 l) ifc)) = true /\ field 0 l = e).
    { rewrite K. unfold field. destruct G as [(c2 & c3 & C)|(c3 & c4 & more & C & X)]; apply columns_iff in C; try exact Nl; rewrite C; cbn [skipn nth]; (split; [|reflexivity]); [left; reflexivity|].
      right. split; [reflexivity|]. exists c4, more. auto. }
    destruct X as [X1 X2]. rewrite X1. left. exact X2.
Qed.
Lemma lines_of : forall out, Forall line_of (read_complete out).
Proof.
  intro out. pose proof (read_no_newline out) as H1. pose proof (read_trimmed out) as H2. rewrite Forall_forall in *. intros l Hl. split; [apply H1, Hl|apply H2, Hl].
Qed.

Definition gone (P : fam -> list Z -> Prop) (h : history) : Prop := forall T T', kernel T h T' -> forall f e, (P f e /\ fits f e -> T' f e = None) /\ (~ (P f e /\ fits f e) -> T' f e = T f e).
Lemma fits_dec : forall f e, fits f e \/ ~ fits f e.
Proof. intros f e. destruct f; cbn [fits]; destruct (in_dec Z.eq_dec 58 e); tauto. Qed.
Lemma gone_cons : forall (P Q R : fam -> list Z -> Prop) h1 h2, (forall f e, Q f e \/ ~ Q f e) -> (forall f e, R f e <-> P f e \/ Q f e) -> gone P h1 -> gone Q h2 -> gone R (h1 ++ h2).
Proof.
  intros P Q R h1 h2 Dec E H1 H2 T T' K f e. apply kernel_app in K as (T1 & K1 & K2). destruct (H1 _ _ K1 f e) as [A1 A2], (H2 _ _ K2 f e) as [B1 B2]. rewrite E. destruct (Dec f e) as [D|D], (fits_dec f e) as [F|F].
  - split; [auto|]. intro N. exfalso. apply N. auto.
  - split; [intros [_ X]; contradiction|]. intros _. rewrite B2, A2 by tauto. reflexivity.
  - split; [intros [[X|X] _]; [|contradiction]; rewrite B2 by tauto; auto|]. intro N. rewrite B2, A2 by tauto. reflexivity.
  - split; [intros [_ X]; contradiction|]. intros _. rewrite B2, A2 by tauto. reflexivity.
Qed.
Lemma gone_nil : forall P : fam -> list Z -> Prop, (forall f e, ~ P f e) -> gone P [].
Proof. intros P N T T' K f e. apply kernel_nil in K. split; [intros [X _]; destruct (N f e X)|]. intros _. apply K. Qed.
Lemma gone_one : forall f0 e0 a, gone (fun f e => f = f0 /\ e = e0) [(deletes f0 e0, a)].
Proof.
  intros f0 e0 a T T' K f e. apply kernel_one in K as (T1 & K & S). rewrite (S f e). destruct (step_deletes _ _ _ _ _ K) as [(F & D1 & D2)|(F & D)].
  - split; [intros [[-> ->] _]; exact D1|]. intro N. apply D2. intro E. assert (f = f0) by congruence. assert (e = e0) by congruence. subst. apply N. auto.
  - split; [intros [[-> ->] X]; contradiction|]. intros _. apply D.
Qed.
Lemma gone_quiet : forall (P : fam -> list Z -> Prop) h, Forall (fun ev => ~ route_command (fst ev)) h -> (forall f e, ~ P f e) -> gone P h.
Proof. intros P h Q N T T' K f e. split; [intros [X _]; destruct (N f e X)|]. intros _. exact (kernel_others _ _ _ K Q f e). Qed.
Lemma complete_fun : forall full full' rest rest', Forall (fun l : list Z => ~ In 10 l) full -> Forall (fun l => ~ In 10 l) full' -> ~ In 10 rest -> ~ In 10 rest' ->
  concat (map (fun l => l ++ [10]) full) ++ rest = concat (map (fun l => l ++ [10]) full') ++ rest' -> full = full' /\ rest = rest'.
Proof.
  assert (Sp : forall w e x y : list Z, ~ In 10 w -> ~ In 10 e -> w ++ 10 :: x = e ++ 10 :: y -> w = e /\ x = y).
  { induction w as [|c w IH]; intros e x y Hw He E; destruct e as [|d e]; cbn [app] in E.
    - split; [reflexivity|congruence].
    - exfalso. apply He. left. congruence.
    - exfalso. apply Hw. left. congruence.
    - assert (c = d) by congruence. assert (E' : w ++ 10 :: x = e ++ 10 :: y) by congruence. cbn [In] in *. destruct (IH e x y) as [A B]; [tauto|tauto|exact E'|]. subst. auto. }
  induction full as [|l full IH]; intros [|l' full'] rest rest' F F' R R' E; cbn [map concat app] in E.
  - auto.
  - exfalso. apply R. rewrite E. rewrite <- !app_assoc. apply in_or_app. right. left. reflexivity.
  - exfalso. apply R'. rewrite <- E. rewrite <- !app_assoc. apply in_or_app. right. left. reflexivity.
  - inversion F; subst. inversion F'; subst. rewrite <- !app_assoc in E. cbn [app] in E. apply Sp in E as [-> E]; [|assumption|assumption]. apply IH in E as [-> ->]; auto.
Qed.
Lemma complete_lines_fun : forall out ls ls', complete_lines out ls -> complete_lines out ls' -> ls = ls'.
Proof.
  intros out ls ls' (full & rest & E & F & R & M) (full' & rest' & E' & F' & R' & M'). rewrite E in E'. apply complete_fun in E' as [-> _]; try assumption. clear - M M'.
  revert ls' M'. induction M as [|a b l l' H M IH]; intros ls' M'; inversion M'; subst; [reflexivity|]. f_equal; [eapply trimmed_fun; eassumption|auto].
Qed.
Section Del.
Variables (sys : system) (ifc : list Z).
Lemma each_gone : forall fm l, effect (each (fun d => try sys [!"route"; !"-q"; !"-n"; !"delete"; flag fm; d]) l) (fun _ h => gone (fun f e => f = fm /\ In e l) h /\ routing h).
Proof.
  intros fm l. induction l as [|d l IH]; cbn [each].
  - apply effect_pure. split; [|constructor]. apply gone_nil. intros f e [_ []].
  - eapply effect_thn; [apply effect_try|]. cbn beta. intros _ h1 (a & ->). eapply effect_conseq; [exact IH|]. cbn beta. intros _ h2 (G & Q). split.
    + eapply gone_cons; [| |exact (gone_one fm d a)|exact G]; cbn beta.
      * intros f e. assert (D : f = fm \/ f <> fm) by (destruct f, fm; (left; reflexivity) || (right; discriminate)). destruct D as [D|D], (in_dec (list_eq_dec Z.eq_dec) e l); tauto.
      * intros f e. cbn [In]. split; [intros [-> [->|H]]; auto|]. intros [[-> ->]|[-> H]]; auto.
    + constructor; [right; exists fm, d; reflexivity|exact Q].
Qed.
Lemma eps_gone : forall l, effect (each (del_endpoint sys) l) (fun _ h => gone (fun f e => fits f e /\ In e l) h /\ routing h).
Proof.
  intro l. induction l as [|d l IH]; cbn [each].
  - apply effect_pure. split; [|constructor]. apply gone_nil. intros f e [_ []].
  - assert (H1 : effect (del_endpoint sys d) (fun _ h => exists f0 a, fits f0 d /\ h = [(deletes f0 d, a)])).
    { unfold del_endpoint. destruct (has_char 58 d) eqn:C; (eapply effect_conseq; [apply effect_try|]); cbn beta; intros _ h (a & ->).
      - exists F6, a. split; [apply has_colon, C|reflexivity].
      - exists F4, a. split; [cbn [fits]; rewrite <- has_colon; congruence|reflexivity]. }
    eapply effect_thn; [exact H1|]. cbn beta. intros _ h1 (f0 & a & Ff & ->). eapply effect_conseq; [exact IH|]. cbn beta. intros _ h2 (G & Q). split.
    + eapply gone_cons; [| |exact (gone_one f0 d a)|exact G]; cbn beta.
      * intros f e. destruct (fits_dec f e), (in_dec (list_eq_dec Z.eq_dec) e l); tauto.
      * intros f e. cbn [In]. split; [intros [F [->|H]]; auto; left; split; [|reflexivity]; destruct f, f0; cbn [fits] in *; tauto|]. intros [[-> ->]|[F H]]; auto.
    + constructor; [right; exists f0, d; reflexivity|exact Q].
Qed.
Lemma del_routes_runs : forall s s1, device_word ifc -> del_routes sys ifc s = Fin tt s1 -> exists a4 h4 a6 h6,
  s_hist s1 = s_hist s ++ [(ask_routes F4, a4)] ++ h4 ++ [(ask_routes F6, a6)] ++ h6 /\ s_vars s1 = s_vars s /\ routing h4 /\ routing h6 /\
  gone (fun f e => names_route f ifc (a_output (match f with F4 => a4 | F6 => a6 end)) e \/ In e (v_eps (s_vars s))) ([(ask_routes F4, a4)] ++ h4 ++ [(ask_routes F6, a6)] ++ h6).
Proof.
  intros s s1 D H. unfold del_routes in H. apply thn_fin in H as (t4 & s2 & H1 & H). apply feed_fin in H1 as (a4 & -> & -> & _). apply thn_fin in H as ([] & s3 & H1 & H).
  apply (each_gone F4) in H1 as (V3 & h4 & E3 & G4 & Q4). apply thn_fin in H as (t6 & s4 & H1 & H). apply feed_fin in H1 as (a6 & -> & -> & _). apply thn_fin in H as ([] & s5 & H1 & H).
  apply (each_gone F6) in H1 as (V5 & h6 & E5 & G6 & Q6). unfold get in H. apply eps_gone in H as (V7 & he & E7 & Ge & Qe). cbn [s_hist s_vars] in *.
  rewrite V5, V3 in Ge. exists a4, h4, a6, (h6 ++ he). split; [rewrite E7, E5, E3; rewrite <- !app_assoc; reflexivity|]. split; [rewrite V7, V5, V3; reflexivity|]. split; [exact Q4|]. split; [apply Forall_app; auto|].
  assert (N : forall f a, gone (fun _ _ => False) [(ask_routes f, a)]).
  { intros f a. apply gone_quiet; [|tauto]. constructor; [|constructor]. cbn [fst]. intros [(f' & e & t & E)|(f' & e & E)]; apply (f_equal c_argv) in E; [unfold adds in E|unfold deletes in E]; cbn [argv c_argv app ask_routes] in E; discriminate E. }
  assert (D4 : forall (fm : fam) l f (e : list Z), (f = fm /\ In e l) \/ ~ (f = fm /\ In e l)).
  { intros fm l f e. assert (X : f = fm \/ f <> fm) by (destruct f, fm; (left; reflexivity) || (right; discriminate)). destruct X, (in_dec (list_eq_dec Z.eq_dec) e l); tauto. }
  set (l4 := deletes4 ifc (read_complete (a_output a4))) in *. set (l6 := deletes6 ifc (read_complete (a_output a6))) in *. set (eps := v_eps (s_vars s)) in *.
  assert (De : forall f (e : list Z), (fits f e /\ In e eps) \/ ~ (fits f e /\ In e eps)) by (intros f e; destruct (fits_dec f e), (in_dec (list_eq_dec Z.eq_dec) e eps); tauto).
  assert (G : gone (fun f e => (f = F4 /\ In e l4) \/ (f = F6 /\ In e l6) \/ (fits f e /\ In e eps)) ([(ask_routes F4, a4)] ++ h4 ++ [(ask_routes F6, a6)] ++ h6 ++ he)).
  { eapply gone_cons; [| |exact (N F4 a4)|]; cbn beta.
    3:{ eapply gone_cons; [| |exact G4|]; cbn beta.
        3:{ eapply gone_cons; [| |exact (N F6 a6)|]; cbn beta.
            3:{ eapply gone_cons; [| |exact G6|exact Ge]; [exact De|]. intros f e. cbn beta. split; [exact (fun x => x)|exact (fun x => x)]. }
            - intros f e. destruct (D4 F6 l6 f e), (De f e); tauto.
            - intros f e. cbn beta. split; [intro X; right; exact X|intros [[]|X]; exact X]. }
        - intros f e. destruct (D4 F6 l6 f e), (De f e); tauto.
        - intros f e. cbn beta. split; [exact (fun x => x)|exact (fun x => x)]. }
    - intros f e. destruct (D4 F4 l4 f e), (D4 F6 l6 f e), (De f e); tauto.
    - intros f e. cbn beta. tauto. }
  assert (N4 : forall e, In e l4 <-> names_route F4 ifc (a_output a4) e).
  { intro e. unfold l4. rewrite deletes4_iff by (exact D || apply lines_of). unfold names_route. split; [intros (l & Hl & X); exists (read_complete (a_output a4)), l; split; [apply read_complete_spec|auto]|].
    intros (ls & l & C & Hl & X). exists l. split; [|exact X]. replace (read_complete (a_output a4)) with ls; [exact Hl|]. eapply complete_lines_fun; [exact C|apply read_complete_spec]. }
  assert (N6 : forall e, In e l6 <-> names_route F6 ifc (a_output a6) e).
  { intro e. unfold l6. rewrite deletes6_iff by (exact D || apply lines_of). unfold names_route. split; [intros (l & Hl & X); exists (read_complete (a_output a6)), l; split; [apply read_complete_spec|auto]|].
    intros (ls & l & C & Hl & X). exists l. split; [|exact X]. replace (read_complete (a_output a6)) with ls; [exact Hl|]. eapply complete_lines_fun; [exact C|apply read_complete_spec]. }
  intros T T' K f e. destruct (G T T' K f e) as [G1 G2]. clear - G1 G2 N4 N6. specialize (N4 e). specialize (N6 e). split.
  - intros [X F]. apply G1. split; [|exact F]. destruct X as [X|X]; [|auto]. destruct f; [left; split; [reflexivity|apply N4, X]|right; left; split; [reflexivity|apply N6, X]].
  - intro X. apply G2. intros [Y F]. apply X. split; [|exact F]. destruct Y as [[-> Y]|[[-> Y]|[_ Y]]]; [left; apply N4, Y|left; apply N6, Y|right; exact Y].
Qed.
End Del.
