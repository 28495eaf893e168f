(** Proofs about wg-quick on OpenBSD: finding the interface, naming a new one, the interface's own addresses. *)
From Coq Require Import String ZArith List Bool Lia.
From Verif Require Import Base Cstr CstrProofs Bash Quick QuickRun QuickSpec QuickRunSpec QuickReloadSpec QuickRouteSpec QuickMain Sh ShGoes BsdRoutes BsdRoutesSpec
  BsdRoutesProofs BsdRoutesProofs3 PropQuickReload FreeQuick OpenQuick OpenSpec OpenProofs.
From Verif Require QuickProofs QuickUpProofs QuickRouteProofs FreeSpec FreeProofs FreeProofs2 FreeProofs3 PropQuickFirewall PropQuick NumSpec ConfigProofs.
Import ListNotations.
Open Scope Z_scope.

(** ** The lines of ifconfig *)
Lemma forallb_lower : forall a, forallb lowerb a = true <-> Forall lower a.
Proof. intro a. rewrite forallb_forall, Forall_forall. unfold lowerb, lower. split; intros H c Hc; specialize (H c Hc); [apply andb_true_iff in H; lia|apply andb_true_iff; lia]. Qed.
Lemma forallb_digit : forall a, forallb digitb a = true <-> Forall digit a.
Proof. intro a. rewrite forallb_forall, Forall_forall. unfold digitb, digit. split; intros H c Hc; specialize (H c Hc); [apply andb_true_iff in H; lia|apply andb_true_iff; lia]. Qed.
Lemma header_iff : forall l n, header l = Some n <-> heads l n.
Proof.
  intros l n. unfold header. cbv zeta. destruct (PropQuickFirewall.take_drop lowerb l) as [E1 F1]. destruct (PropQuickFirewall.take_drop digitb (drop_while lowerb l)) as [E2 F2].
  split.
  - destruct (take_while lowerb l) as [|x a]; [discriminate|]. destruct (take_while digitb (drop_while lowerb l)) as [|y b]; [discriminate|].
    generalize dependent (drop_while digitb (drop_while lowerb l)). intros dr E2 H.
    repeat (match type of H with context [match ?z with _ => _ end] => destruct z end; try discriminate H).
    match type of E2 with _ = _ ++ 58 :: 32 :: ?c3 :: ?t => exists (x :: a), (y :: b), (c3 :: t) end. assert (E : n = (x :: a) ++ y :: b) by congruence. split; [rewrite E1, E2, E, <- app_assoc; reflexivity|]. split; [exact E|]. split; [discriminate|]. split; [discriminate|].
    split; [apply forallb_lower, F1|]. split; [apply forallb_digit, F2|discriminate].
  - intros (a & b & rest & -> & -> & Na & Nb & Fa & Fb & Nr). destruct b as [|d b]; [congruence|]. apply forallb_lower in Fa. assert (Fd := Fb). apply forallb_digit in Fb.
    assert (Nd : lowerb d = false) by (inversion Fd; subst; unfold digit in *; unfold lowerb; apply andb_false_iff; left; lia).
    rewrite <- app_assoc. cbn [app]. destruct (PropQuickFirewall.take_while_app lowerb a d (b ++ str ": " ++ rest) Fa Nd) as [-> ->].
    destruct (PropQuickFirewall.take_while_app digitb (d :: b) 58 (32 :: rest) Fb eq_refl) as [T1 T2]. change (d :: b ++ str ": " ++ rest) with ((d :: b) ++ 58 :: 32 :: rest). rewrite T1, T2.
    destruct a as [|x a]; [congruence|]. destruct rest as [|r rest]; [congruence|]. reflexivity.
Qed.
Lemma header_none : forall l, header l = None -> forall n, ~ heads l n.
Proof. intros l H n X. apply header_iff in X. congruence. Qed.
Lemma heads_fun : forall l n m, heads l n -> heads l m -> n = m.
Proof. intros l n m H1 H2. apply header_iff in H1, H2. congruence. Qed.
Lemma describes_iff : forall ifc l, OpenQuick.describes ifc l = true <-> describes ifc l.
Proof.
  intros ifc l. unfold OpenQuick.describes, describes. destruct (strip_prefix (9 :: !"description: wg-quick: ") l) as [r|] eqn:E.
  - apply QuickUpProofs.strip_prefix_some in E. subst l. destruct r as [|x r].
    + split; [discriminate|]. intros [H N]. cbn [app] in H. assert (E : str "description: wg-quick: " ++ [] = str "description: wg-quick: " ++ ifc) by congruence. apply app_inv_head in E. congruence.
    + rewrite beq_eq. split; [intros <-; split; [reflexivity|discriminate]|]. intros [H N]. cbn [app] in H.
      assert (E : str "description: wg-quick: " ++ x :: r = str "description: wg-quick: " ++ ifc) by congruence. apply app_inv_head in E. exact E.
  - split; [discriminate|]. intros [-> _]. assert (X := proj2 (QuickUpProofs.strip_prefix_some (9 :: !"description: wg-quick: ") (9 :: str "description: wg-quick: " ++ ifc) ifc) eq_refl). congruence.
Qed.
Lemma not_both : forall ifc l n, describes ifc l -> ~ heads l n.
Proof.
  intros ifc l n [-> _] (a & b & rest & E & -> & Na & _ & Fa & _). destruct a as [|x a]; [congruence|]. cbn [app] in E. assert (X : x = 9) by congruence.
  inversion Fa; subst. unfold lower in *. lia.
Qed.
Lemma wg_iff : forall ri, starts_with !"wg" ri = true <-> exists x, ri = str "wg" ++ x.
Proof.
  intro ri. unfold starts_with. destruct (strip_prefix !"wg" ri) as [r|] eqn:E.
  - apply QuickUpProofs.strip_prefix_some in E. split; [intros _; exists r; exact E|reflexivity].
  - split; [discriminate|]. intros [x ->]. rewrite (proj2 (QuickUpProofs.strip_prefix_some (str "wg") (str "wg" ++ x) x) eq_refl) in E. discriminate.
Qed.

(** [described], by positions *)
Definition at_ (ifc : list Z) (ls : list (list Z)) (k : nat) (ri : list Z) : Prop := exists m hl dl, (k < m)%nat /\ nth_error ls k = Some hl /\ nth_error ls m = Some dl /\ heads hl ri /\
  (exists x, ri = str "wg" ++ x) /\ describes ifc dl /\ forall j l n, (k < j < m)%nat -> nth_error ls j = Some l -> ~ heads l n.
Lemma nth_error_mid : forall A (a : list A) x b, nth_error (a ++ x :: b) (length a) = Some x.
Proof. intros A a x b. rewrite nth_error_app2, Nat.sub_diag by lia. reflexivity. Qed.
Lemma at_iff : forall ifc ls k ri, described ifc ls k ri <-> at_ ifc ls k ri.
Proof.
  intros ifc ls k ri. split.
  - intros (a & hl & b & dl & c & -> & <- & H & W & D & N). exists (length a + S (length b))%nat, hl, dl. split; [lia|]. split; [apply nth_error_mid|].
    split; [replace (a ++ hl :: b ++ dl :: c) with ((a ++ hl :: b) ++ dl :: c) by (rewrite <- app_assoc; reflexivity); replace (length a + S (length b))%nat with (length (a ++ hl :: b)) by (rewrite app_length; reflexivity); apply nth_error_mid|].
    split; [exact H|]. split; [exact W|]. split; [exact D|]. intros j l n Hj E. rewrite nth_error_app2 in E by lia. remember (j - length a)%nat as i. destruct i as [|i]; [lia|]. cbn [nth_error] in E.
    rewrite nth_error_app1 in E by lia. apply N. eapply nth_error_In. exact E.
  - intros (m & hl & dl & Lt & Ek & Em & H & W & D & N). apply nth_error_split in Em as (p & c & -> & Lp). assert (Lk : (k < length p)%nat) by lia. rewrite nth_error_app1 in Ek by exact Lk.
    apply nth_error_split in Ek as (a & b & -> & La). exists a, hl, b, dl, c. rewrite <- app_assoc. split; [reflexivity|]. split; [exact La|]. split; [exact H|]. split; [exact W|]. split; [exact D|].
    intros l n Hl. apply In_nth_error in Hl as [i Ei]. assert (Li : (i < length b)%nat) by (apply nth_error_Some; congruence). rewrite app_length in Lp. cbn [length] in Lp. apply (N (length a + S i)%nat l n); [lia|].
    rewrite <- app_assoc. rewrite nth_error_app2 by lia. replace (length a + S i - length a)%nat with (S i) by lia. cbn [app nth_error]. rewrite nth_error_app1 by exact Li. exact Ei.
Qed.
Definition tracked (pre : list (list Z)) (cur : list Z) : Prop :=
  (cur = [] /\ forall l n, In l pre -> ~ heads l n) \/ (exists k hl, nth_error pre k = Some hl /\ heads hl cur /\ forall j l n, (k < j)%nat -> nth_error pre j = Some l -> ~ heads l n).
Lemma snoc_at : forall ifc pre l k ri, at_ ifc (pre ++ [l]) k ri -> at_ ifc pre k ri \/ (describes ifc l /\ exists hl, nth_error pre k = Some hl /\ heads hl ri /\ (exists x, ri = str "wg" ++ x) /\
  forall j l n, (k < j)%nat -> nth_error pre j = Some l -> ~ heads l n).
Proof.
  intros ifc pre l k ri (m & hl & dl & Lt & Ek & Em & H & W & D & N). assert (Lm : (m < S (length pre))%nat) by (assert (m < length (pre ++ [l]))%nat by (apply nth_error_Some; congruence); rewrite app_length in *; cbn [length] in *; lia).
  destruct (Nat.eq_dec m (length pre)) as [->|Ne].
  - right. rewrite nth_error_mid in Em. assert (dl = l) by congruence. subst dl. split; [exact D|]. exists hl. rewrite nth_error_app1 in Ek by lia. split; [exact Ek|]. split; [exact H|]. split; [exact W|].
    intros j l' n Hj E. assert (Lj : (j < length pre)%nat) by (apply nth_error_Some; congruence). apply (N j l' n); [lia|]. rewrite nth_error_app1 by exact Lj. exact E.
  - left. exists m, hl, dl. rewrite nth_error_app1 in Ek, Em by lia. split; [exact Lt|]. split; [exact Ek|]. split; [exact Em|]. split; [exact H|]. split; [exact W|]. split; [exact D|].
    intros j l' n Hj E. apply (N j l' n); [exact Hj|]. rewrite nth_error_app1 by lia. exact E.
Qed.
Lemma scan_at : forall ifc ls pre cur, tracked pre cur -> (forall k ri, ~ at_ ifc pre k ri) ->
  match scan ifc ls cur with
  | Some ri => exists k, at_ ifc (pre ++ ls) k ri /\ forall k' ri', at_ ifc (pre ++ ls) k' ri' -> (k <= k')%nat
  | None => forall k ri, ~ at_ ifc (pre ++ ls) k ri
  end.
Proof.
  intros ifc. induction ls as [|l ls IH]; intros pre cur T N; cbn [scan].
  - rewrite app_nil_r. exact N.
  - destruct (header l) as [i|] eqn:Eh.
    + replace (pre ++ l :: ls) with ((pre ++ [l]) ++ ls) by (rewrite <- app_assoc; reflexivity). apply header_iff in Eh. apply IH.
      * right. exists (length pre), l. split; [apply nth_error_mid|]. split; [exact Eh|]. intros j l' n Hj E. assert (j < length (pre ++ [l]))%nat by (apply nth_error_Some; congruence). rewrite app_length in *. cbn [length] in *. lia.
      * intros k ri X. apply snoc_at in X as [X|(X & _)]; [exact (N k ri X)|]. exact (not_both ifc l i X Eh).
    + pose proof (header_none l Eh) as Nh. destruct (starts_with !"wg" cur && OpenQuick.describes ifc l) eqn:Hit.
      * apply andb_true_iff in Hit as [W D]. apply wg_iff in W. apply describes_iff in D. destruct T as [[-> _]|(k & hl & Ek & Hh & Nk)]; [destruct W as [x W]; discriminate W|].
        assert (Lk : (k < length pre)%nat) by (apply nth_error_Some; congruence). exists k. split.
        { exists (length pre), hl, l. split; [exact Lk|]. split; [rewrite nth_error_app1 by exact Lk; exact Ek|]. split; [apply nth_error_mid|]. split; [exact Hh|]. split; [exact W|]. split; [exact D|].
          intros j l' n Hj E. rewrite nth_error_app1 in E by lia. apply (Nk j l' n); [lia|exact E]. }
        intros k' ri' (m & hl' & dl & Lt & Ek' & Em & H' & W' & D' & N'). destruct (Nat.le_gt_cases k k') as [L|L]; [exact L|]. exfalso.
        destruct (Nat.lt_trichotomy m k) as [C|[C|C]].
        -- apply (N k' ri'). exists m, hl', dl. rewrite nth_error_app1 in Ek', Em by lia. split; [exact Lt|]. split; [exact Ek'|]. split; [exact Em|]. split; [exact H'|]. split; [exact W'|]. split; [exact D'|].
           intros j l' n Hj E. apply (N' j l' n Hj). rewrite nth_error_app1 by lia. exact E.
        -- subst m. rewrite nth_error_app1 in Em by lia. assert (dl = hl) by congruence. subst dl. exact (not_both ifc hl cur D' Hh).
        -- apply (N' k hl cur); [lia| |exact Hh]. rewrite nth_error_app1 by lia. exact Ek.
      * replace (pre ++ l :: ls) with ((pre ++ [l]) ++ ls) by (rewrite <- app_assoc; reflexivity). apply IH.
        -- destruct T as [[-> T]|(k & hl & Ek & Hh & Nk)].
           ++ left. split; [reflexivity|]. intros l' n Hl. apply in_app_iff in Hl as [Hl|[<-|[]]]; [apply T, Hl|apply Nh].
           ++ right. assert (Lk : (k < length pre)%nat) by (apply nth_error_Some; congruence). exists k, hl. split; [rewrite nth_error_app1 by exact Lk; exact Ek|]. split; [exact Hh|].
              intros j l' n Hj E. assert (Lj : (j < length (pre ++ [l]))%nat) by (apply nth_error_Some; congruence). rewrite app_length in Lj. cbn [length] in Lj.
              destruct (Nat.eq_dec j (length pre)) as [->|Ne]; [rewrite nth_error_mid in E; assert (l' = l) by congruence; subst l'; apply Nh|]. rewrite nth_error_app1 in E by lia. apply (Nk j l' n Hj E).
        -- intros k ri X. apply snoc_at in X as [X|(D & hl & Ek & Hh & W & Nk)]; [exact (N k ri X)|]. destruct T as [[-> T]|(k0 & hl0 & Ek0 & Hh0 & Nk0)].
           ++ apply (T hl ri); [eapply nth_error_In; exact Ek|exact Hh].
           ++ assert (k = k0).
              { destruct (Nat.lt_trichotomy k k0) as [C|[C|C]]; [exfalso; apply (Nk k0 hl0 cur C Ek0 Hh0)|exact C|exfalso; apply (Nk0 k hl ri C Ek Hh)]. }
              subst k0. assert (hl0 = hl) by congruence. subst hl0. assert (ri = cur) by (eapply heads_fun; eassumption). subst ri.
              apply describes_iff in D. apply wg_iff in W. rewrite D, W in Hit. discriminate Hit.
Qed.
Lemma whole_lines_raw : forall out, whole_lines out (fst (raw_lines out)).
Proof.
  intro out. unfold raw_lines. cbn [fst]. destruct (QuickProofs.split_all_shape (no_nul out)) as (full & rest & E & E2 & F & R). rewrite E, removelast_last. exists rest. split; [exact E2|]. split; [exact F|exact R].
Qed.
Lemma scan_name : forall ifc out, match scan ifc (fst (raw_lines out)) [] with Some ri => real_name ifc out ri | None => no_real_name ifc out end.
Proof.
  intros ifc out. pose proof (scan_at ifc (fst (raw_lines out)) [] []) as H. cbn [app] in H.
  assert (T : tracked [] []) by (left; split; [reflexivity|intros l n []]). assert (N : forall k ri, ~ at_ ifc [] k ri) by (intros k ri (m & hl & dl & _ & E & _); destruct k; discriminate E).
  specialize (H T N). destruct (scan ifc (fst (raw_lines out)) []) as [ri|].
  - destruct H as (k & X & M). exists (fst (raw_lines out)), k. split; [apply whole_lines_raw|]. split; [apply at_iff, X|]. intros k' ri' D. apply at_iff in D. apply (M k' ri' D).
  - exists (fst (raw_lines out)). split; [apply whole_lines_raw|]. intros k ri D. apply at_iff in D. apply (H k ri D).
Qed.
(** What a name that ifconfig heads is made of. *)
Lemma heads_name : forall l n, heads l n -> device_word n /\ ~ In 46 n /\ ~ In 43 n /\ n <> [].
Proof.
  intros l n (a & b & rest & _ & -> & Na & Nb & Fa & Fb & _). assert (F : Forall (fun c => lower c \/ digit c) (a ++ b)).
  { apply Forall_app. split; [eapply Forall_impl; [|exact Fa]|eapply Forall_impl; [|exact Fb]]; cbv beta; auto. }
  assert (Ne : a ++ b <> []) by (destruct a; [congruence|discriminate]).
  assert (X : forall c, In c (a ++ b) -> lower c \/ digit c) by (apply Forall_forall, F). unfold lower, digit in X.
  split; [split; [exact Ne|]|].
  - apply Forall_forall. intros c Hc. specialize (X c Hc). unfold blank. lia.
  - split; [intro H; specialize (X 46 H); lia|]. split; [intro H; specialize (X 43 H); lia|exact Ne].
Qed.
Lemma real_name_word : forall ifc out ri, real_name ifc out ri -> device_word ri /\ FreeSpec.literal ri /\ ri <> [].
Proof. intros ifc out ri (ls & k & _ & (a & hl & b & dl & c & _ & _ & H & _) & _). apply heads_name in H as (H1 & H2 & H3 & H4). split; [exact H1|]. split; [split; assumption|exact H4]. Qed.

(** ** Numbers *)
Lemma white_iff : forall c, ifsb c = true <-> white c.
Proof. intro c. unfold ifsb, blankb, white. rewrite !orb_true_iff, !Z.eqb_eq. tauto. Qed.
Lemma white_false : forall c, ifsb c = false <-> ~ white c.
Proof. intro c. rewrite <- white_iff. destruct (ifsb c); split; intro H; congruence. Qed.
Lemma words_sound : forall s cur w, Forall (fun c => ~ white c) cur -> In w (words_go cur s) ->
  (exists b w', w = rev cur ++ w' /\ s = w' ++ b /\ w <> [] /\ Forall (fun c => ~ white c) w /\ (b = [] \/ exists c b', b = c :: b' /\ white c)) \/
  (exists a c b, s = a ++ c :: w ++ b /\ white c /\ w <> [] /\ Forall (fun c => ~ white c) w /\ (b = [] \/ exists c b', b = c :: b' /\ white c)).
Proof.
  assert (R : forall l, Forall (fun c => ~ white c) l -> Forall (fun c => ~ white c) (rev l)) by (intros l H; apply Forall_rev, H).
  induction s as [|c s IH]; intros cur w Fc H; cbn [words_go] in H.
  - destruct cur as [|x cur]; [destruct H|]. destruct H as [<-|[]]. left. exists [], []. rewrite !app_nil_r. split; [reflexivity|]. split; [reflexivity|].
    split; [cbn [rev]; intro E; apply app_eq_nil in E as [_ E]; discriminate E|]. split; [apply R, Fc|left; reflexivity].
  - destruct (ifsb c) eqn:Ec.
    + apply white_iff in Ec. apply in_app_iff in H as [H|H].
      * destruct cur as [|x cur]; [destruct H|]. destruct H as [<-|[]]. left. exists (c :: s), []. rewrite !app_nil_r. split; [reflexivity|]. split; [reflexivity|].
        split; [cbn [rev]; intro E; apply app_eq_nil in E as [_ E]; discriminate E|]. split; [apply R, Fc|right; eauto].
      * right. apply IH in H; [|constructor]. destruct H as [(b & w' & -> & -> & H1 & H2 & H3)|(a & c' & b & -> & H1 & H2 & H3 & H4)].
        -- exists [], c, b. cbn [rev app] in *. auto.
        -- exists (c :: a), c', b. auto.
    + apply white_false in Ec. apply IH in H; [|constructor; assumption]. destruct H as [(b & w' & -> & -> & H1 & H2 & H3)|(a & c' & b & -> & H1 & H2 & H3 & H4)].
      * left. exists b, (c :: w'). cbn [rev]. cbn [rev] in H1, H2. rewrite <- app_assoc in *. cbn [app] in *. auto.
      * right. exists (c :: a), c', b. auto.
Qed.
Lemma words_in : forall text w, In w (words text) <-> word_in text w.
Proof.
  intros text w. split.
  - intro H. unfold words in H. apply words_sound in H; [|constructor]. destruct H as [(b & w' & -> & -> & H1 & H2 & H3)|(a & c' & b & -> & H1 & H2 & H3 & H4)].
    + exists [], b. cbn [rev app] in *. split; [reflexivity|]. split; [exact H1|]. split; [exact H2|]. split; [left; reflexivity|exact H3].
    + exists (a ++ [c']), b. rewrite <- app_assoc. split; [reflexivity|]. split; [exact H2|]. split; [exact H3|]. split; [right; eauto|exact H4].
  - intros (a & b & -> & Nw & Fw & Ha & Hb). unfold words.
    assert (Hw : forall cur, cur = [] -> In w (words_go cur (w ++ b))).
    { intros cur ->. rewrite PropQuick.words_word by (eapply Forall_impl; [|exact Fw]; intros c Hc; apply white_false, Hc). rewrite app_nil_r.
      assert (X : match rev w with [] => [] | _ => [rev (rev w)] end = [w]).
      { rewrite rev_involutive. destruct (rev w) as [|x r] eqn:Er; [|reflexivity]. apply (f_equal (@rev Z)) in Er. rewrite rev_involutive in Er. cbn [rev] in Er. congruence. }
      destruct Hb as [->|(c & b' & -> & Hc)]; cbn [words_go].
      - rewrite X. left. reflexivity.
      - rewrite (proj2 (white_iff c) Hc), X. left. reflexivity. }
    destruct Ha as [->|(a' & c & -> & Hc)]; [apply Hw; reflexivity|]. rewrite <- app_assoc. cbn [app]. rewrite QuickRouteProofs.words_sep by (apply white_iff, Hc). apply in_app_iff. right. apply Hw. reflexivity.
Qed.
Lemma wgn_number : forall n, wg_number n (wgn n).
Proof.
  intro n. exists (print_dec (Z.of_nat n)). split; [reflexivity|]. split; [apply ConfigProofs.decimal_iff; split; [apply print_num_nonempty|apply print_dec_value; lia]|].
  intro H. destruct n as [|n]; [reflexivity|]. exfalso. pose proof (print_num_head 10 (Z.of_nat (S n)) ltac:(lia) ltac:(lia)) as X. unfold print_dec in H.
  pose proof (print_num_nonempty 10 (Z.of_nat (S n))) as Y. destruct (print_num 10 (Z.of_nat (S n))); [congruence|]. cbn [hd] in *. congruence.
Qed.
Lemma wgn_inj : forall n m, wgn n = wgn m -> n = m.
Proof.
  intros n m H. unfold wgn in H. apply app_inv_head in H. pose proof (print_dec_value (Z.of_nat n) ltac:(lia)) as A. rewrite H, print_dec_value in A by lia.
  assert (E : Z.of_nat m = Z.of_nat n) by congruence. lia.
Qed.
Lemma wgn_word : forall n, device_word (wgn n) /\ FreeSpec.literal (wgn n) /\ wgn n <> [].
Proof.
  intro n. pose proof (CstrProofs.print_dec_digits (Z.of_nat n) ltac:(lia)) as F. assert (X : forall c, In c (wgn n) -> 48 <= c <= 57 \/ c = 119 \/ c = 103).
  { intros c H. unfold wgn in H. apply in_app_iff in H as [H|H]; [cbn in H; lia|]. rewrite Forall_forall in F. specialize (F c H). cbv beta in F. lia. }
  split; [split; [discriminate|]|split; [split; intro H; specialize (X _ H); lia|discriminate]]. apply Forall_forall. intros c Hc. specialize (X c Hc). unfold blank. lia.
Qed.
Lemma find_first : forall (f : nat -> bool) k n0, match find f (seq n0 k) with Some n => (n0 <= n)%nat /\ f n = true /\ forall m, (n0 <= m < n)%nat -> f m = false | None => forall m, (n0 <= m < n0 + k)%nat -> f m = false end.
Proof.
  intros f. induction k as [|k IH]; intro n0; cbn [seq find]; [intros m H; lia|]. destruct (f n0) eqn:E.
  - split; [lia|]. split; [exact E|]. intros m H. lia.
  - specialize (IH (S n0)). destruct (find f (seq (S n0) k)) as [n|].
    + destruct IH as (A & B & C). split; [lia|]. split; [exact B|]. intros m H. destruct (Nat.eq_dec m n0) as [->|]; [exact E|apply C; lia].
    + intros m H. destruct (Nat.eq_dec m n0) as [->|]; [exact E|apply IH; lia].
Qed.
Lemma existsb_in : forall w ws, existsb (beq w) ws = true <-> In w ws.
Proof.
  intros w ws. rewrite existsb_exists. split; [intros (x & H & E); apply beq_eq in E; subst; exact H|]. intro H. exists w. split; [exact H|apply beq_refl].
Qed.
Lemma free_name_spec : forall ws, exists n, free_name ws = wgn n /\ ~ In (wgn n) ws /\ forall m, (m < n)%nat -> In (wgn m) ws.
Proof.
  intro ws. unfold free_name. pose proof (find_first (fun n => negb (existsb (beq (wgn n)) ws)) (S (length ws)) 0) as H. destruct (find _ _) as [n|].
  - destruct H as (_ & E & M). exists n. split; [reflexivity|]. apply negb_true_iff in E. split; [intro X; apply existsb_in in X; congruence|].
    intros m L. specialize (M m ltac:(lia)). apply negb_false_iff in M. apply existsb_in, M.
  - exfalso. assert (I : incl (map wgn (seq 0 (S (length ws)))) ws).
    { intros w Hw. apply in_map_iff in Hw as (m & <- & Hm). apply in_seq in Hm. specialize (H m ltac:(lia)). apply negb_false_iff in H. apply existsb_in, H. }
    apply NoDup_incl_length in I; [rewrite map_length, seq_length in I; lia|]. apply FinFun.Injective_map_NoDup; [exact wgn_inj|apply seq_NoDup].
Qed.
Lemma free_name_first : forall text, first_free text (free_name (words text)).
Proof.
  intro text. destruct (free_name_spec (words text)) as (n & -> & N & M). exists n. split; [apply wgn_number|]. split; [rewrite <- words_in; exact N|].
  intros m L. exists (wgn m). split; [apply wgn_number|]. apply words_in, M, L.
Qed.
Lemma free_name_word : forall ws, device_word (free_name ws) /\ FreeSpec.literal (free_name ws) /\ free_name ws <> [].
Proof. intro ws. destruct (free_name_spec ws) as (n & -> & _). apply wgn_word. Qed.

(** ** Addresses *)
Lemma bare_iff : forall a b, dirname a = b <-> bare a b.
Proof.
  intros a b. unfold dirname, bare. destruct (split_last 47 a) as [[d t]|] eqn:E.
  - apply split_last_spec in E as [-> N]. split; [intros <-; left; exists t; auto|]. intros [(t' & E & N')|[N' _]]; [|exfalso; apply N'; apply in_elt].
    pose proof (split_last_app 47 d t N) as X1. rewrite E, (split_last_app 47 b t' N') in X1. congruence.
  - apply split_last_none in E. split; [intros <-; right; auto|]. intros [(t' & -> & N')|[_ H]]; [exfalso; apply E, in_elt|congruence].
Qed.
Lemma family_iff : forall f a, of_family (match f with F4 => false | F6 => true end) a = true <-> fits f a.
Proof.
  intros f a. unfold of_family, fits. assert (X : has_char 58 a = true <-> In 58 a) by apply has_char_In. destruct f, (has_char 58 a); cbn [Bool.eqb]; intuition congruence.
Qed.
Lemma fits_has : forall f r, fits f r -> has_char 58 r = match f with F4 => false | F6 => true end.
Proof. intros f r H. apply family_iff in H. unfold of_family in H. apply eqb_prop in H. exact H. Qed.
Lemma first_addr_spec : forall f o, match first_addr (match f with F4 => false | F6 => true end) (o_addresses o) with [] => no_local_address f o | loc => local_address f o loc end.
Proof.
  intros f o. unfold first_addr, no_local_address, local_address. generalize (o_addresses o). induction l as [|a l IH]; cbn [filter map]; [intros a []|].
  destruct (of_family _ a) eqn:Ef.
  - apply family_iff in Ef. cbn [map filter]. destruct (beq (dirname a) []) eqn:Eb; cbn [negb].
    + apply beq_eq, bare_iff in Eb. destruct (filter _ _) as [|x r]; [|destruct x as [|x0 x]].
      * intros y [<-|Hy] Fy; [exact Eb|apply IH; assumption].
      * intros y [<-|Hy] Fy; [exact Eb|apply IH; assumption].
      * destruct IH as (a1 & y & a2 & -> & H1 & H2 & H3 & H4). exists (a :: a1), y, a2. split; [reflexivity|]. split; [exact H1|]. split; [exact H2|]. split; [exact H3|]. intros z [<-|Hz] Fz; [exact Eb|apply H4; assumption].
    + destruct (dirname a) as [|x d] eqn:Ed; [discriminate Eb|]. exists [], a, l. split; [reflexivity|]. split; [exact Ef|]. split; [apply bare_iff, Ed|]. split; [discriminate|]. intros z [].
  - assert (Nf : ~ fits f a) by (intro X; apply family_iff in X; congruence). destruct (filter _ _) as [|x r]; [|destruct x as [|x0 x]].
    + intros y [<-|Hy] Fy; [contradiction|apply IH; assumption].
    + intros y [<-|Hy] Fy; [contradiction|apply IH; assumption].
    + destruct IH as (a1 & y & a2 & -> & H1 & H2 & H3 & H4). exists (a :: a1), y, a2. split; [reflexivity|]. split; [exact H1|]. split; [exact H2|]. split; [exact H3|]. intros z [<-|Hz] Fz; [contradiction|apply H4; assumption].
Qed.
