(** C49: the routing rules when an interface is taken down. *)
From Coq Require Import String ZArith List Bool Lia.
From Verif Require Import Base Cstr CstrProofs Types Show Bash Quick QuickProofs QuickRun QuickRunSpec QuickRunProofs QuickUpProofs QuickDoes QuickSave QuickSaveProofs QuickRouteSpec QuickRouteProofs
  QuickDownSpec QuickDownProofs PropQuickFirewall PropQuickDown.
Import ListNotations.
Open Scope Z_scope.

(** ** Looking for a text in the listing *)
Lemma contains_sep : forall p s t, ~ In 10 p -> (exists a b, s ++ 10 :: t = a ++ p ++ b) -> (exists a b, s = a ++ p ++ b) \/ (exists a b, t = a ++ p ++ b).
Proof.
  intros p s t Hp (a & b & E). apply app_eq_app in E. destruct E as (l & [[E1 E2]|[E1 E2]]).
  - (* the match begins in s *)
    apply app_eq_app in E2. destruct E2 as (k & [[F1 F2]|[F1 F2]]).
    + destruct k as [|x k]; [left; exists a, []; rewrite app_nil_r in F1; subst; rewrite app_nil_r; reflexivity|].
      exfalso. cbn [app] in F2. injection F2 as <- F2. apply Hp. rewrite F1. apply in_or_app. right. left. reflexivity.
    + left. exists a, k. rewrite E1, F1. reflexivity.
  - destruct l as [|x l].
    + cbn [app] in E2. destruct p as [|y p]; [left; exists [], s; reflexivity|]. cbn [app] in E2. injection E2 as <- E2. exfalso. apply Hp. left. reflexivity.
    + cbn [app] in E2. injection E2 as <- E2. right. exists l, b. exact E2.
Qed.
Lemma contains_unlines : forall p ls, ~ In 10 p -> p <> [] -> (exists a b, unlines ls = a ++ p ++ b) <-> exists l, In l ls /\ exists a b, l = a ++ p ++ b.
Proof.
  intros p ls Hp Hne. induction ls as [|x ls IH]; unfold unlines in *; cbn [map concat].
  - split; [intros (a & b & E)|intros (l & [] & _)]. symmetry in E. apply app_eq_nil in E. destruct E as [_ E]. apply app_eq_nil in E. destruct E. contradiction.
  - rewrite <- app_assoc. cbn [app]. split.
    + intro H. apply contains_sep in H; [|exact Hp]. destruct H as [H|H]; [exists x; split; [left; reflexivity|exact H]|].
      apply IH in H. destruct H as (l & Hl & H). exists l. split; [right; exact Hl|exact H].
    + intros (l & [->|Hl] & a & b & E).
      * exists a, (b ++ 10 :: concat (map (fun l0 => l0 ++ [10]) ls)). rewrite E, <- !app_assoc. reflexivity.
      * destruct (proj2 IH (ex_intro _ l (conj Hl (ex_intro _ a (ex_intro _ b E))))) as (a' & b' & E'). exists (x ++ 10 :: a'), b'. rewrite E', <- app_assoc. reflexivity.
Qed.
Lemma no_nul_free : forall s, ~ In 0 s -> no_nul s = s.
Proof. intros s H. apply no_nul_id, H. Qed.
Lemma contains_captured : forall p s, ~ In 10 p -> p <> [] -> ~ In 0 s -> contains p (captured s) = true <-> exists a b, s = a ++ p ++ b.
Proof.
  intros p s Hp Hne H0. rewrite contains_iff. unfold captured. rewrite no_nul_free by exact H0.
  destruct (rtrim_split (Z.eqb 10) s) as (w & E & F & _). split.
  - intros (a & b & Ea). exists a, (b ++ w). rewrite E, Ea at 1. rewrite <- !app_assoc. reflexivity.
  - intro H. rewrite E in H. clear E. induction w as [|c w IH] using rev_ind; [rewrite app_nil_r in H; exact H|].
    apply Forall_app in F. destruct F as [F Fc]. apply IH; [exact F|]. apply Forall_inv in Fc. apply Z.eqb_eq in Fc. subst c. rewrite app_assoc in H.
    apply contains_sep in H; [|exact Hp]. destruct H as [H|(a & b & H)]; [exact H|]. symmetry in H. apply app_eq_nil in H. destruct H as [_ H]. apply app_eq_nil in H. destruct H. contradiction.
Qed.
Lemma listing_contains : forall p rs, ~ In 10 p -> p <> [] -> Forall proper_rule rs ->
  contains p (captured (unlines (map rule_line rs))) = true <-> exists r, In r rs /\ contains p (rule_line r) = true.
Proof.
  intros p rs Hp Hne F. rewrite contains_captured; [|exact Hp|exact Hne|].
  - rewrite contains_unlines by assumption. split.
    + intros (l & Hl & H). apply in_map_iff in Hl. destruct Hl as (r & <- & Hr). exists r. split; [exact Hr|]. apply contains_iff. exact H.
    + intros (r & Hr & H). exists (rule_line r). split; [apply in_map; exact Hr|]. apply contains_iff. exact H.
  - intro K. unfold unlines in K. apply in_concat in K. destruct K as (x & Hx & K). apply in_map_iff in Hx. destruct Hx as (y & <- & Hy).
    apply in_map_iff in Hy. destruct Hy as (r & <- & Hr). rewrite Forall_forall in F. destruct (F r Hr) as (_ & N0 & _).
    apply in_app_iff in K. destruct K as [K|[K|[]]]; [exact (N0 K)|discriminate].
Qed.

(** The rest of a line after the table. *)
Definition tail_of (r : rule) : list Z := (match r_suppress r with Some n => str " suppress_prefixlength " ++ print_dec n | None => [] end) ++ r_rest r.
Lemma tail_space : forall r, proper_rule r -> tail_of r = [] \/ exists x, tail_of r = 32 :: x.
Proof.
  intros r (_ & _ & _ & _ & Hr & _). unfold tail_of. destruct (r_suppress r) as [n|]; [right; eexists; reflexivity|]. exact Hr.
Qed.
Lemma line_cut : forall r a b, proper_rule r -> rule_line r = a ++ str "lookup " ++ b -> a = r_head r /\ b = r_table r ++ tail_of r.
Proof.
  intros r a b Hp E. assert (Ea : a = r_head r) by (destruct Hp as (_ & _ & H & _); exact (H a b E)). split; [exact Ea|]. subst a.
  unfold rule_line in E. apply app_inv_head in E. apply app_inv_head in E. symmetry. exact E.
Qed.
Lemma table_line : forall r t, proper_rule r -> ~ In 32 t -> contains (str "lookup " ++ t) (rule_line r) = true <-> exists x, r_table r = t ++ x.
Proof.
  intros r t Hp Ht. rewrite contains_iff. split.
  - intros (a & b & E). rewrite <- app_assoc in E. destruct (line_cut r a _ Hp E) as [_ Eb]. apply app_eq_app in Eb. destruct Eb as (l & [[E1 E2]|[E1 E2]]).
    + destruct l as [|c l]; [exists []; rewrite app_nil_r in E1 |- *; auto|]. exfalso. destruct (tail_space r Hp) as [T|(y & T)]; rewrite T in E2; [discriminate|].
      cbn [app] in E2. injection E2 as Ec _. apply Ht. rewrite E1. apply in_or_app. right. left. congruence.
    + exists l. exact E1.
  - intros (x & E). exists (r_head r), (x ++ tail_of r). unfold rule_line. fold (tail_of r). rewrite E, <- !app_assoc. reflexivity.
Qed.
Lemma first_space : forall t u x y : list Z, ~ In 32 t -> ~ In 32 u -> t ++ 32 :: x = u ++ 32 :: y -> t = u /\ x = y.
Proof.
  induction t as [|c t IH]; intros [|d u] x y Ht Hu E; cbn [app] in E.
  - injection E as ->. auto.
  - injection E as <- _. exfalso. apply Hu. left. reflexivity.
  - injection E as -> _. exfalso. apply Ht. left. reflexivity.
  - injection E as -> E. destruct (IH u x y) as [-> ->]; [intro K; apply Ht; right; exact K|intro K; apply Hu; right; exact K|exact E|]. auto.
Qed.
Lemma suppress_line : forall r, proper_rule r -> contains main_suppress (rule_line r) = true <->
  r_table r = str "main" /\ r_suppress r = Some 0 /\ exists x, r_head r = x ++ str "from all ".
Proof.
  intros r Hp. rewrite contains_iff. change main_suppress with (str "from all " ++ str "lookup " ++ str "main suppress_prefixlength 0"). split.
  - intros (a & b & E). rewrite <- !app_assoc in E. rewrite (app_assoc a (str "from all ")) in E. destruct (line_cut r _ _ Hp E) as [Ea Eb].
    assert (Hx : exists x, r_head r = x ++ str "from all ") by (exists a; symmetry; exact Ea).
    destruct (tail_space r Hp) as [T|(y & T)].
    { exfalso. rewrite T, app_nil_r in Eb. destruct Hp as (_ & _ & _ & N & _). apply N. rewrite <- Eb. cbn. tauto. }
    rewrite T in Eb. change (str "main suppress_prefixlength 0" ++ b) with (str "main" ++ 32 :: (str "suppress_prefixlength 0" ++ b)) in Eb.
    apply first_space in Eb; [|cbn; intuition discriminate|exact (proj1 (proj2 (proj2 (proj2 Hp))))]. destruct Eb as [Et Ey]. split; [symmetry; exact Et|]. split; [|exact Hx].
    subst y. unfold tail_of in T. destruct Hp as (_ & _ & _ & _ & Hr & Hn & Hs). destruct (r_suppress r) as [n|].
    + f_equal. specialize (Hn n eq_refl). rewrite <- app_assoc in T. change (32 :: str "suppress_prefixlength 0" ++ b) with (str " suppress_prefixlength " ++ 48 :: b) in T.
      apply app_inv_head in T. destruct (Z.eq_dec n 0) as [->|N0]; [reflexivity|]. exfalso. apply (print_num_head 10 n); [lia|lia|].
      fold (print_dec n). destruct (print_dec n) as [|d ds] eqn:Ed; [reflexivity|]. cbn [app] in T. injection T as Ec _. cbn [hd]. congruence.
    + exfalso. cbn [app] in T. apply (Hs eq_refl (48 :: b)). exact T.
  - intros (Et & Es & x & Eh). exists x, (r_rest r). unfold rule_line. rewrite Et, Es, Eh, <- !app_assoc. reflexivity.
Qed.

(** ** One of the loops *)
Lemma without_skip : forall A (P : A -> Prop) a r b l, Forall (fun x => ~ P x) a -> P r -> without P (a ++ b) l -> without P (a ++ r :: b) l.
Proof.
  intros A P a r b. induction a as [|x a IH]; intros l F Hr H; cbn [app] in *; [apply wo_drop; assumption|].
  inversion H as [|? ? ? Hx|? ? l' Hx H']; subst.
  - exfalso. exact (Forall_inv F Hx).
  - apply wo_keep; [exact Hx|]. apply IH; [exact (Forall_inv_tail F)|exact Hr|exact H'].
Qed.
Lemma without_none : forall A (P : A -> Prop) l, Forall (fun x => ~ P x) l -> without P l l.
Proof. intros A P l F. induction F; [constructor|apply wo_keep; assumption]. Qed.
Lemma without_in : forall A (P : A -> Prop) l l', without P l l' -> forall x, In x l' -> In x l /\ ~ P x.
Proof.
  intros A P l l' H. induction H as [|x l l' Hx H IH|x l l' Hx H IH]; intros y Hy; [destruct Hy| |].
  - destruct (IH y Hy). split; [right|]; assumption.
  - destruct Hy as [<-|Hy]; [split; [left; reflexivity|exact Hx]|]. destruct (IH y Hy). split; [right|]; assumption.
Qed.
Lemma without_length : forall A (P : A -> Prop) l l', without P l l' -> (length l' <= length l)%nat.
Proof. intros A P l l' H. induction H; cbn [length]; lia. Qed.
Lemma without_twice : forall A (P Q : A -> Prop) l l1 l2, without P l l1 -> without Q l1 l2 -> without (fun x => P x \/ Q x) l l2.
Proof.
  intros A P Q l l1 l2 H. revert l2. induction H as [|x l l1 Hx H IH|x l l1 Hx H IH]; intros l2 H2.
  - inversion H2. constructor.
  - apply wo_drop; [left; exact Hx|]. apply IH, H2.
  - inversion H2 as [|? ? ? Hy H3|? ? l3 Hy H3]; subst; [apply wo_drop; [right; exact Hy|apply IH, H3]|apply wo_keep; [tauto|apply IH, H3]].
Qed.

Section Rules.
Variable sys : system.
Variable rules : history -> list Z -> list rule.
Hypothesis Known : knows_rules sys rules.

Definition fam (f : list Z) : Prop := f = str "-4" \/ f = str "-6".
Lemma known_at : forall h f, fam f ->
    Forall proper_rule (rules h f) /\
    a_output (sys h (rule_show f)) = unlines (map rule_line (rules h f)) /\
    (forall c g, asks c = true -> rules (h ++ [(c, sys h c)]) g = rules h g) /\
    (forall s, (forall n, s_suppress s = Some n -> 0 <= n) -> let ev := (rule_delete f s, sys h (rule_delete f s)) in
       (exists a r b, rules h f = a ++ r :: b /\ selects s r /\ Forall (fun x => ~ selects s x) a /\
          a_status (snd ev) = 0 /\ rules (h ++ [ev]) f = a ++ b /\ (forall g, g <> f -> rules (h ++ [ev]) g = rules h g)) \/
       (Forall (fun x => ~ selects s x) (rules h f) /\ a_status (snd ev) <> 0)).
Proof. intros h f Hf. specialize (Known h). rewrite Forall_forall in Known. apply Known. destruct Hf as [-> | ->]; cbn; auto. Qed.

(** The commands of a loop. *)
Definition loop_event (f : list Z) (s : selector) (ev : event) : Prop := fst ev = rule_show f \/ fst ev = rule_delete f s.
Lemma loop_runs : forall f s pat del, (forall n, s_suppress s = Some n -> 0 <= n) -> fam f -> ~ In 10 pat -> pat <> [] -> argv ([str "ip"; f; str "rule"; str "delete"] ++ del) = rule_delete f s ->
  forall n sh, (forall r, In r (rules (sh_hist sh) f) -> contains pat (rule_line r) = true <-> selects s r) ->
  match delete_rules sys n true f pat del sh with
  | Done _ s1 => sh_dns s1 = sh_dns sh /\ sh_fw s1 = sh_fw sh /\ without (selects s) (rules (sh_hist sh) f) (rules (sh_hist s1) f) /\
                 (forall g, g <> f -> rules (sh_hist s1) g = rules (sh_hist sh) g)
  | Exited _ _ => False
  | Signalled _ s1 => True
  | Loops _ => (n <= length (rules (sh_hist sh) f))%nat
  end /\ exists h, sh_hist (QuickSaveProofs.ends (delete_rules sys n true f pat del sh)) = sh_hist sh ++ h /\
    Forall (fun ev => loop_event f s ev /\ (fst ev = rule_delete f s -> a_status (snd ev) = 0)) h.
Proof.
  intros f s pat del Hpos Hf Hp Hne Hdel. induction n as [|n IH]; intros sh Hm.
  { cbn [delete_rules QuickSaveProofs.ends]. split; [lia|]. exists []. rewrite app_nil_r. split; [reflexivity|constructor]. }
  cbn [delete_rules]. unfold query, bind, run. fold (rule_show f). destruct (known_at (sh_hist sh) f Hf) as (Fp & Eo & Ask & Del).
  assert (Ha : asks (rule_show f) = true) by (destruct Hf as [-> | ->]; reflexivity).
  destruct (a_signal (sys (sh_hist sh) (rule_show f))) as [sg|] eqn:Es.
  { split; [exact I|]. cbn [QuickSaveProofs.ends sh_hist]. eexists. split; [reflexivity|]. constructor; [|constructor]. cbn [fst snd]. split; [left; reflexivity|]. destruct Hf as [-> | ->]; discriminate. }
  cbn [ret]. rewrite Eo. set (sh1 := mk_shell _ _ _).
  assert (L1 : loop_event f s (rule_show f, sys (sh_hist sh) (rule_show f)) /\ (fst (rule_show f, sys (sh_hist sh) (rule_show f)) = rule_delete f s -> a_status (snd (rule_show f, sys (sh_hist sh) (rule_show f))) = 0)).
  { split; [left; reflexivity|]. cbn [fst]. destruct Hf as [-> | ->]; discriminate. }
  assert (R1 : forall g, rules (sh_hist sh1) g = rules (sh_hist sh) g) by (intro g; apply Ask, Ha).
  destruct (contains pat (captured (unlines (map rule_line (rules (sh_hist sh) f))))) eqn:Ec.
  - apply listing_contains in Ec; [|exact Hp|exact Hne|exact Fp]. destruct Ec as (r & Hr & Hc). apply Hm in Hc; [|exact Hr].
    unfold step, step_in, bind, run. change (mk_cmd ([str "ip"; f; str "rule"; str "delete"] ++ del) []) with (argv ([str "ip"; f; str "rule"; str "delete"] ++ del)). rewrite Hdel.
    destruct (known_at (sh_hist sh1) f Hf) as (_ & _ & _ & Del1). specialize (Del1 s Hpos). cbv zeta in Del1. cbn [snd] in Del1.
    destruct Del1 as [(a & q & b & El & Hq & Fa & Hz & Er & Eg)|[Fn _]].
    2: { exfalso. rewrite R1, Forall_forall in Fn. exact (Fn r Hr Hc). }
    set (d := sys (sh_hist sh1) (rule_delete f s)) in *.
    destruct (a_signal d) as [sg|] eqn:Es1.
    { split; [exact I|]. cbn [QuickSaveProofs.ends sh_hist]. unfold sh1. cbn [sh_hist]. eexists. split; [rewrite <- app_assoc; reflexivity|]. cbn [app]. constructor; [exact L1|].
      constructor; [|constructor]. cbn [fst snd]. split; [right; reflexivity|]. intros _. exact Hz. }
    rewrite Hz. cbn [Z.eqb negb andb ret]. set (sh2 := mk_shell _ _ _).
    assert (R2 : rules (sh_hist sh2) f = a ++ b) by exact Er. rewrite R1 in El.
    assert (Hm2 : forall x, In x (rules (sh_hist sh2) f) -> contains pat (rule_line x) = true <-> selects s x).
    { intros x Hx. apply Hm. rewrite R2 in Hx. rewrite El. apply in_app_iff in Hx. apply in_or_app. destruct Hx; [left|right; right]; assumption. }
    destruct (IH sh2 Hm2) as [K (h & Eh & Fh)]. split.
    + destruct (delete_rules sys n true f pat del sh2) as [v s1|st s1|st s1|s1]; try exact K.
      * destruct K as (K1 & K2 & K3 & K4). split; [exact K1|]. split; [exact K2|]. split.
        -- rewrite El. apply without_skip; [exact Fa|exact Hq|]. rewrite <- R2. exact K3.
        -- intros g Hg. rewrite (K4 g Hg). change (rules (sh_hist sh2) g) with (rules (sh_hist sh1 ++ [(rule_delete f s, d)]) g). rewrite (Eg g Hg). apply R1.
      * rewrite R2 in K. rewrite El. rewrite app_length in K |- *. cbn [length]. lia.
    + exists ((rule_show f, sys (sh_hist sh) (rule_show f)) :: (rule_delete f s, d) :: h). split.
      * rewrite Eh. unfold sh2, sh1. cbn [sh_hist]. rewrite <- !app_assoc. reflexivity.
      * constructor; [exact L1|]. constructor; [|exact Fh]. cbn [fst snd]. split; [right; reflexivity|]. intros _. exact Hz.
  - cbn [ret QuickSaveProofs.ends]. split.
    + split; [reflexivity|]. split; [reflexivity|]. split; [|intros g _; apply R1]. rewrite R1. apply without_none. rewrite Forall_forall. intros r Hr Hs.
      apply Hm in Hs; [|exact Hr]. assert (X : contains pat (captured (unlines (map rule_line (rules (sh_hist sh) f)))) = true); [|congruence].
      apply listing_contains; [exact Hp|exact Hne|exact Fp|]. exists r. auto.
    + eexists. unfold sh1. cbn [sh_hist]. split; [reflexivity|]. constructor; [exact L1|constructor].
Qed.

Lemma has_default_iff : forall s, has_default s = true <-> exists a b, s = a ++ str "/0" ++ b /\ (b = [] \/ exists x, b = 32 :: x \/ b = 10 :: x).
Proof.
  intro s. split.
  - induction s as [|c s IH]; [discriminate|]. intro H.
    assert (K : (c = 47 /\ exists r, s = 48 :: r /\ match r with [] => true | c :: _ => (c =? 32) || (c =? 10) end = true) \/ has_default s = true).
    { cbn [has_default] in H. destruct (Z.eq_dec c 47) as [->|N].
      - destruct s as [|d r]; [right; exact H|]. destruct (Z.eq_dec d 48) as [->|N].
        + apply orb_true_iff in H. destruct H as [H|H]; [left; split; [reflexivity|]; exists r; auto|right; exact H].
        + right. destruct d as [|p|p]; try exact H. do 7 (destruct p as [p|p|]; try exact H; try (exfalso; apply N; reflexivity)).
      - right. destruct c as [|p|p]; try exact H. do 7 (destruct p as [p|p|]; try exact H; try (exfalso; apply N; reflexivity)). }
    destruct K as [(-> & r & -> & K)|K].
    + exists [], r. split; [reflexivity|]. destruct r as [|d r]; [left; reflexivity|]. right. exists r. apply orb_true_iff in K. destruct K as [K|K]; apply Z.eqb_eq in K; subst d; auto.
    + destruct (IH K) as (a & b & E & Hb). exists (c :: a), b. split; [cbn [app]; f_equal; exact E|exact Hb].
  - intros (a & b & -> & Hb). induction a as [|c a IH].
    + cbn [app str]. change (str "/0") with [47; 48]. cbn [app has_default]. destruct Hb as [->|(x & [-> | ->])]; reflexivity.
    + assert (M : forall d s, has_default s = true -> has_default (d :: s) = true).
      { clear. intros d s H. cbn [has_default]. destruct d as [|p|p]; try exact H. do 7 (try (destruct p as [p|p|]; try exact H)). destruct s as [|e s]; [exact H|].
        destruct e as [|q|q]; try exact H. do 7 (try (destruct q as [q|q|]; try exact H)). apply orb_true_iff. right. exact H. }
      apply M. exact IH.
Qed.

Variable ifc : list Z.
Variable o : options.
Variable fuel : nat.

Definition elsewhere (c : command) : Prop := c <> show_mark ifc /\ c <> link_delete ifc /\ ~ deletes_rule c.
Lemma loop_elsewhere : forall f s h, fam f -> Forall (fun ev => loop_event f s ev /\ (fst ev = rule_delete f s -> a_status (snd ev) = 0)) h ->
  Forall (fun ev => fst ev <> show_mark ifc /\ fst ev <> link_delete ifc /\ (deletes_rule (fst ev) -> a_status (snd ev) = 0)) h.
Proof.
  intros f s h Hf F. eapply Forall_impl; [|exact F]. intros ev ([E|E] & K); rewrite E.
  - split; [destruct Hf as [-> | ->]; discriminate|]. split; [destruct Hf as [-> | ->]; discriminate|]. intros (g & args & Hg & Eg).
    destruct Hf as [-> | ->]; destruct Hg as [-> | ->]; discriminate Eg.
  - split; [destruct Hf as [-> | ->]; discriminate|]. split; [destruct Hf as [-> | ->]; discriminate|]. intros _. apply K, E.
Qed.

(** Where in a run of del_if the question for the fwmark and the deletion are. *)
Definition inner (ev : event) : Prop := fst ev <> show_mark ifc /\ fst ev <> link_delete ifc /\ (deletes_rule (fst ev) -> a_status (snd ev) = 0).
Lemma inner_no_mark : forall K, Forall inner K -> forall a, ~ In (show_mark ifc, a) K.
Proof. intros K F a Hin. rewrite Forall_forall in F. destruct (F _ Hin) as (N & _). apply N. reflexivity. Qed.
Lemma inner_no_delete : forall K, Forall inner K -> forall a, ~ In (link_delete ifc, a) K.
Proof. intros K F a Hin. rewrite Forall_forall in F. destruct (F _ Hin) as (_ & N & _). apply N. reflexivity. Qed.
Lemma shape_open : forall (am : answer) K h0 am' hd a h2, Forall inner K ->
  (show_mark ifc, am) :: K = h0 ++ (show_mark ifc, am') :: hd ++ (link_delete ifc, a) :: h2 -> False.
Proof.
  intros am K h0 am' hd a h2 F E. destruct h0 as [|x h0]; cbn [app] in E.
  - injection E as _ E. apply (inner_no_delete K F a). rewrite E. apply in_or_app. right. left. reflexivity.
  - injection E as _ E. apply (inner_no_mark K F am'). rewrite E. apply in_or_app. right. left. reflexivity.
Qed.
Lemma shape_closed : forall am K d h0 am' hd a h2, Forall inner K ->
  (show_mark ifc, am) :: K ++ [(link_delete ifc, d)] = h0 ++ (show_mark ifc, am') :: hd ++ (link_delete ifc, a) :: h2 -> h0 = [] /\ am' = am /\ hd = K /\ h2 = [].
Proof.
  intros am K d h0 am' hd a h2 F E. destruct h0 as [|x h0]; cbn [app] in E.
  - injection E as <- E. split; [reflexivity|]. split; [reflexivity|].
    destruct h2 as [|y h2] using rev_ind.
    + apply app_inj_tail in E. destruct E as [-> _]. auto.
    + exfalso. clear IHh2. rewrite app_comm_cons, app_assoc in E. apply app_inj_tail in E. destruct E as [-> _].
      apply (inner_no_delete _ F a). apply in_or_app. right. left. reflexivity.
  - exfalso. injection E as _ E. assert (Hin : In (show_mark ifc, am') (K ++ [(link_delete ifc, d)])) by (rewrite E; apply in_or_app; right; left; reflexivity).
    apply in_app_iff in Hin. destruct Hin as [Hin|[Hin|[]]]; [exact (inner_no_mark K F am' Hin)|discriminate Hin].
Qed.

Definition sane_mark (h0 : history) (am : answer) : Prop := a_status am = 0 -> exists T, 0 <= T /\ a_output am = mark_str T ++ [10] /\
  (0 < T -> forall f, fam f -> Forall (unambiguous (print_dec T)) (rules h0 f)).

Lemma digits_plain : forall t c, 0 <= t -> c < 48 \/ 57 < c -> ~ In c (print_dec t).
Proof. intros t c Ht Hc Hin. pose proof (print_dec_digits t Ht) as F. rewrite Forall_forall in F. specialize (F c Hin). cbv beta in F. lia. Qed.

Definition table_sel (T : Z) : selector := mk_sel (print_dec T) None.
Definition main_sel : selector := mk_sel (str "main") (Some 0).
Lemma table_select : forall T r, 0 <= T -> proper_rule r -> unambiguous (print_dec T) r -> contains (str "lookup " ++ print_dec T) (rule_line r) = true <-> selects (table_sel T) r.
Proof.
  intros T r HT Hp (Hu & _). rewrite table_line by (try exact Hp; apply digits_plain; lia). split.
  - intros (x & E). split; [|intro K; exfalso; apply K; reflexivity]. cbn [s_table table_sel]. rewrite (Hu x E), app_nil_r in E. exact E.
  - intros (E & _). exists []. rewrite app_nil_r. exact E.
Qed.
Lemma main_select : forall T r, proper_rule r -> unambiguous (print_dec T) r -> contains main_suppress (rule_line r) = true <-> selects main_sel r.
Proof.
  intros T r Hp (_ & Hu). rewrite suppress_line by exact Hp. unfold selects, main_sel. cbn [s_table s_suppress]. split.
  - intros (E1 & E2 & _). split; [exact E1|]. intros _. exact E2.
  - intros (E1 & E2). assert (E3 : r_suppress r = Some 0) by (apply E2; discriminate). split; [exact E1|]. split; [exact E3|]. exact (Hu E1 E3).
Qed.

(** The four loops one after the other. *)
Definition four (T : Z) : prog Z :=
  delete_rules sys fuel true (str "-4") (str "lookup " ++ print_dec T) [str "table"; print_dec T] ;;;
  delete_rules sys fuel true (str "-4") main_suppress [str "table"; str "main"; str "suppress_prefixlength"; str "0"] ;;;
  delete_rules sys fuel true (str "-6") (str "lookup " ++ print_dec T) [str "table"; print_dec T] ;;;
  delete_rules sys fuel true (str "-6") main_suppress [str "table"; str "main"; str "suppress_prefixlength"; str "0"].

(** Two loops for one family. *)
Definition pair (T : Z) (f : list Z) : prog Z :=
  delete_rules sys fuel true f (str "lookup " ++ print_dec T) [str "table"; print_dec T] ;;;
  delete_rules sys fuel true f main_suppress [str "table"; str "main"; str "suppress_prefixlength"; str "0"].
Lemma pair_runs : forall T f sh, 0 <= T -> fam f -> Forall (unambiguous (print_dec T)) (rules (sh_hist sh) f) ->
  match pair T f sh with
  | Done _ s1 => sh_dns s1 = sh_dns sh /\ sh_fw s1 = sh_fw sh /\ without (own_rule (print_dec T)) (rules (sh_hist sh) f) (rules (sh_hist s1) f) /\
                 (forall g, g <> f -> rules (sh_hist s1) g = rules (sh_hist sh) g)
  | Exited _ _ => False
  | Signalled _ s1 => True
  | Loops _ => exists h, (fuel <= length (rules h f))%nat
  end /\ exists h, sh_hist (QuickSaveProofs.ends (pair T f sh)) = sh_hist sh ++ h /\ Forall inner h.
Proof.
  intros T f sh HT Hf Hu. unfold pair, bind.
  assert (N1 : ~ In 10 (str "lookup " ++ print_dec T)).
  { intro K. apply in_app_iff in K. destruct K as [K|K]; [cbn in K; intuition discriminate|]. revert K. apply digits_plain; lia. }
  assert (N2 : ~ In 10 main_suppress) by (cbn; intuition discriminate).
  pose proof (loop_runs f (table_sel T) (str "lookup " ++ print_dec T) [str "table"; print_dec T] ltac:(discriminate) Hf N1 ltac:(discriminate) eq_refl fuel sh) as L1.
  destruct (known_at (sh_hist sh) f Hf) as (Fp & _). rewrite Forall_forall in Fp, Hu.
  destruct L1 as [L1 (h1 & E1 & F1)]; [intros r Hr; apply table_select; auto|]. apply loop_elsewhere in F1; [|exact Hf].
  destruct (delete_rules sys fuel true f (str "lookup " ++ print_dec T) [str "table"; print_dec T] sh) as [v s1|st s1|st s1|s1]; cbn [QuickSaveProofs.ends] in E1.
  2: { contradiction. }
  2: { split; [exact I|]. exists h1. auto. }
  2: { split; [exists (sh_hist sh); exact L1|]. exists h1. auto. }
  destruct L1 as (A1 & A2 & A3 & A4).
  pose proof (loop_runs f main_sel main_suppress [str "table"; str "main"; str "suppress_prefixlength"; str "0"] ltac:(intros n_ E_; injection E_ as <-; lia) Hf N2 ltac:(discriminate) eq_refl fuel s1) as L2.
  destruct (known_at (sh_hist s1) f Hf) as (Fp1 & _). rewrite Forall_forall in Fp1.
  destruct L2 as [L2 (h2 & E2 & F2)]; [intros r Hr; apply (main_select T); [auto|]; apply Hu; exact (proj1 (without_in _ _ _ _ A3 r Hr))|]. apply loop_elsewhere in F2; [|exact Hf].
  assert (Tail : exists h, sh_hist (QuickSaveProofs.ends (delete_rules sys fuel true f main_suppress [str "table"; str "main"; str "suppress_prefixlength"; str "0"] s1)) = sh_hist sh ++ h /\ Forall inner h).
  { exists (h1 ++ h2). split; [rewrite E2, E1, app_assoc; reflexivity|]. apply Forall_app. auto. }
  split; [|exact Tail].
  destruct (delete_rules sys fuel true f main_suppress [str "table"; str "main"; str "suppress_prefixlength"; str "0"] s1) as [v2 s2|st s2|st s2|s2].
  - destruct L2 as (B1 & B2 & B3 & B4). split; [congruence|]. split; [congruence|]. split.
    + pose proof (without_twice _ _ _ _ _ _ A3 B3) as W. clear - W.
      assert (Eq : forall x, (selects (table_sel T) x \/ selects main_sel x) <-> own_rule (print_dec T) x).
      { intro x. unfold selects, own_rule, table_sel, main_sel. cbn [s_table s_suppress]. split.
        - intros [(E & _)|(E & K)]; [left; exact E|right; split; [exact E|apply K; discriminate]].
        - intros [E|(E & K)]; [left; split; [exact E|]; intro K; exfalso; apply K; reflexivity|right; auto]. }
      induction W as [|x l l' Hx W IH|x l l' Hx W IH]; [constructor|apply wo_drop; [apply Eq, Hx|exact IH]|apply wo_keep; [intro K; apply Hx, Eq, K|exact IH]].
    + intros g Hg. rewrite B4 by exact Hg. apply A4, Hg.
  - exact L2.
  - exact I.
  - exists (sh_hist s1). exact L2.
Qed.
Lemma four_pairs : forall T sh, four T sh = (pair T (str "-4") ;;; pair T (str "-6")) sh.
Proof.
  intros T sh. unfold four, pair, bind. destruct (delete_rules sys fuel true (str "-4") (str "lookup " ++ print_dec T) [str "table"; print_dec T] sh) as [v s1|st s1|st s1|s1]; try reflexivity.
  all: try (destruct (delete_rules sys fuel true (str "-4") main_suppress [str "table"; str "main"; str "suppress_prefixlength"; str "0"] s1); reflexivity).
Qed.
Lemma four_runs : forall T sh, 0 <= T -> (forall f, fam f -> Forall (unambiguous (print_dec T)) (rules (sh_hist sh) f)) ->
  match four T sh with
  | Done _ s1 => forall f, fam f -> without (own_rule (print_dec T)) (rules (sh_hist sh) f) (rules (sh_hist s1) f)
  | Exited _ _ => False
  | Signalled _ s1 => True
  | Loops _ => exists h f, fam f /\ (fuel <= length (rules h f))%nat
  end /\ exists h, sh_hist (QuickSaveProofs.ends (four T sh)) = sh_hist sh ++ h /\ Forall inner h.
Proof.
  intros T sh HT Hu. rewrite four_pairs. unfold bind.
  pose proof (pair_runs T (str "-4") sh HT (or_introl eq_refl) (Hu _ (or_introl eq_refl))) as [L1 (h1 & E1 & F1)].
  destruct (pair T (str "-4") sh) as [v s1|st s1|st s1|s1]; cbn [QuickSaveProofs.ends] in E1.
  2: contradiction.
  2: { split; [exact I|]. exists h1. auto. }
  2: { split; [destruct L1 as (h & L1); exists h, (str "-4"); split; [left; reflexivity|exact L1]|]. exists h1. auto. }
  destruct L1 as (_ & _ & A3 & A4).
  assert (N : str "-6" <> str "-4") by discriminate.
  assert (Hu6 : Forall (unambiguous (print_dec T)) (rules (sh_hist s1) (str "-6"))) by (rewrite A4 by exact N; apply Hu; right; reflexivity).
  pose proof (pair_runs T (str "-6") s1 HT (or_intror eq_refl) Hu6) as [L2 (h2 & E2 & F2)].
  assert (Tail : exists h, sh_hist (QuickSaveProofs.ends (pair T (str "-6") s1)) = sh_hist sh ++ h /\ Forall inner h).
  { exists (h1 ++ h2). split; [rewrite E2, E1, app_assoc; reflexivity|]. apply Forall_app. auto. }
  split; [|exact Tail]. destruct (pair T (str "-6") s1) as [v2 s2|st s2|st s2|s2]; try exact L2.
  - destruct L2 as (_ & _ & B3 & B4). intros f [-> | ->].
    + rewrite B4 by discriminate. exact A3.
    + rewrite A4 in B3 by exact N. exact B3.
  - destruct L2 as (h & L2). exists h, (str "-6"). split; [right; reflexivity|exact L2].
Qed.

Definition mid : prog Z :=
  if auto_table o then
     m <- get_fwmark sys ifc ;;
     (match m with
      | None => ret 0
      | Some table =>
          out <- query sys [str "wg"; str "show"; ifc; str "allowed-ips"] ;;
          if has_default out then four table else ret 0
      end)
   else ret 0.
Lemma del_if_mid : forall sh, sh_dns sh = false -> sh_fw sh = false ->
  del_if sys fuel ifc o true sh = (mid ;;; step sys true [str "ip"; str "link"; str "delete"; str "dev"; ifc]) sh.
Proof. intros sh F1 F2. unfold del_if, flags. unfold bind at 1 2. rewrite F1. cbn [ret]. rewrite F2. reflexivity. Qed.

(** The outcome for the rules, [K] being the commands after the question for the fwmark. *)
Definition purged (h0 : history) (am : answer) (K : history) (h1 : history) : Prop :=
  forall T ap, 0 < T -> a_status am = 0 -> a_output am = mark_str T ++ [10] -> In (show_aips ifc, ap) K -> shows_default (a_output ap) ->
  forall f, fam f -> without (own_rule (print_dec T)) (rules h0 f) (rules h1 f).
Lemma captured_mark : forall m, 0 <= m -> captured (mark_str m ++ [10]) = mark_str m.
Proof.
  intros m Hm. apply captured_line; unfold mark_str; destruct (m =? 0); try (cbn; intuition discriminate);
      rewrite in_app_iff; intros [Hi|Hi]; try (cbn in Hi; intuition discriminate);
      pose proof (print_hex_digits m Hm) as D; rewrite Forall_forall in D; specialize (D _ Hi); lia.
Qed.
Lemma aips_inner : forall a, inner (show_aips ifc, a).
Proof. intro a. split; [discriminate|]. split; [discriminate|]. intros (f & args & _ & E). discriminate E. Qed.
Lemma mid_runs : forall sh,
  (mid sh = Done 0 sh) \/
  exists am K, sh_hist (QuickSaveProofs.ends (mid sh)) = sh_hist sh ++ (show_mark ifc, am) :: K /\
    (sane_mark (sh_hist sh) am ->
     Forall inner K /\
     match mid sh with
     | Done _ s1 => purged (sh_hist sh) am K (sh_hist s1)
     | Exited _ _ => False
     | Signalled _ _ => True
     | Loops _ => exists h f, fam f /\ (fuel <= length (rules h f))%nat
     end).
Proof.
  intro sh. unfold mid. destruct (auto_table o); [right|left; reflexivity]. set (am := sys (sh_hist sh) (show_mark ifc)). exists am.
  match goal with |- context [QuickSaveProofs.ends ?x] => remember x as res eqn:Er end. unfold get_fwmark, bind at 1, bind at 1, run at 1 in Er. fold (show_mark ifc) in Er.
  fold am in Er. destruct (a_signal am) as [sg|] eqn:Es.
  { subst res. exists []. split; [reflexivity|]. intros _. split; [constructor|exact I]. }
  set (s1 := mk_shell _ _ _) in Er. destruct (Z.eqb_spec (a_status am) 0) as [Z0|N]; cbn [negb] in Er.
  2: { cbn [ret] in Er. subst res. cbn [QuickSaveProofs.ends]. exists []. split; [reflexivity|]. intros _. split; [constructor|]. intros T ap _ K. contradiction. }
  destruct (beq (captured (a_output am)) [] || beq (captured (a_output am)) (str "off")) eqn:Eo.
  { cbn [ret] in Er. subst res. cbn [QuickSaveProofs.ends]. exists []. split; [reflexivity|]. intros _. split; [constructor|]. intros T ap _ _ _ []. }
  cbn [ret] in Er. unfold query, bind at 1, bind at 1, run at 1 in Er. fold (show_aips ifc) in Er. set (ap := sys (sh_hist s1) (show_aips ifc)) in Er. destruct (a_signal ap) as [sg|] eqn:Es2.
  { subst res. exists [(show_aips ifc, ap)]. split; [unfold s1; cbn [QuickSaveProofs.ends sh_hist]; rewrite <- app_assoc; reflexivity|]. intros _. split; [constructor; [apply aips_inner|constructor]|exact I]. }
  cbn [ret] in Er. set (s2 := mk_shell _ _ _) in Er. destruct (has_default (captured (a_output ap))) eqn:Ed.
  2: { cbn [ret] in Er. subst res. cbn [QuickSaveProofs.ends]. exists [(show_aips ifc, ap)]. split; [unfold s2, s1; cbn [sh_hist]; rewrite <- app_assoc; reflexivity|].
       intros _. split; [constructor; [apply aips_inner|constructor]|]. intros T ap' _ _ _ [E|[]] Hd. exfalso. injection E as <-.
       apply has_default_iff in Hd. congruence. }
  subst res.
  set (t := printf_d (captured (a_output am))).
  assert (S2 : sh_hist s2 = sh_hist sh ++ [(show_mark ifc, am); (show_aips ifc, ap)]) by (unfold s2, s1; cbn [sh_hist]; rewrite <- app_assoc; reflexivity).
  assert (Ext : exists k, sh_hist (QuickSaveProofs.ends (four t s2)) = sh_hist s2 ++ k).
  { assert (O : only (fun _ => True) (four t)).
    { unfold four. repeat (apply only_bind; [|intros _]); (generalize fuel; clear; intro n; induction n as [|n IH]; cbn [delete_rules];
        [intro s; exists []; rewrite app_nil_r; split; [reflexivity|constructor]|]);
      (apply only_bind; [apply only_bind; [apply only_run; exact I|intro; apply only_ret]|]; intro out; destruct (contains _ out); [|apply only_ret];
       apply only_bind; [apply only_bind; [apply only_run; exact I|intro v; destruct (_ && _); [apply only_exit|apply only_ret]]|intros _; exact IH]). }
    destruct (O s2) as (k & Ek & _). exists k. exact Ek. }
  destruct Ext as (k & Ek). exists ((show_aips ifc, ap) :: k). split; [rewrite Ek, S2, <- app_assoc; reflexivity|].
  intro Hsane. destruct (Hsane Z0) as (T & HT & Eout & Hu). unfold t in *. rewrite Eout, captured_mark in * by exact HT.
  destruct (Z.eq_dec T 0) as [->|NT]; [discriminate Eo|]. rewrite printf_d_mark in * by lia.
  assert (R2 : forall g, rules (sh_hist s2) g = rules (sh_hist sh) g).
  { intro g. destruct (known_at (sh_hist s1) (str "-4") (or_introl eq_refl)) as (_ & _ & Ask & _). destruct (known_at (sh_hist sh) (str "-4") (or_introl eq_refl)) as (_ & _ & Ask0 & _).
    unfold s2. cbn [sh_hist]. unfold ap. rewrite Ask by reflexivity. unfold s1. cbn [sh_hist]. unfold am. apply Ask0. reflexivity. }
  assert (Hu2 : forall f, fam f -> Forall (unambiguous (print_dec T)) (rules (sh_hist s2) f)) by (intros f Hf; rewrite R2; apply Hu; [lia|exact Hf]).
  destruct (four_runs T s2 HT Hu2) as [L (k' & Ek' & Fk)]. rewrite Ek' in Ek. apply app_inv_head in Ek. subst k'. split; [constructor; [apply aips_inner|exact Fk]|].
  destruct (four T s2) as [v s3|st s3|st s3|s3]; try exact L. intros T' ap' HT' _ Eout' _ _ f Hf. rewrite Eout in Eout'. apply app_inj_tail in Eout'. destruct Eout' as [Em _].
  assert (T = T').
  { rewrite <- (printf_d_mark T) by lia. rewrite Em. apply printf_d_mark. exact HT'. }
  subst T'. rewrite <- R2. apply L. exact Hf.
Qed.

Lemma del_if_runs : forall sh, sh_dns sh = false -> sh_fw sh = false -> exists H,
  sh_hist (QuickSaveProofs.ends (del_if sys fuel ifc o true sh)) = sh_hist sh ++ H /\
  ((forall h0 am hd, H = h0 ++ (show_mark ifc, am) :: hd -> sane_mark (sh_hist sh ++ h0) am) ->
   (forall ev, In ev H -> deletes_rule (fst ev) -> a_status (snd ev) = 0) /\
   (forall s1, del_if sys fuel ifc o true sh = Loops s1 -> exists h f, fam f /\ (fuel <= length (rules h f))%nat) /\
   (forall h0 am hd a h2, H = h0 ++ (show_mark ifc, am) :: hd ++ (link_delete ifc, a) :: h2 -> h0 = [] /\ h2 = [] /\
      purged (sh_hist sh) am hd (sh_hist sh ++ (show_mark ifc, am) :: hd))).
Proof.
  intros sh F1 F2. rewrite del_if_mid by assumption. unfold bind. destruct (mid_runs sh) as [E|(am & K & E & L)].
  - rewrite E. unfold step, step_in, bind, run. fold (link_delete ifc). set (d := sys (sh_hist sh) _). exists [(link_delete ifc, d)]. split.
    + destruct (a_signal d); [reflexivity|]. destruct (_ && _); reflexivity.
    + intros _. split; [|split].
      * intros ev [<-|[]] (f & args & _ & X). discriminate X.
      * intros s1. destruct (a_signal d); [discriminate|]. destruct (_ && _); discriminate.
      * intros h0 am hd a h2 X. exfalso. apply (f_equal (@length _)) in X. rewrite app_length in X. cbn [length] in X. rewrite app_length in X. cbn [length] in X. lia.
  - destruct (mid sh) as [v s1|st s1|st s1|s1]; cbn [QuickSaveProofs.ends] in E.
    + unfold step, step_in, bind, run. set (d := sys (sh_hist s1) _). exists ((show_mark ifc, am) :: K ++ [(link_delete ifc, d)]). split.
      { assert (X : sh_hist s1 ++ [(link_delete ifc, d)] = sh_hist sh ++ (show_mark ifc, am) :: K ++ [(link_delete ifc, d)]) by (rewrite E, <- app_assoc; reflexivity).
        destruct (a_signal d); [exact X|]. destruct (_ && _); exact X. }
      intro Hs. assert (S0 : sane_mark (sh_hist sh) am) by (specialize (Hs [] am (K ++ [(link_delete ifc, d)]) eq_refl); rewrite app_nil_r in Hs; exact Hs).
      destruct (L S0) as (Fk & P). split; [|split].
      * intros ev Hin Hd. destruct Hin as [<-|Hin]; [destruct Hd as (f & args & _ & X); discriminate X|]. apply in_app_iff in Hin. destruct Hin as [Hin|[<-|[]]].
        -- rewrite Forall_forall in Fk. destruct (Fk ev Hin) as (_ & _ & Q). apply Q, Hd.
        -- destruct Hd as (f & args & _ & X); discriminate X.
      * intros s2. destruct (a_signal d); [discriminate|]. destruct (_ && _); discriminate.
      * intros h0 am' hd a h2 X. apply shape_closed in X; [|exact Fk]. destruct X as (-> & -> & -> & ->). split; [reflexivity|]. split; [reflexivity|]. rewrite E in P. exact P.
    + exists ((show_mark ifc, am) :: K). split; [exact E|]. intro Hs. assert (S0 : sane_mark (sh_hist sh) am) by (specialize (Hs [] am K eq_refl); rewrite app_nil_r in Hs; exact Hs).
      destruct (L S0) as (_ & []).
    + exists ((show_mark ifc, am) :: K). split; [exact E|]. intro Hs. assert (S0 : sane_mark (sh_hist sh) am) by (specialize (Hs [] am K eq_refl); rewrite app_nil_r in Hs; exact Hs).
      destruct (L S0) as (Fk & _). split; [|split; [discriminate|]].
      * intros ev Hin Hd. destruct Hin as [<-|Hin]; [destruct Hd as (f & args & _ & X); discriminate X|]. rewrite Forall_forall in Fk. destruct (Fk ev Hin) as (_ & _ & Q). apply Q, Hd.
      * intros h0 am' hd a h2 X. exfalso. exact (shape_open _ _ _ _ _ _ _ Fk X).
    + exists ((show_mark ifc, am) :: K). split; [exact E|]. intro Hs. assert (S0 : sane_mark (sh_hist sh) am) by (specialize (Hs [] am K eq_refl); rewrite app_nil_r in Hs; exact Hs).
      destruct (L S0) as (Fk & P). split; [|split; [intros s2 _; exact P|]].
      * intros ev Hin Hd. destruct Hin as [<-|Hin]; [destruct Hd as (f & args & _ & X); discriminate X|]. rewrite Forall_forall in Fk. destruct (Fk ev Hin) as (_ & _ & Q). apply Q, Hd.
      * intros h0 am' hd a h2 X. exfalso. exact (shape_open _ _ _ _ _ _ _ Fk X).
Qed.
End Rules.

(** ** The rest of the script runs other commands *)
Section Split.
Variable sys : system.
Variable glob : list Z -> list (list Z).
Variable fuel : nat.
Variable ifc : list Z.
Variable o : options.
Variable conf : list Z.
Variable amp : bool.
Notation elsewhere := (elsewhere ifc).

Ltac away := split; [discriminate|split; [discriminate|intros (f_ & args_ & [-> | ->] & E_); discriminate E_]].
Lemma els_step : forall e ws input, elsewhere (mk_cmd ws input) -> only elsewhere (step_in sys e ws input).
Proof. intros e ws input H. apply only_bind; [apply only_run; exact H|]. intro a. destruct (_ && _); [apply only_exit|apply only_ret]. Qed.
Lemma els_query : forall ws, elsewhere (argv ws) -> only elsewhere (query sys ws).
Proof. intros ws H. apply only_bind; [apply only_run; exact H|]. intro a. apply only_ret. Qed.
Lemma els_output : forall ws, elsewhere (argv ws) -> only elsewhere (output sys ws).
Proof. intros ws H. apply only_bind; [apply only_run; exact H|]. intro a. apply only_ret. Qed.
Lemma els_cond : forall ws, elsewhere (argv ws) -> only elsewhere (cond sys ws).
Proof. intros ws H. apply only_bind; [apply only_run; exact H|]. intro a. apply only_ret. Qed.
Lemma els_hooks : forall l, only elsewhere (execute_hooks sys ifc true l).
Proof. unfold execute_hooks. induction l as [|x l IH]; cbn [for_each]; [apply only_ret|]. apply only_bind; [apply els_step; away|]. intros _. exact IH. Qed.
Lemma els_prefix : only elsewhere (resolvconf_iface_prefix sys).
Proof.
  apply only_bind; [apply els_cond; away|]. intros [|]; [|apply only_ret]. apply only_bind; [apply els_output; away|]. intro. apply only_ret.
Qed.
Lemma els_unset_dns : only elsewhere (unset_dns sys ifc o false).
Proof. unfold unset_dns. destruct (o_dns o); [apply only_ret|]. apply only_bind; [apply els_prefix|]. intro p. apply els_step. away. Qed.
Lemma els_firewall : only elsewhere (remove_firewall sys ifc false).
Proof.
  unfold remove_firewall. apply only_bind; [apply els_cond; away|]. intro nft. apply only_bind.
  - destruct nft; [|apply only_ret]. apply only_bind; [apply els_output; away|]. intro t. destruct (nft_deletes ifc (read_complete t)); [apply only_ret|apply els_step; away].
  - intros _. apply only_bind; [apply els_cond; away|]. intros [|]; [|apply only_ret]. cbn [for_each]. unfold remove_iptables.
    apply only_bind; [apply only_bind; [apply els_output; away|]; intro dump; cbv zeta; destruct (restore_found _ _); [apply els_step; away|apply only_ret]|]. intros _.
    apply only_bind; [apply only_bind; [apply els_output; away|]; intro dump; cbv zeta; destruct (restore_found _ _); [apply els_step; away|apply only_ret]|]. intros _. apply only_ret.
Qed.
Lemma els_prepare : only elsewhere (prepare sys glob ifc o amp).
Proof.
  unfold prepare, gather, resolver_text. apply only_bind.
  - apply only_bind; [apply els_query; away|]. intro out. apply only_bind.
    + apply only_bind; [apply els_prefix|]. intro p. apply only_bind; [apply only_run; away|]. intro r. destruct (_ =? _); [apply only_ret|].
      apply only_bind; [apply els_prefix|]. intro p2. apply only_bind; [apply els_output; away|]. intro. apply only_ret.
    + intro ns. apply only_bind; [|intro; apply only_ret]. destruct (o_mtu o); [apply only_ret|]. apply only_bind; [apply els_query; away|]. intro. apply only_ret.
  - intro new. apply only_bind; [apply els_query; away|]. intro old. apply only_bind; [apply els_step; away|]. intros _.
    apply only_bind; [apply only_run; away|]. intro c. destruct (negb _); [apply only_exit|apply only_ret].
Qed.
Lemma els_replace : forall text, only elsewhere (replace_file sys conf text).
Proof.
  intro text. unfold replace_file. apply only_bind; [apply only_run; away|]. intro w. destruct (negb _); [apply only_exit|].
  apply only_bind; [apply els_step; away|]. intros _. apply only_bind; [apply only_run; away|]. intro m. destruct (negb _); [apply only_exit|apply only_ret].
Qed.

Definition els (h : history) : Prop := Forall (fun ev => elsewhere (fst ev)) h.
(** Either del_if is not reached, or it runs once. *)
Definition splits (st : option Z) (h : history) : Prop :=
  (st <> None /\ els h) \/
  exists sh Z', sh_dns sh = false /\ sh_fw sh = false /\ els (sh_hist sh) /\ els Z' /\
    h = sh_hist (QuickSaveProofs.ends (del_if sys fuel ifc o true sh)) ++ Z' /\
    (st = None -> exists s1, del_if sys fuel ifc o true sh = Loops s1).

(** The pieces after del_if always end. *)
Definition ending {A} (m : prog A) : Prop := forall s s1, m s <> Loops s1.
Lemma ending_ret : forall A (a : A), ending (ret a). Proof. intros A a s s1. discriminate. Qed.
Lemma ending_exit : forall A st, ending (exit_with (A := A) st). Proof. intros A st s s1. discriminate. Qed.
Lemma ending_run : forall c, ending (run sys c). Proof. intros c s s1. unfold run. destruct (a_signal _); discriminate. Qed.
Lemma ending_bind : forall A B (m : prog A) (f : A -> prog B), ending m -> (forall a, ending (f a)) -> ending (bind m f).
Proof. intros A B m f Hm Hf s s1. unfold bind. specialize (Hm s). destruct (m s) as [a s2|a s2|a s2|s2]; [apply Hf|discriminate..|exfalso; exact (Hm s2 eq_refl)]. Qed.
Lemma ending_step : forall e ws input, ending (step_in sys e ws input).
Proof. intros. apply ending_bind; [apply ending_run|]. intro a. destruct (_ && _); [apply ending_exit|apply ending_ret]. Qed.
Lemma ending_query : forall ws, ending (query sys ws). Proof. intros. apply ending_bind; [apply ending_run|]. intro. apply ending_ret. Qed.
Lemma ending_output : forall ws, ending (output sys ws). Proof. intros. apply ending_bind; [apply ending_run|]. intro. apply ending_ret. Qed.
Lemma ending_cond : forall ws, ending (cond sys ws). Proof. intros. apply ending_bind; [apply ending_run|]. intro. apply ending_ret. Qed.
Lemma ending_hooks : forall l, ending (execute_hooks sys ifc true l).
Proof. unfold execute_hooks. induction l as [|x l IH]; cbn [for_each]; [apply ending_ret|]. apply ending_bind; [apply ending_step|]. intros _. exact IH. Qed.
Lemma ending_prefix : ending (resolvconf_iface_prefix sys).
Proof. apply ending_bind; [apply ending_cond|]. intros [|]; [|apply ending_ret]. apply ending_bind; [apply ending_output|]. intro. apply ending_ret. Qed.
Lemma ending_tail : ending (unset_dns sys ifc o false ;;; remove_firewall sys ifc false ;;; execute_hooks sys ifc true (o_postdown o)).
Proof.
  apply ending_bind; [|intros _; apply ending_bind; [|intros _; apply ending_hooks]].
  - unfold unset_dns. destruct (o_dns o); [apply ending_ret|]. apply ending_bind; [apply ending_prefix|]. intro p. apply ending_step.
  - unfold remove_firewall. apply ending_bind; [apply ending_cond|]. intro nft. apply ending_bind.
    + destruct nft; [|apply ending_ret]. apply ending_bind; [apply ending_output|]. intro t. destruct (nft_deletes ifc (read_complete t)); [apply ending_ret|apply ending_step].
    + intros _. apply ending_bind; [apply ending_cond|]. intros [|]; [|apply ending_ret]. cbn [for_each]. unfold remove_iptables.
      do 2 (apply ending_bind; [apply ending_bind; [apply ending_output|]; intro dump; cbv zeta; destruct (restore_found _ _); [apply ending_step|apply ending_ret]|]; intros _). apply ending_ret.
Qed.
Lemma ending_prepare : ending (prepare sys glob ifc o amp).
Proof.
  unfold prepare, gather, resolver_text. apply ending_bind.
  - apply ending_bind; [apply ending_query|]. intro out. apply ending_bind.
    + apply ending_bind; [apply ending_prefix|]. intro p. apply ending_bind; [apply ending_run|]. intro r. destruct (_ =? _); [apply ending_ret|].
      apply ending_bind; [apply ending_prefix|]. intro p2. apply ending_bind; [apply ending_output|]. intro. apply ending_ret.
    + intro ns. apply ending_bind; [|intro; apply ending_ret]. destruct (o_mtu o); [apply ending_ret|]. apply ending_bind; [apply ending_query|]. intro. apply ending_ret.
  - intro new. apply ending_bind; [apply ending_query|]. intro old. apply ending_bind; [apply ending_step|]. intros _.
    apply ending_bind; [apply ending_run|]. intro c. destruct (negb _); [apply ending_exit|apply ending_ret].
Qed.
Lemma ending_replace : forall text, ending (replace_file sys conf text).
Proof.
  intro text. unfold replace_file. apply ending_bind; [apply ending_run|]. intro w. destruct (negb _); [apply ending_exit|].
  apply ending_bind; [apply ending_step|]. intros _. apply ending_bind; [apply ending_run|]. intro m. destruct (negb _); [apply ending_exit|apply ending_ret].
Qed.

Lemma split_finish : forall s st h, els (sh_hist s) -> sh_dns s = false -> sh_fw s = false -> finish (down_rest sys fuel ifc o) s = (st, h) -> splits st h.
Proof.
  intros s st h He F1 F2 E. right. exists s. unfold finish, followed, down_rest in E. unfold bind at 1 in E.
  destruct (del_if sys fuel ifc o true s) as [v s1|st1 s1|st1 s1|s1] eqn:Ed; cbn [QuickSaveProofs.ends].
  - assert (O : only elsewhere (unset_dns sys ifc o false ;;; remove_firewall sys ifc false ;;; execute_hooks sys ifc true (o_postdown o))).
    { apply only_bind; [apply els_unset_dns|]. intros _. apply only_bind; [apply els_firewall|]. intros _. apply els_hooks. }
    destruct (O s1) as (k & Ek & Fk). pose proof (ending_tail s1) as Hn.
    destruct ((unset_dns sys ifc o false ;;; remove_firewall sys ifc false ;;; execute_hooks sys ifc true (o_postdown o)) s1) as [w s2|w s2|w s2|s2]; cbn [QuickSaveProofs.ends] in Ek;
      [| | |exfalso; exact (Hn s2 eq_refl)]; injection E as <- <-; exists k; (split; [exact F1|]); (split; [exact F2|]); (split; [exact He|]); (split; [exact Fk|]); (split; [exact Ek|discriminate]).
  - injection E as <- <-. exists []. rewrite app_nil_r. split; [exact F1|]. split; [exact F2|]. split; [exact He|]. split; [constructor|]. split; [reflexivity|discriminate].
  - injection E as <- <-. exists []. rewrite app_nil_r. split; [exact F1|]. split; [exact F2|]. split; [exact He|]. split; [constructor|]. split; [reflexivity|discriminate].
  - injection E as <- <-. exists []. rewrite app_nil_r. split; [exact F1|]. split; [exact F2|]. split; [exact He|]. split; [constructor|]. split; [reflexivity|]. intros _. exists s1. reflexivity.
Qed.

Lemma els_app : forall h1 h2, els h1 -> els h2 -> els (h1 ++ h2).
Proof. intros h1 h2 H1 H2. apply Forall_app. auto. Qed.
Lemma only_ends : forall A (m : prog A) s, only elsewhere m -> els (sh_hist s) -> els (sh_hist (QuickSaveProofs.ends (m s))).
Proof. intros A m s O He. destruct (O s) as (k & Ek & Fk). rewrite Ek. apply els_app; assumption. Qed.
Lemma split_exit : forall A (cl : prog A) s0 st0 st h, only elsewhere cl -> ending cl -> els (sh_hist s0) -> exit_trap cl st0 s0 = (st, h) -> st <> None /\ els h.
Proof.
  intros A cl s0 st0 st h O Hn He E. unfold exit_trap in E. pose proof (only_ends _ cl s0 O He) as K. specialize (Hn s0).
  destruct (cl s0) as [v s1|v s1|v s1|s1]; cbn [QuickSaveProofs.ends] in K; [| | |exfalso; exact (Hn s1 eq_refl)]; injection E as <- <-; split; auto; discriminate.
Qed.
Lemma split_saving : forall s st h, els (sh_hist s) -> sh_dns s = false -> sh_fw s = false ->
  save_config sys glob ifc o conf amp (down_rest sys fuel ifc o) s = (st, h) -> splits st h.
Proof.
  intros s st h He F1 F2 E. unfold save_config, followed in E.
  pose proof (only_ends _ _ s els_prepare He) as E1. pose proof (ending_prepare s) as N1. pose proof (goes_prepare sys ifc glob o amp s I F1 F2) as G1.
  destruct (prepare sys glob ifc o amp s) as [[old text] s1|st1 s1|st1 s1|s1]; cbn [QuickSaveProofs.ends fst snd] in E1, E.
  2, 3: injection E as <- <-; left; split; [discriminate|exact E1].
  2: exfalso; exact (N1 s1 eq_refl).
  destruct G1 as (A1 & A2 & _). unfold guarded in E.
  assert (Orm : only elsewhere (step sys true [str "rm"; str "-f"; tmp_file conf])) by (apply els_step; away).
  assert (Nrm : ending (step sys true [str "rm"; str "-f"; tmp_file conf])) by apply ending_step.
  pose proof (only_ends _ _ s1 (els_replace text) E1) as E2. pose proof (ending_replace text s1) as N2. pose proof (goes_replace sys ifc conf text s1 I A1 A2) as G2.
  destruct (replace_file sys conf text s1) as [v s2|st2 s2|st2 s2|s2]; cbn [QuickSaveProofs.ends] in E2.
  - destruct G2 as (B1 & B2 & _). rewrite after_finish in E. unfold finish, followed, bind at 1 in E.
    assert (Oum : only elsewhere (step sys true [str "umask"; old])) by (apply els_step; away).
    pose proof (only_ends _ _ s2 Oum E2) as E3. pose proof (ending_step true [str "umask"; old] [] s2) as N3. pose proof (goes_step sys ifc at_any [str "umask"; old] [] eq_refl s2 I B1 B2) as G3.
    unfold step in *. destruct (step_in sys true [str "umask"; old] [] s2) as [w s3|st3 s3|st3 s3|s3]; cbn [QuickSaveProofs.ends] in E3.
    + destruct G3 as (C1 & C2 & _). eapply split_finish; eassumption.
    + injection E as <- <-. left. split; [discriminate|exact E3].
    + injection E as <- <-. left. split; [discriminate|exact E3].
    + exfalso. exact (N3 s3 eq_refl).
  - left. eapply split_exit; eassumption.
  - left. pose proof (only_ends _ _ s2 Orm E2) as E3. pose proof (Nrm s2) as N3. destruct (step sys true [str "rm"; str "-f"; tmp_file conf] s2) as [w s3|w s3|w s3|s3]; cbn [QuickSaveProofs.ends] in E3.
    + eapply split_exit; eassumption.
    + eapply split_exit; eassumption.
    + eapply split_exit; eassumption.
    + exfalso. exact (N3 s3 eq_refl).
  - exfalso. exact (N2 s2 eq_refl).
Qed.
Lemma down_split : forall st h, cmd_down sys glob fuel ifc o conf amp = (st, h) -> splits st h.
Proof.
  intros st h E. unfold cmd_down in E. unfold followed at 1 in E.
  assert (O : only elsewhere (check_interface sys ifc ;;; execute_hooks sys ifc true (o_predown o))).
  { apply only_bind; [|intros _; apply els_hooks]. unfold check_interface, is_wireguard. apply only_bind; [apply only_bind; [apply els_query; away|intro; apply only_ret]|]. intros [|]; [apply only_ret|apply only_exit]. }
  assert (N : ending (check_interface sys ifc ;;; execute_hooks sys ifc true (o_predown o))).
  { apply ending_bind; [|intros _; apply ending_hooks]. unfold check_interface, is_wireguard. apply ending_bind; [apply ending_bind; [apply ending_query|intro; apply ending_ret]|]. intros [|]; [apply ending_ret|apply ending_exit]. }
  assert (F : forall v s1, (check_interface sys ifc ;;; execute_hooks sys ifc true (o_predown o)) (mk_shell [] false false) = Done v s1 -> sh_dns s1 = false /\ sh_fw s1 = false).
  { intros v s1. unfold bind at 1. intro X.
    destruct (check_interface sys ifc (mk_shell [] false false)) as [w s2|w s2|w s2|s2] eqn:Ec; try discriminate X.
    assert (Fc : sh_dns s2 = false /\ sh_fw s2 = false).
    { unfold check_interface, is_wireguard, query, bind, run in Ec. destruct (a_signal _); [discriminate|]. cbn [ret] in Ec. destruct (contains _ _); [|discriminate]. injection Ec as _ <-. auto. }
    destruct Fc as [Fc1 Fc2]. pose proof (goes_hooks sys ifc at_any (o_predown o) lasting_any s2 I Fc1 Fc2) as G. rewrite X in G. destruct G as (G1 & G2 & _). auto. }
  pose proof (only_ends _ _ (mk_shell [] false false) O (Forall_nil _)) as E1. specialize (N (mk_shell [] false false)).
  destruct ((check_interface sys ifc ;;; execute_hooks sys ifc true (o_predown o)) (mk_shell [] false false)) as [v s1|st1 s1|st1 s1|s1]; cbn [QuickSaveProofs.ends] in E1.
  - destruct (F v s1 eq_refl) as [F1 F2]. destruct (o_save o); [eapply split_saving; eassumption|eapply split_finish; eassumption].
  - injection E as <- <-. left. split; [discriminate|exact E1].
  - injection E as <- <-. left. split; [discriminate|exact E1].
  - exfalso. exact (N s1 eq_refl).
Qed.
End Split.

Lemma pos_left : forall A (l X h0 Y : list A) m, l ++ X = h0 ++ m :: Y -> ~ In m l -> exists k, h0 = l ++ k /\ X = k ++ m :: Y.
Proof.
  induction l as [|x l IH]; intros X h0 Y m E N; cbn [app] in *; [exists h0; auto|]. destruct h0 as [|y h0]; cbn [app] in E.
  - injection E as -> _. exfalso. apply N. left. reflexivity.
  - injection E as -> E. destruct (IH _ _ _ _ E) as (k & -> & ->); [intro K; apply N; right; exact K|]. exists k. auto.
Qed.
Lemma pos_right : forall A (Y H Z W : list A) d, H ++ Z = Y ++ d :: W -> ~ In d Z -> exists k, H = Y ++ d :: k.
Proof.
  induction Y as [|y Y IH]; intros H Z W d E N; (destruct H as [|x H]; cbn [app] in E; [exfalso; apply N; rewrite E|]).
  - left. reflexivity.
  - injection E as -> _. exists H. reflexivity.
  - right. apply in_or_app. right. left. reflexivity.
  - injection E as -> E. destruct (IH _ _ _ _ E N) as (k & ->). exists k. reflexivity.
Qed.

Theorem C49_rules : forall sys glob fuel ifc o conf amp rules st h,
  knows_rules sys rules -> cmd_down sys glob fuel ifc o conf amp = (st, h) -> tells_mark ifc rules h ->
  (forall ev, In ev h -> deletes_rule (fst ev) -> a_status (snd ev) = 0) /\
  ((forall g, Forall (fun f => (length (rules g f) < fuel)%nat) [str "-4"; str "-6"]) -> st <> None) /\
  (forall h0 am hd a h2 t ap,
     h = h0 ++ (show_mark ifc, am) :: hd ++ (link_delete ifc, a) :: h2 ->
     0 < t -> a_status am = 0 -> a_output am = mark_str t ++ [10] ->
     In (show_aips ifc, ap) hd -> shows_default (a_output ap) ->
     Forall (fun f => without (own_rule (print_dec t)) (rules h0 f) (rules (h0 ++ (show_mark ifc, am) :: hd) f)) [str "-4"; str "-6"]).
Proof.
  intros sys glob fuel ifc o conf amp rules st h Kn E Tm. destruct (down_split sys glob fuel ifc o conf amp st h E) as [(Nst & He)|(sh & Z' & F1 & F2 & He & Hz & Eh & Hl)].
  - unfold els in He. rewrite Forall_forall in He. split; [|split].
    + intros ev Hin Hd. exfalso. destruct (He ev Hin) as (_ & _ & N). exact (N Hd).
    + intros _. exact Nst.
    + intros h0 am hd a h2 t ap Eh. exfalso. destruct (He (show_mark ifc, am)) as (N & _); [rewrite Eh; apply in_or_app; right; left; reflexivity|]. apply N. reflexivity.
  - unfold els in He, Hz. rewrite Forall_forall in He, Hz.
    destruct (del_if_runs sys rules Kn ifc o fuel sh F1 F2) as (H & EH & L). rewrite EH in Eh.
    assert (Hs : forall h0 am hd, H = h0 ++ (show_mark ifc, am) :: hd -> sane_mark rules (sh_hist sh ++ h0) am).
    { intros h0 am hd X Z0. assert (Eh' : h = (sh_hist sh ++ h0) ++ (show_mark ifc, am) :: hd ++ Z') by (rewrite Eh, X, <- !app_assoc; reflexivity).
      destruct (Tm _ _ _ Eh' Z0) as (t & Ht & Eo & Hu). exists t. split; [exact Ht|]. split; [exact Eo|]. intros Hp f Hf. specialize (Hu Hp). rewrite Forall_forall in Hu.
      apply Hu. destruct Hf as [-> | ->]; cbn; auto. }
    destruct (L Hs) as (L1 & L2 & L3). split; [|split].
    + intros ev Hin Hd. rewrite Eh in Hin. apply in_app_iff in Hin. destruct Hin as [Hin|Hin]; [apply in_app_iff in Hin; destruct Hin as [Hin|Hin]|].
      * exfalso. destruct (He ev Hin) as (_ & _ & N). exact (N Hd).
      * exact (L1 ev Hin Hd).
      * exfalso. destruct (Hz ev Hin) as (_ & _ & N). exact (N Hd).
    + intros Hf En. destruct (Hl En) as (s1 & Es). destruct (L2 s1 Es) as (g & f & Hfam & Hle). specialize (Hf g). rewrite Forall_forall in Hf.
      assert (Hlt : (length (rules g f) < fuel)%nat) by (apply Hf; destruct Hfam as [-> | ->]; cbn; auto). lia.
    + intros h0 am hd a h2 t ap Ed Ht Z0 Eo Hap Hdef.
      rewrite Eh, <- app_assoc in Ed. apply pos_left in Ed; [|intro Hin; destruct (He _ Hin) as (N & _); apply N; reflexivity]. destruct Ed as (k0 & -> & Ed).
      rewrite app_comm_cons, app_assoc in Ed. apply pos_right in Ed; [|intro Hin; destruct (Hz _ Hin) as (_ & N & _); apply N; reflexivity]. destruct Ed as (k2 & Ed).
      rewrite <- app_assoc in Ed. cbn [app] in Ed. destruct (L3 k0 am hd a k2 Ed) as (-> & _ & P). rewrite app_nil_r.
      apply Forall_forall. intros f Hf. apply (P t ap Ht Z0 Eo Hap Hdef). destruct Hf as [<-|[<-|[]]]; [left|right]; reflexivity.
Qed.
