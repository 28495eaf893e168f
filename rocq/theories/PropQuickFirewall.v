(** C48: the firewall rules of an interface are removed, and nothing else. *)
From Coq Require Import String ZArith List Bool Lia.
From Verif Require Import Base Cstr CstrProofs Bash Quick QuickSpec QuickProofs QuickRun QuickRunSpec QuickUpProofs QuickRouteSpec QuickRouteProofs QuickFirewallSpec QuickDoes.
Import ListNotations.
Open Scope Z_scope.

(** ** Text *)
Lemma starts_with_iff : forall p s, starts_with p s = true <-> exists r, s = p ++ r.
Proof.
  intros p s. unfold starts_with. destruct (strip_prefix p s) as [r|] eqn:E.
  - apply strip_prefix_some in E. split; [eauto|reflexivity].
  - split; [discriminate|]. intros (r & Er). apply strip_prefix_some in Er. congruence.
Qed.
Lemma contains_iff : forall p s, contains p s = true <-> exists a b, s = a ++ p ++ b.
Proof.
  intros p. induction s as [|c s IH]; cbn [contains]; rewrite orb_true_iff, starts_with_iff.
  - split.
    + intros [(r & E)|H]; [exists [], r; exact E|discriminate].
    + intros (a & b & E). left. destruct a; [eauto|discriminate].
  - rewrite IH. split.
    + intros [(r & E)|(a & b & ->)]; [exists [], r; exact E|exists (c :: a), b; reflexivity].
    + intros (a & b & E). destruct a as [|x a]; [left; eauto|right]. injection E as -> ->. eauto.
Qed.
Lemma clean_trim : forall l, clean l -> trim blankb l = l.
Proof.
  intros l (_ & _ & H1 & H2). destruct l as [|c l]; [reflexivity|]. destruct (exists_last (l := c :: l) ltac:(discriminate)) as (v & y & E).
  apply (trim_id _ c y l v); [reflexivity|exact E|exact H1|]. rewrite E, last_last in H2. exact H2.
Qed.
Lemma clean_lines : forall ls, Forall clean ls -> read_complete (unlines ls) = ls.
Proof.
  intros ls H. rewrite read_complete_unlines; [|eapply Forall_impl; [|exact H]; intros l (? & ? & _); assumption|eapply Forall_impl; [|exact H]; intros l (? & ? & _); assumption].
  induction H as [|l ls Hl H IH]; [reflexivity|]. cbn [map]. rewrite clean_trim, IH by exact Hl. reflexivity.
Qed.

(** ** nft *)
Lemma word_no_space : forall w, one_word w -> ~ In 32 w /\ ~ In 10 w /\ ~ In 0 w /\ ~ In 9 w.
Proof. intros w [_ H]. rewrite Forall_forall in H. repeat split; intro Hi; destruct (H _ Hi) as (? & ? & ? & ?); lia. Qed.
Lemma word_last : forall w, one_word w -> blankb (last w 0) = false.
Proof.
  intros w [N H]. destruct (exists_last N) as (v & y & E). rewrite E, last_last. rewrite E in H. apply Forall_app in H as [_ H]. inversion H; subst.
  unfold blankb. lia.
Qed.
Lemma own_iff : forall ifc f n, one_word n -> ends_with (str " wg-quick-" ++ ifc) (str "table " ++ f ++ 32 :: n) = beq n (own_table ifc) || (ends_with (str " wg-quick-" ++ ifc) (str "table " ++ f ++ 32 :: n) && negb (beq n (own_table ifc))).
Proof. intros. destruct (beq n (own_table ifc)) eqn:E; [|cbn [orb negb]; rewrite andb_true_r; reflexivity]. cbn [orb].
  apply beq_eq in E as ->. apply ends_with_iff. exists (str "table " ++ f). rewrite <- app_assoc. reflexivity. Qed.
Lemma ends_own : forall ifc f n, one_word n -> ~ In 32 ifc -> ends_with (str " wg-quick-" ++ ifc) (str "table " ++ f ++ 32 :: n) = beq n (own_table ifc).
Proof.
  intros ifc f n W I. rewrite own_iff by exact W. destruct (beq n (own_table ifc)) eqn:E; [reflexivity|]. cbn [orb negb]. rewrite andb_true_r.
  destruct (ends_with _ _) eqn:X; [|reflexivity]. apply beq_neq in E. exfalso. apply E. apply ends_with_iff in X as (a & X).
  apply (f_equal (split_last 32)) in X. destruct (word_no_space n W) as (N & _).
  rewrite app_assoc, split_last_app in X by exact N.
  change (str " wg-quick-" ++ ifc) with (32 :: own_table ifc) in X. rewrite split_last_app in X.
  - injection X as _ X. exact X.
  - unfold own_table. intro Hi. apply in_app_or in Hi as [Hi|Hi]; [|exact (I Hi)]. vm_compute in Hi. intuition discriminate.
Qed.

Definition mine (ifc : list Z) (t : list Z * list Z) : bool := beq (snd t) (own_table ifc).
Lemma nft_deletes_listing : forall ifc tables, ~ In 32 ifc -> Forall (fun t => one_word (fst t) /\ one_word (snd t)) tables ->
  nft_deletes ifc (read_complete (nft_listing tables)) = unlines (map nft_delete (filter (mine ifc) tables)).
Proof.
  intros ifc tables I W. unfold nft_listing. rewrite clean_lines.
  - unfold nft_deletes, unlines. induction W as [|[f n] l [Wf Wn] W IH]; [reflexivity|]. cbn [map concat filter fst snd]. rewrite ends_own by assumption.
    unfold mine at 1. cbn [snd]. rewrite IH. destruct (beq n (own_table ifc)); [|reflexivity]. cbn [map concat]. f_equal.
  - apply Forall_forall. intros x Hx. apply in_map_iff in Hx as ([f n] & <- & Hi). rewrite Forall_forall in W. destruct (W _ Hi) as [Wf Wn]. cbn [fst snd] in *.
    destruct (word_no_space f Wf) as (F1 & F2 & F3 & _), (word_no_space n Wn) as (N1 & N2 & N3 & _). unfold clean.
    split; [rewrite !in_app_iff; cbn [In]; vm_compute (In 0 (str "table ")); intuition discriminate|].
    split; [rewrite !in_app_iff; cbn [In]; vm_compute (In 10 (str "table ")); intuition discriminate|]. split; [reflexivity|].
    destruct Wn as [Nn Wn']. destruct (exists_last Nn) as (v & y & E). rewrite E.
    replace (str "table " ++ f ++ 32 :: v ++ [y]) with ((str "table " ++ f ++ 32 :: v) ++ [y]) by (rewrite <- !app_assoc; reflexivity).
    rewrite last_last. pose proof (word_last n (conj Nn Wn')) as L. rewrite E, last_last in L. exact L.
Qed.

(** ** iptables *)
Definition carriesb (ifc : list Z) (r : rule) : bool := contains (marker ifc) r.
Lemma marker_comment : forall ifc, marker ifc = comment ifc.
Proof. reflexivity. Qed.
Lemma carriesb_iff : forall ifc r, carriesb ifc r = true <-> carries ifc r.
Proof. intros. unfold carriesb. rewrite contains_iff. reflexivity. Qed.
Lemma without_filter : forall ifc l, without ifc l (filter (fun r => negb (carriesb ifc r)) l).
Proof.
  intros ifc l. induction l as [|r l IH]; cbn [filter]; [constructor|]. destruct (carriesb ifc r) eqn:E; cbn [negb].
  - apply wo_drop; [apply carriesb_iff, E|exact IH].
  - apply wo_keep; [intro C; apply carriesb_iff in C; congruence|exact IH].
Qed.
Lemma remove1_pre : forall ifc r pre l, Forall (fun x => carriesb ifc x = false) pre -> carriesb ifc r = true -> remove1 r (pre ++ r :: l) = Some (pre ++ l).
Proof.
  intros ifc r pre l H C. induction H as [|x pre Hx H IH]; cbn [app remove1]; [rewrite beq_refl; reflexivity|].
  destruct (beq x r) eqn:E; [apply beq_eq in E; congruence|]. rewrite IH. reflexivity.
Qed.
Lemma delete_rule_at : forall n r l l' fw1 fw2, ~ In n (map fst fw1) -> remove1 r l = Some l' -> delete_rule n r (fw1 ++ (n, l) :: fw2) = Some (fw1 ++ (n, l') :: fw2).
Proof.
  intros n r l l' fw1 fw2 N H. induction fw1 as [|[m k] fw1 IH]; cbn [app delete_rule]; [rewrite beq_refl, H; reflexivity|].
  destruct (beq m n) eqn:E; [apply beq_eq in E; exfalso; apply N; left; exact E|]. rewrite IH; [reflexivity|]. intro Hi. apply N. right. exact Hi.
Qed.
Lemma restore_rules : forall ifc n ls fw1 fw2, ~ In n (map fst fw1) -> forall l pre, Forall (fun x => carriesb ifc x = false) pre ->
  restore (Some n) (map (fun r => str "-D " ++ r) (filter (carriesb ifc) l) ++ str "COMMIT" :: ls) (fw1 ++ (n, pre ++ l) :: fw2) =
  restore None ls (fw1 ++ (n, pre ++ filter (fun r => negb (carriesb ifc r)) l) :: fw2).
Proof.
  intros ifc n ls fw1 fw2 N. induction l as [|r l IH]; intros pre Hp; cbn [filter].
  - cbn [map app restore]. change (beq (str "COMMIT") (str "COMMIT")) with true. reflexivity.
  - destruct (carriesb ifc r) eqn:E; cbn [negb].
    + cbn [map app restore]. change (str "-D " ++ r) with (45 :: 68 :: 32 :: r). change (beq (45 :: 68 :: 32 :: r) (str "COMMIT")) with false. cbv iota.
      rewrite (delete_rule_at n r (pre ++ r :: l) (pre ++ l)); [|exact N|apply (remove1_pre ifc); assumption]. apply IH, Hp.
    + specialize (IH (pre ++ [r])). rewrite <- !app_assoc in IH. cbn [app] in IH. apply IH. apply Forall_app. split; [exact Hp|]. constructor; [exact E|constructor].
Qed.

Definition undone (ifc : list Z) (fw : firewall) : list (list Z) :=
  flat_map (fun t => (42 :: fst t) :: map (fun r => str "-D " ++ r) (filter (carriesb ifc) (snd t)) ++ [str "COMMIT"]) fw.
Definition leftover (ifc : list Z) (fw : firewall) : firewall := map (fun t => (fst t, filter (fun r => negb (carriesb ifc r)) (snd t))) fw.
Lemma restore_undone : forall ifc fw done, NoDup (map fst (done ++ fw)) -> restore None (undone ifc fw) (done ++ fw) = Some (done ++ leftover ifc fw).
Proof.
  intros ifc. induction fw as [|[n l] fw IH]; intros done_ N; [reflexivity|].
  change (undone ifc ((n, l) :: fw)) with ((42 :: n) :: (map (fun r => str "-D " ++ r) (filter (carriesb ifc) l) ++ [str "COMMIT"]) ++ undone ifc fw).
  rewrite <- app_assoc. cbn [app restore].
  assert (Nn : ~ In n (map fst done_)). { rewrite map_app in N. apply NoDup_remove_2 in N. intro Hi. apply N. cbn [fst]. apply in_or_app. left. exact Hi. }
  pose proof (restore_rules ifc n (undone ifc fw) done_ fw Nn l [] (Forall_nil _)) as R. cbn [app] in R. rewrite R.
  specialize (IH (done_ ++ [(n, filter (fun r => negb (carriesb ifc r)) l)])). rewrite <- !app_assoc in IH. cbn [app] in IH.
  rewrite IH; [reflexivity|]. rewrite map_app in *. exact N.
Qed.
Lemma kept_dump : forall ifc fw ls, dump fw ls -> map undo_rule (filter (kept_rule ifc) ls) = undone ifc fw.
Proof.
  intros ifc fw ls H. induction H as [|fw c ls H IH|name chains rules fw ls H IH]; [reflexivity| |].
  - cbn [filter]. change (kept_rule ifc (35 :: c)) with false. exact IH.
  - cbn [filter]. change (kept_rule ifc (42 :: name)) with true. cbv iota. cbn [map]. change (undo_rule (42 :: name)) with (42 :: name).
    rewrite !filter_app, !map_app. cbn [filter]. change (kept_rule ifc (str "COMMIT")) with true. cbv iota. cbn [map]. change (undo_rule (str "COMMIT")) with (str "COMMIT"). rewrite IH.
    assert (C : filter (kept_rule ifc) (map (cons 58) chains) = []) by (clear; induction chains as [|c l IH]; [reflexivity|]; cbn [map filter]; change (kept_rule ifc (58 :: c)) with false; exact IH).
    assert (R : map undo_rule (filter (kept_rule ifc) (map (fun r => str "-A " ++ r) rules)) = map (fun r => str "-D " ++ r) (filter (carriesb ifc) rules)).
    { clear. induction rules as [|r l IH]; [reflexivity|]. cbn [map filter]. change (kept_rule ifc (str "-A " ++ r)) with (contains (marker ifc) r). fold (carriesb ifc r).
      destruct (carriesb ifc r); [|exact IH]. cbn [map]. rewrite IH. reflexivity. }
    rewrite C, R. cbn [map app]. unfold undone. cbn [flat_map fst snd]. cbn [app]. f_equal. rewrite <- app_assoc. reflexivity.
Qed.
Lemma found_dump : forall ifc fw ls, dump fw ls -> restore_found ifc ls = existsb (fun t => existsb (carriesb ifc) (snd t)) fw.
Proof.
  intros ifc fw ls H. unfold restore_found. induction H as [|fw c ls H IH|name chains rules fw ls H IH]; [reflexivity| |].
  - cbn [filter]. change (kept_rule ifc (35 :: c)) with false. exact IH.
  - cbn [filter]. change (kept_rule ifc (42 :: name)) with true. cbv iota. cbn [existsb]. change (starts_with (str "-A") (42 :: name)) with false. cbn [orb].
    rewrite !filter_app, !existsb_app. cbn [filter]. change (kept_rule ifc (str "COMMIT")) with true. cbv iota. cbn [existsb]. change (starts_with (str "-A") (str "COMMIT")) with false. cbn [orb].
    rewrite IH. assert (C : filter (kept_rule ifc) (map (cons 58) chains) = []) by (clear; induction chains as [|c l IH]; [reflexivity|]; cbn [map filter]; change (kept_rule ifc (58 :: c)) with false; exact IH).
    rewrite C. cbn [existsb orb snd]. f_equal. clear. induction rules as [|r l IH]; [reflexivity|]. cbn [map filter existsb].
    change (kept_rule ifc (str "-A " ++ r)) with (contains (marker ifc) r). fold (carriesb ifc r). destruct (carriesb ifc r); cbn [existsb orb]; [reflexivity|exact IH].
Qed.

(** ** The commands *)
Definition removed_nft (ifc : list Z) (h : history) : Prop := exists n, 
  (a_status n <> 0 /\ h = [(have (str "nft"), n)]) \/
  (a_status n = 0 /\ exists t h', h = (have (str "nft"), n) :: (list_tables, t) :: h' /\
     forall tables, ~ In 32 ifc -> Forall (fun t => one_word (fst t) /\ one_word (snd t)) tables -> a_output t = nft_listing tables ->
       (Forall (fun x => snd x <> own_table ifc) tables /\ h' = []) \/
       exists gone b, gone <> [] /\ (forall x, In x gone <-> In x tables /\ snd x = own_table ifc) /\ (NoDup tables -> NoDup gone) /\ h' = [(nft_load (unlines (map nft_delete gone)), b)]).
Definition removed_rules (ifc iptables : list Z) (h : history) : Prop := exists d h', h = (save_rules iptables, d) :: h' /\
  forall fw ls, NoDup (map fst fw) -> Forall clean ls -> dump fw ls -> a_output d = unlines ls ->
    (Forall (fun t => Forall (fun r => ~ carries ifc r) (snd t)) fw /\ h' = []) \/
    exists ds fw' b, h' = [(load_rules iptables (unlines ds), b)] /\ restore None ds fw = Some fw' /\ Forall2 (cleaned ifc) fw fw'.
Lemma remove_iptables_does : forall sys e ifc iptables, does (remove_iptables sys ifc e iptables) (fun _ h => removed_rules ifc iptables h).
Proof.
  intros sys e ifc iptables. unfold remove_iptables. eapply does_bind; [apply output_does|]. cbn beta. intros out h (d & -> & ->). cbv zeta.
  destruct (restore_found ifc (read_complete (a_output d))) eqn:F.
  - eapply does_conseq; [apply step_does|]. cbn beta. intros st h (b & -> & _). exists d. eexists. split; [reflexivity|]. intros fw ls N C D E. right.
    rewrite E, clean_lines by exact C. unfold restore_text.
    exists (undone ifc fw), (leftover ifc fw), b. split; [|split].
    + cbn [app]. unfold load_rules. repeat f_equal. unfold unlines. rewrite <- (kept_dump ifc fw ls D), map_map. reflexivity.
    + apply (restore_undone ifc fw []). exact N.
    + unfold leftover. clear. induction fw as [|[n l] fw IH]; [constructor|]. cbn [map]. constructor; [split; [reflexivity|apply without_filter]|exact IH].
  - apply does_ret. exists d. eexists. split; [reflexivity|]. intros fw ls N C D E. left. rewrite E, clean_lines, (found_dump ifc fw ls D) in F by exact C. split; [|reflexivity].
    apply Forall_forall. intros t Ht. apply Forall_forall. intros r Hr Hc. apply carriesb_iff in Hc.
    assert (X : existsb (fun t => existsb (carriesb ifc) (snd t)) fw = true); [|congruence]. apply existsb_exists. exists t. split; [exact Ht|].
    apply existsb_exists. exists r. auto.
Qed.

(** C48: whether or not failures end the script, removing the firewall asks nft and iptables for what there is and deletes exactly the tables
    named after the interface and exactly the rules carrying its comment. *)
Theorem C48_removed : forall sys e ifc s v s1, remove_firewall sys ifc e s = Done v s1 ->
  exists h1 i h2, sh_hist s1 = sh_hist s ++ h1 ++ (have (str "iptables"), i) :: h2 /\ removed_nft ifc h1 /\
    ((a_status i <> 0 /\ h2 = []) \/
     (a_status i = 0 /\ exists h4 h6, h2 = h4 ++ h6 /\ removed_rules ifc (str "iptables") h4 /\ removed_rules ifc (str "ip6tables") h6)).
Proof.
  intros sys e ifc s v s1 E.
  assert (D : does (remove_firewall sys ifc e) (fun _ h => exists h1 i h2, h = h1 ++ (have (str "iptables"), i) :: h2 /\ removed_nft ifc h1 /\
    ((a_status i <> 0 /\ h2 = []) \/
     (a_status i = 0 /\ exists h4 h6, h2 = h4 ++ h6 /\ removed_rules ifc (str "iptables") h4 /\ removed_rules ifc (str "ip6tables") h6)))).
  { unfold remove_firewall. eapply does_bind; [apply cond_does|]. cbn beta. intros nft h0 (n & -> & ->).
    eapply does_bind with (Q := fun _ h => removed_nft ifc ((have (str "nft"), n) :: h)).
    - destruct (Z.eqb_spec (a_status n) 0) as [Z0|N0].
      + eapply does_bind; [apply output_does|]. cbn beta. intros out h (t & -> & ->).
        assert (K : forall tables, ~ In 32 ifc -> Forall (fun t => one_word (fst t) /\ one_word (snd t)) tables -> a_output t = nft_listing tables ->
                    nft_deletes ifc (read_complete (a_output t)) = unlines (map nft_delete (filter (mine ifc) tables))).
        { intros tables I W Et. rewrite Et. apply nft_deletes_listing; assumption. }
        destruct (nft_deletes ifc (read_complete (a_output t))) as [|c script] eqn:Es.
        * apply does_ret. exists n. right. split; [exact Z0|]. exists t. eexists. split; [reflexivity|]. intros tables I W Et. left. split; [|reflexivity].
          specialize (K tables I W Et). apply Forall_forall. intros x Hx Ex.
          assert (In x (filter (mine ifc) tables)) by (apply filter_In; split; [exact Hx|apply beq_eq, Ex]).
          destruct (filter (mine ifc) tables) as [|y l]; [contradiction|]. cbn in K. discriminate.
        * eapply does_conseq; [apply step_does|]. cbn beta. intros st h (b & -> & _). exists n. right. split; [exact Z0|]. exists t. eexists. split; [reflexivity|].
          intros tables I W Et. right. specialize (K tables I W Et). exists (filter (mine ifc) tables), b. split; [intro X; rewrite X in K; discriminate|]. split.
          -- intro x. rewrite filter_In. unfold mine. rewrite beq_eq. reflexivity.
          -- split; [apply NoDup_filter|]. unfold nft_load. rewrite <- K. reflexivity.
      + apply does_ret. exists n. left. auto.
    - cbn beta. intros _ h1 H1. eapply does_bind; [apply cond_does|]. cbn beta. intros ipt h2 (i & -> & ->).
      destruct (Z.eqb_spec (a_status i) 0) as [Z0|N0].
      + cbn [for_each]. eapply does_bind; [apply remove_iptables_does|]. cbn beta. intros _ h4 H4.
        eapply does_bind; [apply remove_iptables_does|]. cbn beta. intros _ h6 H6. apply does_ret.
        exists ((have (str "nft"), n) :: h1), i, (h4 ++ h6). split; [rewrite app_nil_r; reflexivity|]. split; [exact H1|]. right. split; [exact Z0|]. eauto.
      + apply does_ret. exists ((have (str "nft"), n) :: h1), i, []. split; [reflexivity|]. split; [exact H1|]. left. auto. }
  destruct (D s v s1 E) as (h & Eh & h1 & i & h2 & -> & H1 & H2). exists h1, i, h2. auto.
Qed.


(** ** Installing *)
Lemma take_while_app : forall f a c r, forallb f a = true -> f c = false -> take_while f (a ++ c :: r) = a /\ drop_while f (a ++ c :: r) = c :: r.
Proof.
  intros f a c r H N. induction a as [|x a IH]; cbn [app take_while drop_while forallb] in *; [rewrite N; auto|].
  apply andb_true_iff in H as [Hx H]. rewrite Hx. destruct (IH H) as [-> ->]. auto.
Qed.
Lemma take_drop : forall f s, s = take_while f s ++ drop_while f s /\ forallb f (take_while f s) = true.
Proof.
  intros f s. induction s as [|c s [E H]]; [auto|]. cbn [take_while drop_while]. destruct (f c) eqn:Hc; [|auto]. cbn [app forallb]. rewrite Hc, <- E. auto.
Qed.
Lemma addr_char_iff : forall c, addr_char c = true <-> 48 <= c <= 57 \/ 97 <= c <= 102 \/ c = 58 \/ c = 46.
Proof. intro c. unfold addr_char, digit. lia. Qed.
Lemma addr_chars_iff : forall a, forallb addr_char a = true <-> Forall (fun c => 48 <= c <= 57 \/ 97 <= c <= 102 \/ c = 58 \/ c = 46) a.
Proof. intro a. rewrite forallb_forall, Forall_forall. split; intros H c Hc; apply addr_char_iff, H, Hc. Qed.
Lemma addr_here_iff : forall s a, addr_here s = Some a <-> inet_at s [] a.
Proof.
  intros s a. unfold addr_here, inet_at. split.
  - intro H. assert (K : forall t, match take_while addr_char t, drop_while addr_char t with _ :: _, 47 :: d :: _ => if digit d then Some (take_while addr_char t) else None | _, _ => None end = Some a ->
        exists d rest, 48 <= d <= 57 /\ t = a ++ 47 :: d :: rest /\ a <> [] /\ Forall (fun c => 48 <= c <= 57 \/ 97 <= c <= 102 \/ c = 58 \/ c = 46) a).
    { intros t Ht. destruct (take_drop addr_char t) as [Et Ft]. destruct (take_while addr_char t) as [|x u]; [discriminate|]. destruct (drop_while addr_char t) as [|y [|d rest]]; try discriminate.
      - exfalso. destruct y as [|q|q]; try discriminate. do 7 (destruct q as [q|q|]; try discriminate).
      - destruct (Z.eq_dec y 47) as [->|Ny].
        + destruct (digit d) eqn:Hd; [|discriminate]. injection Ht as <-. exists d, rest. split; [unfold digit in Hd; lia|]. split; [exact Et|]. split; [discriminate|apply addr_chars_iff, Ft].
        + exfalso. destruct y as [|q|q]; try discriminate. do 6 (destruct q as [q|q|]; try discriminate). contradiction. }
    destruct (strip_prefix (str "inet6 ") s) as [t|] eqn:E6.
    + apply strip_prefix_some in E6 as ->. destruct (K t H) as (d & rest & Hd & -> & Hn & Ha). exists [54], d, rest. split; [right; reflexivity|]. split; [exact Hd|]. split; [reflexivity|]. auto.
    + destruct (strip_prefix (str "inet ") s) as [t|] eqn:E4; [|discriminate]. apply strip_prefix_some in E4 as ->.
      destruct (K t H) as (d & rest & Hd & -> & Hn & Ha). exists [], d, rest. split; [left; reflexivity|]. split; [exact Hd|]. split; [reflexivity|]. auto.
  - intros (six & d & rest & [-> | ->] & Hd & -> & Hn & Ha).
    + cbn [app]. change (strip_prefix (str "inet6 ") (str "inet" ++ 32 :: a ++ 47 :: d :: rest)) with (@None (list Z)).
      change (strip_prefix (str "inet ") (str "inet" ++ 32 :: a ++ 47 :: d :: rest)) with (Some (a ++ 47 :: d :: rest)). cbv iota.
      apply addr_chars_iff in Ha. destruct (take_while_app addr_char a 47 (d :: rest) Ha eq_refl) as [-> ->]. destruct a; [contradiction|]. replace (digit d) with true by (unfold digit; lia). reflexivity.
    + cbn [app]. change (strip_prefix (str "inet6 ") (str "inet" ++ 54 :: 32 :: a ++ 47 :: d :: rest)) with (Some (a ++ 47 :: d :: rest)). cbv iota.
      apply addr_chars_iff in Ha. destruct (take_while_app addr_char a 47 (d :: rest) Ha eq_refl) as [-> ->]. destruct a; [contradiction|]. replace (digit d) with true by (unfold digit; lia). reflexivity.
Qed.
Lemma inet_at_cons : forall c s pre a, inet_at (c :: s) (c :: pre) a <-> inet_at s pre a.
Proof.
  intros c s pre a. unfold inet_at. split; intros (six & d & rest & H1 & H2 & E & H3); exists six, d, rest; (split; [exact H1|]; split; [exact H2|]; split; [|exact H3]).
  - cbn [app] in E. injection E as E. exact E.
  - cbn [app]. rewrite E. reflexivity.
Qed.
Lemma inet_at_head : forall c s x pre a, inet_at (c :: s) (x :: pre) a -> x = c.
Proof. intros c s x pre a (six & d & rest & _ & _ & E & _). cbn [app] in E. injection E as <- _. reflexivity. Qed.
Lemma inet_address_spec : forall l, match inet_address l with Some a => names_inet l a | None => forall pre a, ~ inet_at l pre a end.
Proof.
  induction l as [|c l IH]; cbn [inet_address].
  - intros pre a (six & d & rest & _ & _ & E & _). destruct pre; discriminate.
  - destruct (inet_address l) as [a|].
    + destruct IH as (pre & H & M). exists (c :: pre). split; [apply inet_at_cons, H|]. intros [|x pre'] a' H'; cbn [length]; [lia|].
      pose proof (inet_at_head _ _ _ _ _ H') as ->. apply (proj1 (inet_at_cons _ _ _ _)) in H'. apply le_n_S, (M _ _ H').
    + destruct (addr_here (c :: l)) as [a|] eqn:E.
      * exists []. split; [apply addr_here_iff, E|]. intros [|x pre'] a' H'; [lia|]. pose proof (inet_at_head _ _ _ _ _ H') as ->. apply (proj1 (inet_at_cons _ _ _ _)) in H'. destruct (IH _ _ H').
      * intros [|x pre'] a' H'; [apply addr_here_iff in H'; congruence|]. pose proof (inet_at_head _ _ _ _ _ H') as ->. apply (proj1 (inet_at_cons _ _ _ _)) in H'. exact (IH _ _ H').
Qed.
Lemma link_addresses_spec : forall ls, addresses ls (link_addresses ls).
Proof.
  induction ls as [|l ls IH]; [constructor|]. unfold link_addresses in *. cbn [flat_map]. pose proof (inet_address_spec l) as H. destruct (inet_address l) as [a|].
  - apply ad_some; assumption.
  - apply ad_none; assumption.
Qed.
Lemma addresses_chars : forall ls as_, addresses ls as_ -> Forall (fun a => ~ In 10 a) as_.
Proof.
  intros ls as_ H. induction H as [|l ls a as_ (pre & (six & d & rest & _ & _ & _ & _ & Ha) & _) H IH|l ls as_ N H IH]; [constructor| |exact IH].
  constructor; [|exact IH]. intro Hi. rewrite Forall_forall in Ha. specialize (Ha _ Hi). lia.
Qed.

(** The fwmark or table number is not negative. *)
Lemma take_digits_nonneg : forall base s acc n, 0 <= base -> 0 <= acc -> 0 <= fst (fst (take_digits base acc n s)).
Proof.
  intros base s. induction s as [|c s IH]; intros acc n Hb Ha; cbn [take_digits]; [exact Ha|]. destruct (digit_in base c) as [v|] eqn:E; [|exact Ha]. apply IH; [exact Hb|].
  assert (0 <= v); [|nia]. unfold digit_in in E. destruct (Z.ltb _ _); [|discriminate]. injection E as <-.
  destruct ((48 <=? c) && (c <=? 57)) eqn:E1; [lia|]. destruct ((97 <=? c) && (c <=? 122)) eqn:E2; [lia|]. destruct ((65 <=? c) && (c <=? 90)) eqn:E3; lia.
Qed.
Lemma printf_d_nonneg : forall s, 0 <= printf_d s.
Proof.
  intro s. unfold printf_d. repeat match goal with |- 0 <= match ?x with _ => _ end => destruct x; try (apply take_digits_nonneg; lia) end.
Qed.
Lemma free_table_nonneg : forall sys n t, 0 <= t -> does (free_table sys n t) (fun v _ => 0 <= v).
Proof.
  intros sys n. induction n as [|n IH]; intros t Ht; cbn [free_table]; [intros s v s1 E; discriminate|].
  eapply does_bind; [apply query_does|]. cbn beta. intros r4 h (a & _ & _). destruct (negb (beq r4 [])); [eapply does_conseq; [apply IH; lia|]; auto|].
  eapply does_bind; [apply query_does|]. cbn beta. intros r6 h' (b & _ & _). destruct (negb (beq r6 [])); [eapply does_conseq; [apply IH; lia|]; auto|apply does_ret; exact Ht].
Qed.
Lemma choose_table_nonneg : forall sys fuel ifc e, does (choose_table sys fuel ifc e) (fun v _ => 0 <= v).
Proof.
  intros sys fuel ifc e. unfold choose_table. eapply does_bind with (Q := fun m _ => match m with Some t => 0 <= t | None => True end).
  - unfold get_fwmark. eapply does_bind; [apply run_does|]. cbn beta. intros a h _. destruct (negb _); [apply does_ret; exact I|]. cbv zeta.
    destruct (_ || _); apply does_ret; [exact I|apply printf_d_nonneg].
  - cbn beta. intros [t|] h Ht; [apply does_ret; exact Ht|]. eapply does_bind; [apply free_table_nonneg; lia|]. cbn beta. intros t h1 H1.
    unfold step. eapply does_bind; [apply step_does|]. cbn beta. intros _ h2 _. apply does_ret. exact H1.
Qed.

(** What the commands load: an nft script that only adds things to the interface's own table, or iptables rules that all carry its comment;
    for every address of the interface there is a rule against packets from outside. *)
Definition installs_nft (ifc pf : list Z) (addrs : list (list Z)) (input : list Z) : Prop := exists ls, input = unlines ls /\ Forall (fun l => ~ In 10 l) ls /\
  Forall (nft_adds pf (own_table ifc)) ls /\
  forall a, In a addrs -> In (str "add rule " ++ pf ++ 32 :: own_table ifc ++ str " preraw iifname != """ ++ ifc ++ str """ " ++ pf ++ str " daddr " ++ a ++ str " fib saddr type != local drop") ls.
Definition installs_rules (ifc : list Z) (addrs : list (list Z)) (input : list Z) : Prop := exists ls, input = unlines ls /\ Forall (fun l => ~ In 10 l) ls /\
  Forall (fun l => l = str "COMMIT" \/ (exists t, l = 42 :: t) \/ (exists r, l = str "-I " ++ r /\ carries ifc r)) ls /\
  forall a, In a addrs -> In (str "-I PREROUTING ! -i " ++ ifc ++ str " -d " ++ a ++ str " -m addrtype ! --src-type LOCAL -j DROP " ++ comment ifc) ls.

Lemma nft_script_lines : forall ifc pf addrs t, pf = str "ip" \/ pf = str "ip6" -> ~ In 10 ifc -> Forall (fun a => ~ In 10 a) addrs -> ~ In 10 t -> installs_nft ifc pf addrs (nft_script ifc pf addrs t).
Proof.
  intros ifc pf addrs t Hp Hi Ha Ht.
  assert (Hpf : ~ In 10 pf) by (destruct Hp as [-> | ->]; vm_compute; intuition discriminate).
  assert (Ho : ~ In 10 (own_table ifc)) by (unfold own_table; rewrite in_app_iff; intros [X|X]; [vm_compute in X; intuition discriminate|exact (Hi X)]).
  set (T := pf ++ 32 :: own_table ifc).
  assert (HT : ~ In 10 T) by (unfold T; rewrite in_app_iff; cbn [In]; intuition discriminate).
  set (R := fun a => str "add rule " ++ T ++ str " preraw iifname != """ ++ ifc ++ str """ " ++ pf ++ str " daddr " ++ a ++ str " fib saddr type != local drop").
  exists ([str "add table " ++ T; str "add chain " ++ T ++ str " preraw { type filter hook prerouting priority -300; }";
           str "add chain " ++ T ++ str " premangle { type filter hook prerouting priority -150; }"; str "add chain " ++ T ++ str " postmangle { type filter hook postrouting priority -150; }"]
          ++ map R addrs ++
          [str "add rule " ++ T ++ str " postmangle meta l4proto udp mark " ++ t ++ str " ct mark set mark "; str "add rule " ++ T ++ str " premangle meta l4proto udp meta mark set ct mark "]).
  split; [|split; [|split]].
  - unfold nft_script. cbv zeta. change (pf ++ [32] ++ str "wg-quick-" ++ ifc) with T. unfold unlines. rewrite !map_app, !concat_app, map_map. cbn [map concat].
    rewrite <- !app_assoc. cbn [app]. rewrite ?app_nil_r.
    assert (Em : concat (map (fun a => str "add rule " ++ T ++ str " preraw iifname != """ ++ ifc ++ str """ " ++ pf ++ str " daddr " ++ a ++ str " fib saddr type != local drop" ++ [10]) addrs) =
                 concat (map (fun x => R x ++ [10]) addrs)).
    { f_equal. apply map_ext. intro a. unfold R. rewrite <- !app_assoc. reflexivity. }
    rewrite Em. reflexivity.
  - assert (S : forall x, ~ In 10 (str "add rule ") /\ ~ In 10 (str x) -> True) by auto. clear S.
    apply Forall_app. split; [|apply Forall_app; split].
    + repeat constructor; rewrite ?in_app_iff; intro X; repeat match type of X with _ \/ _ => destruct X as [X|X] end; try (exact (HT X)); vm_compute in X; intuition discriminate.
    + apply Forall_forall. intros x Hx. apply in_map_iff in Hx as (a & <- & Hx). rewrite Forall_forall in Ha. specialize (Ha a Hx). unfold R.
      rewrite !in_app_iff. intro X; repeat match type of X with _ \/ _ => destruct X as [X|X] end; try (exact (HT X)); try (exact (Hi X)); try (exact (Hpf X)); try (exact (Ha X)); vm_compute in X; intuition discriminate.
    + repeat constructor; rewrite ?in_app_iff; intro X; repeat match type of X with _ \/ _ => destruct X as [X|X] end; try (exact (HT X)); try (exact (Ht X)); vm_compute in X; intuition discriminate.
  - assert (K : forall verb rest, In verb (map str ["add table "; "add chain "; "add rule "]%string) -> rest = [] \/ (exists r, rest = 32 :: r) -> nft_adds pf (own_table ifc) (verb ++ T ++ rest)).
    { intros verb rest Hv Hr. exists verb, rest. split; [exact Hv|]. split; [|exact Hr]. unfold T. rewrite <- app_assoc. reflexivity. }
    apply Forall_app. split; [|apply Forall_app; split].
    + constructor; [rewrite <- (app_nil_r T) at 1; apply K; [left; reflexivity|left; reflexivity]|].
      repeat constructor; (apply K; [right; left; reflexivity|right; eexists; reflexivity]).
    + apply Forall_forall. intros x Hx. apply in_map_iff in Hx as (a & <- & Hx). unfold R. apply K; [right; right; left; reflexivity|right; eexists; reflexivity].
    + repeat constructor; (apply K; [right; right; left; reflexivity|right; eexists; reflexivity]).
  - intros a Hin. apply in_or_app. right. apply in_or_app. left. apply in_map_iff. exists a. split; [|exact Hin]. unfold R, T. rewrite <- !app_assoc. reflexivity.
Qed.
Lemma iptables_script_lines : forall ifc addrs t, ~ In 10 ifc -> Forall (fun a => ~ In 10 a) addrs -> ~ In 10 t -> installs_rules ifc addrs (iptables_script ifc addrs t).
Proof.
  intros ifc addrs t Hi Ha Ht.
  assert (Hm : ~ In 10 (marker ifc)) by (unfold marker; rewrite !in_app_iff; intro X; repeat match type of X with _ \/ _ => destruct X as [X|X] end; try (exact (Hi X)); vm_compute in X; intuition discriminate).
  set (R := fun a => str "-I PREROUTING ! -i " ++ ifc ++ str " -d " ++ a ++ str " -m addrtype ! --src-type LOCAL -j DROP " ++ marker ifc).
  exists (str "*raw" :: map R addrs ++ [str "COMMIT"; str "*mangle"; str "-I POSTROUTING -m mark --mark " ++ t ++ str " -p udp -j CONNMARK --save-mark " ++ marker ifc;
          str "-I PREROUTING -p udp -j CONNMARK --restore-mark " ++ marker ifc; str "COMMIT"]).
  split; [|split; [|split]].
  - unfold iptables_script, unlines. cbn [map concat]. rewrite map_app, concat_app, map_map. cbn [map concat].
    assert (Em : concat (map (fun a => str "-I PREROUTING ! -i " ++ ifc ++ str " -d " ++ a ++ str " -m addrtype ! --src-type LOCAL -j DROP " ++ marker ifc ++ [10]) addrs) =
                 concat (map (fun x => R x ++ [10]) addrs)).
    { f_equal. apply map_ext. intro a. unfold R. rewrite <- !app_assoc. reflexivity. }
    rewrite Em. rewrite <- !app_assoc. cbn [app]. rewrite ?app_nil_r. reflexivity.
  - constructor; [vm_compute; intuition discriminate|]. apply Forall_app. split.
    + apply Forall_forall. intros x Hx. apply in_map_iff in Hx as (a & <- & Hx). rewrite Forall_forall in Ha. specialize (Ha a Hx). unfold R.
      rewrite !in_app_iff. intro X; repeat match type of X with _ \/ _ => destruct X as [X|X] end; try (exact (Hm X)); try (exact (Hi X)); try (exact (Ha X)); vm_compute in X; intuition discriminate.
    + repeat constructor; rewrite ?in_app_iff; intro X; repeat match type of X with _ \/ _ => destruct X as [X|X] end; try (exact (Hm X)); try (exact (Ht X)); vm_compute in X; intuition discriminate.
  - constructor; [right; left; eexists; reflexivity|]. apply Forall_app. split.
    + apply Forall_forall. intros x Hx. apply in_map_iff in Hx as (a & <- & Hx). right. right. unfold R.
      exists (str "PREROUTING ! -i " ++ ifc ++ str " -d " ++ a ++ str " -m addrtype ! --src-type LOCAL -j DROP " ++ marker ifc). split; [reflexivity|].
      exists (str "PREROUTING ! -i " ++ ifc ++ str " -d " ++ a ++ str " -m addrtype ! --src-type LOCAL -j DROP "), []. rewrite app_nil_r, <- !app_assoc. reflexivity.
    + constructor; [left; reflexivity|]. constructor; [right; left; eexists; reflexivity|]. constructor; [|constructor; [|constructor; [left; reflexivity|constructor]]].
      * right. right. exists (str "POSTROUTING -m mark --mark " ++ t ++ str " -p udp -j CONNMARK --save-mark " ++ marker ifc). split; [reflexivity|].
        exists (str "POSTROUTING -m mark --mark " ++ t ++ str " -p udp -j CONNMARK --save-mark "), []. rewrite app_nil_r, <- !app_assoc. reflexivity.
      * right. right. exists (str "PREROUTING -p udp -j CONNMARK --restore-mark " ++ marker ifc). split; [reflexivity|].
        exists (str "PREROUTING -p udp -j CONNMARK --restore-mark "), []. rewrite app_nil_r. reflexivity.
  - intros a Hin. right. apply in_or_app. left. apply in_map_iff. exists a. split; [|exact Hin]. reflexivity.
Qed.

Theorem C48_installed : forall sys fuel ifc e r s v s1, ~ In 10 ifc -> add_default sys fuel ifc e r s = Done v s1 ->
  exists f h l h' n b input, family r f /\ sh_hist s1 = sh_hist s ++ h ++ (show_addresses f ifc, l) :: h' ++ [(have (str "nft"), n); (input, b)] /\
    (forall ev, In ev h' -> fst ev = argv [str "sysctl"; str "-q"; str "net.ipv4.conf.all.src_valid_mark=1"]) /\
    exists addrs, addresses (read_complete (a_output l)) addrs /\
      ((a_status n = 0 /\ exists text, input = nft_load text /\ installs_nft ifc (if beq f (str "-6") then str "ip6" else str "ip") addrs text) \/
       (a_status n <> 0 /\ exists text, input = load_rules (if beq f (str "-6") then str "ip6tables" else str "iptables") text /\ installs_rules ifc addrs text)).
Proof.
  intros sys fuel ifc e r s v s1 Hi E.
  assert (D : does (add_default sys fuel ifc e r) (fun _ h0 => exists h l h' n b input, h0 = h ++ (show_addresses (proto r) ifc, l) :: h' ++ [(have (str "nft"), n); (input, b)] /\
    (forall ev, In ev h' -> fst ev = argv [str "sysctl"; str "-q"; str "net.ipv4.conf.all.src_valid_mark=1"]) /\
    exists addrs, addresses (read_complete (a_output l)) addrs /\
      ((a_status n = 0 /\ exists text, input = nft_load text /\ installs_nft ifc (if has_char 58 r then str "ip6" else str "ip") addrs text) \/
       (a_status n <> 0 /\ exists text, input = load_rules (if has_char 58 r then str "ip6tables" else str "iptables") text /\ installs_rules ifc addrs text)))).
  { unfold add_default, step. eapply does_bind; [apply choose_table_nonneg|]. cbn beta. intros t h0 Ht. cbv zeta.
    eapply does_bind; [apply step_does|]. cbn beta. intros _ h1 _. eapply does_bind; [apply step_does|]. cbn beta. intros _ h2 _.
    eapply does_bind; [apply step_does|]. cbn beta. intros _ h3 _. eapply does_bind; [apply output_does|]. cbn beta. intros out h4 (l & -> & ->).
    eapply does_bind with (Q := fun _ h' => forall ev, In ev h' -> fst ev = argv [str "sysctl"; str "-q"; str "net.ipv4.conf.all.src_valid_mark=1"]).
    { destruct (has_char 58 r); [apply does_ret; intros ev []|]. eapply does_conseq; [apply step_does|]. cbn beta. intros _ h (b & -> & _) ev [<-|[]]. reflexivity. }
    cbn beta. intros _ h' H'. eapply does_bind; [apply cond_does|]. cbn beta. intros nft h5 (n & -> & ->).
    pose proof (link_addresses_spec (read_complete (a_output l))) as L. pose proof (addresses_chars _ _ L) as LC. set (addrs := link_addresses (read_complete (a_output l))) in *.
    assert (Htt : ~ In 10 (print_dec t)). { intro X. pose proof (print_dec_digits t Ht) as Q. rewrite Forall_forall in Q. specialize (Q _ X). cbv beta in Q. lia. }
    eapply does_bind with (Q := fun _ h => exists b input, h = [(input, b)] /\
      ((a_status n = 0 /\ exists text, input = nft_load text /\ installs_nft ifc (if has_char 58 r then str "ip6" else str "ip") addrs text) \/
       (a_status n <> 0 /\ exists text, input = load_rules (if has_char 58 r then str "ip6tables" else str "iptables") text /\ installs_rules ifc addrs text))).
    { destruct (Z.eqb_spec (a_status n) 0) as [Z0|N0]; (eapply does_conseq; [apply step_does|]); cbn beta; intros _ h (b & -> & _); exists b; eexists; (split; [reflexivity|]).
      - left. split; [exact Z0|]. eexists. split; [reflexivity|]. apply nft_script_lines; auto. destruct (has_char 58 r); auto.
      - right. split; [exact N0|]. eexists. split; [reflexivity|]. apply iptables_script_lines; auto. }
    cbn beta. intros _ h6 (b & input & -> & Hin). intros s' v' s1' E'. injection E' as <- <-. exists []. split; [symmetry; apply app_nil_r|].
    exists (h0 ++ h1 ++ h2 ++ h3), l, h', n, b, input. split; [rewrite <- !app_assoc; reflexivity|]. split; [exact H'|]. exists addrs. auto. }
  destruct (D s v s1 E) as (h0 & Eh & h & l & h' & n & b & input & -> & H' & addrs & HA & HI). exists (proto r), h, l, h', n, b, input.
  split; [apply proto_family|]. split; [exact Eh|]. split; [exact H'|]. exists addrs. split; [exact HA|].
  assert (Ep : beq (proto r) (str "-6") = has_char 58 r) by (unfold proto; destruct (has_char 58 r); reflexivity). rewrite Ep. exact HI.
Qed.

(** Two interfaces, wg0 and wg01, and other tables and rules. *)
Definition some_tables : list (list Z * list Z) :=
  [(str "inet", str "filter"); (str "ip", str "wg-quick-wg0"); (str "ip", str "wg-quick-wg01"); (str "ip6", str "wg-quick-wg0")].
Definition some_rule (ifc : string) : rule := str "PREROUTING -d 10.0.0.1/32 ! -i " ++ str ifc ++ str " " ++ comment (str ifc) ++ str " -j DROP".
Definition some_firewall : firewall :=
  [(str "raw", [str "PREROUTING -j ACCEPT"; some_rule "wg0"; some_rule "wg01"]); (str "filter", [str "INPUT -j DROP"])].
Definition some_dump : list (list Z) :=
  [str "# Generated by iptables-save"; str "*raw"; str ":PREROUTING ACCEPT [0:0]"; str "-A PREROUTING -j ACCEPT"; str "-A " ++ some_rule "wg0"; str "-A " ++ some_rule "wg01"; str "COMMIT";
   str "# Completed"; str "*filter"; str ":INPUT ACCEPT [0:0]"; str "-A INPUT -j DROP"; str "COMMIT"].
Definition firewall_system : system := fun _ c =>
  match c_argv c with
  | [a; b; p] => mk_answer 0 (if beq a (str "nft") && beq b (str "list") then nft_listing some_tables else []) None
  | [a] => mk_answer 0 (if beq a (str "iptables-save") then unlines some_dump else []) None
  | _ => mk_answer 0 [] None
  end.
Example C48_case : Forall (fun t => one_word (fst t) /\ one_word (snd t)) some_tables /\ dump some_firewall some_dump /\ Forall clean some_dump /\ NoDup (map fst some_firewall) /\
  match remove_firewall firewall_system (str "wg0") true (mk_shell [] false false) with
  | Done _ s => map fst (sh_hist s) =
      [have (str "nft"); list_tables; nft_load (unlines [str "delete table ip wg-quick-wg0"; str "delete table ip6 wg-quick-wg0"]); have (str "iptables");
       save_rules (str "iptables"); load_rules (str "iptables") (unlines [str "*raw"; str "-D " ++ some_rule "wg0"; str "COMMIT"; str "*filter"; str "COMMIT"]);
       save_rules (str "ip6tables")]
  | _ => False end.
Proof.
  split; [|split; [|split; [|split]]].
  - repeat constructor; cbn; try discriminate; lia.
  - unfold some_dump. apply du_comment.
    apply (du_table (str "raw") [str "PREROUTING ACCEPT [0:0]"] [str "PREROUTING -j ACCEPT"; some_rule "wg0"; some_rule "wg01"]). apply du_comment.
    apply (du_table (str "filter") [str "INPUT ACCEPT [0:0]"] [str "INPUT -j DROP"]). constructor.
  - unfold clean. repeat constructor; vm_compute; intuition discriminate.
  - repeat constructor; vm_compute; intuition discriminate.
  - vm_compute. reflexivity.
Qed.
Print Assumptions C48_removed.
Print Assumptions C48_installed.
