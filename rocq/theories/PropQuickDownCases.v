(** C49: systems that keep rules as [knows_rules] says, and runs of 'wg-quick down' on them. *)
From Coq Require Import String ZArith List Bool Lia.
From Verif Require Import Base Cstr CstrProofs Types Show Bash Quick QuickRun QuickRunSpec QuickRunProofs QuickUpProofs QuickSave QuickSaveProofs QuickRouteSpec QuickRouteProofs
  QuickDownSpec QuickDownProofs PropDump PropQuickUp PropQuickFirewall PropQuickDown PropQuickRules.
Import ListNotations.
Open Scope Z_scope.

Fixpoint same_words (a b : list (list Z)) : bool :=
  match a, b with [], [] => true | x :: a', y :: b' => beq x y && same_words a' b' | _, _ => false end.
Lemma same_words_iff : forall a b, same_words a b = true <-> a = b.
Proof.
  intro a. induction a as [|x a IH]; intros [|y b]; cbn [same_words]; try (split; congruence).
  rewrite andb_true_iff, IH. split; [intros [E ->]; apply beq_eq in E; congruence|]. intro E. injection E as -> ->. split; [apply beq_eq; reflexivity|reflexivity].
Qed.
Definition same (c d : command) : bool := same_words (c_argv c) (c_argv d) && beq (c_input c) (c_input d).
Lemma same_iff : forall c d, same c d = true <-> c = d.
Proof.
  intros [a i] [b j]. unfold same. cbn [c_argv c_input]. rewrite andb_true_iff, same_words_iff. split; [intros [-> E]; apply beq_eq in E; congruence|].
  intro E. injection E as -> ->. split; [reflexivity|apply beq_eq; reflexivity].
Qed.

(** Whether [c] would delete [r]. *)
Definition hit (f : list Z) (c : command) (r : rule) : bool :=
  same c (rule_delete f (mk_sel (r_table r) None)) ||
  match r_suppress r with Some n => same c (rule_delete f (mk_sel (r_table r) (Some n))) | None => false end.
Fixpoint remove_hit (f : list Z) (c : command) (l : list rule) : list rule :=
  match l with [] => [] | r :: l' => if hit f c r then l' else r :: remove_hit f c l' end.
Fixpoint rules_after (f : list Z) (l : list rule) (cs : list command) : list rule :=
  match cs with [] => l | c :: cs' => rules_after f (remove_hit f c l) cs' end.

Section Ruled.
Variables four six : list rule.
Definition base_rules (f : list Z) : list rule := if beq f (str "-4") then four else if beq f (str "-6") then six else [].
Definition state (h : history) (f : list Z) : list rule := rules_after f (base_rules f) (map fst h).
Variable base : system.
(** [base], but the rules are kept. *)
Definition ruled : system := fun h c =>
  if same c (rule_show (str "-4")) then mk_answer 0 (unlines (map rule_line (state h (str "-4")))) None
  else if same c (rule_show (str "-6")) then mk_answer 0 (unlines (map rule_line (state h (str "-6")))) None
  else if begins [str "ip"; str "-4"; str "rule"; str "delete"] (c_argv c) then
    mk_answer (if existsb (hit (str "-4") c) (state h (str "-4")) then 0 else 2) [] None
  else if begins [str "ip"; str "-6"; str "rule"; str "delete"] (c_argv c) then
    mk_answer (if existsb (hit (str "-6") c) (state h (str "-6")) then 0 else 2) [] None
  else base h c.

Lemma delete_inj : forall f g s t, (forall n, s_suppress s = Some n -> 0 <= n) -> (forall n, s_suppress t = Some n -> 0 <= n) ->
  rule_delete f s = rule_delete g t -> f = g /\ s_table s = s_table t /\ s_suppress s = s_suppress t.
Proof.
  intros f g [ts ss] [tt st] Hs Ht E. unfold rule_delete in E. cbn [s_table s_suppress] in *. injection E as Ef Et Er. split; [exact Ef|]. split; [exact Et|].
  destruct ss as [n|], st as [m|]; try discriminate Er; [|reflexivity]. assert (Er' : print_dec n = print_dec m) by (injection Er; auto). f_equal. apply dec_inj; auto.
Qed.
Lemma hit_selects : forall f s r, (forall n, s_suppress s = Some n -> 0 <= n) -> (forall n, r_suppress r = Some n -> 0 <= n) ->
  hit f (rule_delete f s) r = true <-> selects s r.
Proof.
  intros f s r Hs Hr. unfold hit, selects. rewrite orb_true_iff. split.
  - intros [E|E].
    + apply same_iff in E. apply delete_inj in E; [|exact Hs|discriminate]. destruct E as (_ & Et & Es). cbn [s_table s_suppress] in *. split; [congruence|]. intro K. congruence.
    + destruct (r_suppress r) as [n|] eqn:En; [|discriminate]. apply same_iff in E. apply delete_inj in E; [|exact Hs|intros m Em; injection Em as <-; auto].
      destruct E as (_ & Et & Es). cbn [s_table s_suppress] in *. split; [congruence|]. intros _. congruence.
  - intros [Et Es]. destruct s as [ts [n|]]; cbn [s_table s_suppress] in *.
    + right. rewrite Es by discriminate. apply same_iff. rewrite Et. reflexivity.
    + left. apply same_iff. rewrite Et. reflexivity.
Qed.
Lemma hit_other : forall f g s r, (forall n, s_suppress s = Some n -> 0 <= n) -> (forall n, r_suppress r = Some n -> 0 <= n) -> g <> f -> hit g (rule_delete f s) r = false.
Proof.
  intros f g s r Hs Hr N. unfold hit. apply orb_false_iff. split.
  - destruct (same _ _) eqn:E; [|reflexivity]. apply same_iff in E. apply delete_inj in E; [|exact Hs|discriminate]. destruct E as (E & _). congruence.
  - destruct (r_suppress r) as [n|] eqn:En; [|reflexivity]. destruct (same _ _) eqn:E; [|reflexivity]. apply same_iff in E. apply delete_inj in E; [|exact Hs|intros m Em; injection Em as <-; auto].
    destruct E as (E & _). congruence.
Qed.
Lemma hit_asks : forall f c r, fam f -> asks c = true -> hit f c r = false.
Proof.
  intros f c r Hf Ha. unfold hit. apply orb_false_iff. split.
  - destruct (same _ _) eqn:E; [|reflexivity]. apply same_iff in E. subst c. destruct Hf as [-> | ->]; discriminate Ha.
  - destruct (r_suppress r) as [n|]; [|reflexivity]. destruct (same _ _) eqn:E; [|reflexivity]. apply same_iff in E. subst c. destruct Hf as [-> | ->]; discriminate Ha.
Qed.
Lemma remove_none : forall f c l, Forall (fun r => hit f c r = false) l -> remove_hit f c l = l.
Proof. intros f c l F. induction F as [|r l Hr F IH]; [reflexivity|]. cbn [remove_hit]. rewrite Hr, IH. reflexivity. Qed.
Lemma remove_one : forall f c a r b, Forall (fun r => hit f c r = false) a -> hit f c r = true -> remove_hit f c (a ++ r :: b) = a ++ b.
Proof. intros f c a r b F Hr. induction F as [|x a Hx F IH]; cbn [app remove_hit]; [rewrite Hr; reflexivity|]. rewrite Hx, IH. reflexivity. Qed.
Lemma remove_sub : forall f c l r, In r (remove_hit f c l) -> In r l.
Proof.
  intros f c l r. induction l as [|x l IH]; cbn [remove_hit]; [auto|]. destruct (hit f c x); [right; assumption|]. intros [->|K]; [left; reflexivity|right; auto].
Qed.
Lemma after_sub : forall f cs l r, In r (rules_after f l cs) -> In r l.
Proof. intros f cs. induction cs as [|c cs IH]; intros l r H; [exact H|]. apply IH in H. eapply remove_sub. exact H. Qed.
Lemma state_snoc : forall h c a f, state (h ++ [(c, a)]) f = remove_hit f c (state h f).
Proof.
  intros h c a f. unfold state. rewrite map_app. cbn [map fst]. generalize (base_rules f). induction (map fst h) as [|d ds IH]; intro l; [reflexivity|]. cbn [app rules_after]. apply IH.
Qed.
Lemma state_proper : Forall proper_rule four -> Forall proper_rule six -> forall h f, Forall proper_rule (state h f).
Proof.
  intros F4 F6 h f. apply Forall_forall. intros r Hr. apply after_sub in Hr. unfold base_rules in Hr. rewrite Forall_forall in F4, F6.
  destruct (beq f (str "-4")); [auto|]. destruct (beq f (str "-6")); [auto|]. destruct Hr.
Qed.
Lemma state_other : forall h f, f <> str "-4" -> f <> str "-6" -> state h f = [].
Proof.
  intros h f N4 N6. unfold state, base_rules. destruct (beq f (str "-4")) eqn:E4; [apply beq_eq in E4; contradiction|]. destruct (beq f (str "-6")) eqn:E6; [apply beq_eq in E6; contradiction|].
  induction (map fst h) as [|c cs IH]; [reflexivity|]. exact IH.
Qed.
Lemma first_hit : forall (p : rule -> bool) l, (exists a r b, l = a ++ r :: b /\ p r = true /\ Forall (fun x => p x = false) a) \/ Forall (fun x => p x = false) l.
Proof.
  intros p l. induction l as [|x l IH]; [right; constructor|]. destruct (p x) eqn:E.
  - left. exists [], x, l. split; [reflexivity|]. split; [exact E|constructor].
  - destruct IH as [(a & r & b & -> & Hr & Fa)|F]; [left; exists (x :: a), r, b; split; [reflexivity|]; split; [exact Hr|constructor; assumption]|right; constructor; assumption].
Qed.

Lemma ruled_knows : Forall proper_rule four -> Forall proper_rule six -> knows_rules ruled state.
Proof.
  intros F4 F6 h. assert (Pr := state_proper F4 F6).
  assert (Pos : forall h f r, In r (state h f) -> forall n, r_suppress r = Some n -> 0 <= n).
  { intros h0 f r Hr. pose proof (Pr h0 f) as F. rewrite Forall_forall in F. destruct (F r Hr) as (_ & _ & _ & _ & _ & H & _). exact H. }
  assert (Main : forall f, fam f -> Forall proper_rule (state h f) /\ a_output (ruled h (rule_show f)) = unlines (map rule_line (state h f)) /\
    (forall c g, asks c = true -> state (h ++ [(c, ruled h c)]) g = state h g) /\
    (forall s, (forall n, s_suppress s = Some n -> 0 <= n) -> let ev := (rule_delete f s, ruled h (rule_delete f s)) in
       (exists a r b, state h f = a ++ r :: b /\ selects s r /\ Forall (fun x => ~ selects s x) a /\
          a_status (snd ev) = 0 /\ state (h ++ [ev]) f = a ++ b /\ (forall g, g <> f -> state (h ++ [ev]) g = state h g)) \/
       (Forall (fun x => ~ selects s x) (state h f) /\ a_status (snd ev) <> 0))).
  { intros f Hf. split; [apply Pr|]. split; [destruct Hf as [-> | ->]; reflexivity|]. split.
    - intros c g Ha. rewrite state_snoc. destruct (list_Z_eq_dec g (str "-4")) as [->|N4]; [|destruct (list_Z_eq_dec g (str "-6")) as [->|N6]].
      + apply remove_none, Forall_forall. intros r _. apply hit_asks; [left; reflexivity|exact Ha].
      + apply remove_none, Forall_forall. intros r _. apply hit_asks; [right; reflexivity|exact Ha].
      + rewrite state_other by assumption. reflexivity.
    - intros s Hs. cbv zeta. cbn [snd].
      assert (St : a_status (ruled h (rule_delete f s)) = if existsb (hit f (rule_delete f s)) (state h f) then 0 else 2).
      { unfold ruled. destruct Hf as [-> | ->].
        - assert (S1 : same (rule_delete (str "-4") s) (rule_show (str "-4")) = false) by (destruct (same _ _) eqn:E; [apply same_iff in E; discriminate E|reflexivity]).
          assert (S2 : same (rule_delete (str "-4") s) (rule_show (str "-6")) = false) by (destruct (same _ _) eqn:E; [apply same_iff in E; discriminate E|reflexivity]).
          rewrite S1, S2. reflexivity.
        - assert (S1 : same (rule_delete (str "-6") s) (rule_show (str "-4")) = false) by (destruct (same _ _) eqn:E; [apply same_iff in E; discriminate E|reflexivity]).
          assert (S2 : same (rule_delete (str "-6") s) (rule_show (str "-6")) = false) by (destruct (same _ _) eqn:E; [apply same_iff in E; discriminate E|reflexivity]).
          rewrite S1, S2. reflexivity. }
      destruct (first_hit (hit f (rule_delete f s)) (state h f)) as [(a & r & b & El & Hr & Fa)|Fn].
      + left. exists a, r, b. assert (Hall : forall x, In x (state h f) -> hit f (rule_delete f s) x = true <-> selects s x) by (intros x Hx; apply hit_selects; [exact Hs|exact (Pos h f x Hx)]).
        split; [exact El|]. split; [apply Hall; [rewrite El; apply in_or_app; right; left; reflexivity|exact Hr]|]. split; [|split; [|split]].
        * apply Forall_forall. intros x Hx K. rewrite Forall_forall in Fa. specialize (Fa x Hx). apply Hall in K; [congruence|]. rewrite El. apply in_or_app. left. exact Hx.
        * rewrite St. replace (existsb _ _) with true; [reflexivity|]. symmetry. apply existsb_exists. exists r. split; [rewrite El; apply in_or_app; right; left; reflexivity|exact Hr].
        * rewrite state_snoc, El. apply remove_one; assumption.
        * intros g Ng. rewrite state_snoc. apply remove_none, Forall_forall. intros x Hx. apply hit_other; [exact Hs|exact (Pos h g x Hx)|exact Ng].
      + right. split.
        * apply Forall_forall. intros x Hx K. rewrite Forall_forall in Fn. specialize (Fn x Hx). apply (hit_selects f) in K; [congruence|exact Hs|exact (Pos h f x Hx)].
        * rewrite St. replace (existsb _ _) with false; [discriminate|]. symmetry. destruct (existsb _ _) eqn:E; [|reflexivity]. apply existsb_exists in E. destruct E as (x & Hx & E).
          rewrite Forall_forall in Fn. rewrite (Fn x Hx) in E. discriminate E. }
  constructor; [apply Main; left; reflexivity|]. constructor; [apply Main; right; reflexivity|constructor].
Qed.
End Ruled.

(** ** Deciding that a line is proper *)
Fixpoint cuts (p : list Z) (acc s : list Z) : list (list Z) :=
  (if starts_with p s then [rev acc] else []) ++ match s with [] => [] | c :: s' => cuts p (c :: acc) s' end.
Lemma cuts_all : forall p s acc a b, s = a ++ p ++ b -> In (rev acc ++ a) (cuts p acc s).
Proof.
  intros p s. induction s as [|c s IH]; intros acc a b E; cbn [cuts].
  - symmetry in E. apply app_eq_nil in E. destruct E as [-> E]. apply app_eq_nil in E. destruct E as [-> ->]. rewrite app_nil_r. left. reflexivity.
  - destruct a as [|x a]; cbn [app] in E.
    + rewrite app_nil_r. apply in_or_app. left. assert (S : starts_with p (c :: s) = true); [|rewrite S; left; reflexivity].
      unfold starts_with. destruct (strip_prefix p (c :: s)) eqn:K; [reflexivity|]. exfalso. assert (X : strip_prefix p (c :: s) = Some b) by (apply strip_prefix_some; exact E). congruence.
    + injection E as -> E. apply in_or_app. right. specialize (IH (x :: acc) a b E). cbn [rev] in IH. rewrite <- app_assoc in IH. exact IH.
Qed.
Definition properb (r : rule) : bool :=
  forallb (fun c => negb (c =? 10) && negb (c =? 0)) (rule_line r) &&
  forallb (beq (r_head r)) (cuts (str "lookup ") [] (rule_line r)) &&
  forallb (fun c => negb (c =? 32)) (r_table r) &&
  (match r_rest r with [] => true | c :: _ => c =? 32 end) &&
  (match r_suppress r with Some n => 0 <=? n | None => negb (starts_with (str " suppress_prefixlength ") (r_rest r)) end).
Lemma properb_proper : forall r, properb r = true -> proper_rule r.
Proof.
  intros r H. unfold properb in H. repeat (apply andb_true_iff in H; destruct H as [H ?]). rewrite forallb_forall in *.
  split; [intro K; specialize (H _ K); discriminate H|]. split; [intro K; specialize (H _ K); discriminate H|]. split; [|split; [|split; [|split]]].
  - intros a b E. apply (cuts_all _ _ []) in E. cbn [rev app] in E. specialize (H3 a E). apply beq_eq in H3. congruence.
  - intro K. specialize (H2 _ K). discriminate H2.
  - destruct (r_rest r) as [|c x]; [left; reflexivity|]. apply Z.eqb_eq in H1. subst c. right. exists x. reflexivity.
  - intros n En. rewrite En in H0. apply Z.leb_le in H0. exact H0.
  - intros En x E. rewrite En, E in H0. unfold starts_with in H0. replace (strip_prefix _ _) with (Some x) in H0; [discriminate H0|]. symmetry. apply strip_prefix_some. reflexivity.
Qed.

(** ** Runs *)
Definition tab (s : string) : list Z := str s ++ [9].
Definition r_local : rule := mk_rule (tab "0:" ++ str "from all ") (str "local") None [].
Definition r_suppress0 (pref : string) : rule := mk_rule (tab pref ++ str "from all ") (str "main") (Some 0) [].
Definition r_marked (pref table mark : string) : rule := mk_rule (tab pref ++ str "not from all fwmark " ++ str mark ++ [32]) (str table) None [].
Definition r_main : rule := mk_rule (tab "32766:" ++ str "from all ") (str "main") None [].
Definition r_user : rule := mk_rule (tab "32763:" ++ str "from 10.9.0.0/16 ") (str "100") None (str " proto static").
Definition plain_four : list rule := [r_local; r_user; r_suppress0 "32764:"; r_marked "32765:" "51820" "0xca6c"; r_main].
Definition down_options : options := mk_options [] [] [] [str "1.1.1.1"] [] [] [] [] [str "echo down %i"] [str "echo gone %i"] false.
Definition down_answers : list (list string * answer) :=
  [(["wg"; "show"; "interfaces"]%string, says "wg1 wg0"); (["wg"; "show"; "wg0"; "fwmark"]%string, says "0xca6c");
   (["wg"; "show"; "wg0"; "allowed-ips"]%string, says "key 10.1.0.0/16 0.0.0.0/0"); (["test"]%string, fails 1); (["type"]%string, fails 1);
   (["resolvconf"; "-d"]%string, fails 1)].
Definition a_down (four six : list rule) : outcome := cmd_down (ruled four six (table_system down_answers)) no_glob 5 wg0 down_options (str "/etc/wireguard/wg0.conf") true.

Lemma plain_proper : Forall proper_rule plain_four.
Proof. repeat (constructor; [apply properb_proper; reflexivity|]). constructor. Qed.
Lemma unambiguous_table : forall t r, starts_with t (r_table r) = false -> (r_suppress r = None \/ exists x, r_head r = x ++ str "from all ") -> unambiguous t r.
Proof.
  intros t r H Hs. split.
  - intros x E. exfalso. unfold starts_with in H. rewrite E in H. replace (strip_prefix t (t ++ x)) with (Some x) in H; [discriminate H|]. symmetry. apply strip_prefix_some. reflexivity.
  - intros _ E. destruct Hs as [Hs|Hs]; [congruence|exact Hs].
Qed.

(** The commands of an undisturbed run: DNS could not be unregistered, nobody minds. *)
Example C49_down_case : plain_name wg0 /\ fst (a_down plain_four []) = Some 0 /\
  map (fun c => c_argv c) (changes (snd (a_down plain_four []))) = map words_of
   [["eval"; "echo down wg0"]; ["ip"; "-4"; "rule"; "delete"; "table"; "51820"]; ["ip"; "-4"; "rule"; "delete"; "table"; "main"; "suppress_prefixlength"; "0"];
    ["ip"; "link"; "delete"; "dev"; "wg0"]; ["resolvconf"; "-d"; "wg0"; "-f"]; ["eval"; "echo gone wg0"]]%string /\
  state plain_four [] (snd (a_down plain_four [])) (str "-4") = [r_local; r_user; r_main].
Proof.
  split; [|split; [|split]].
  - split; [cbn; intuition discriminate|]. split; [cbn; intuition discriminate|]. split; [cbn; intuition discriminate|discriminate].
  - vm_compute. reflexivity.
  - vm_compute. reflexivity.
  - vm_compute. reflexivity.
Qed.

(** The hypotheses of C49_rules hold of that run, and it reaches what the theorem speaks about. *)
Lemma ruled_unambiguous : forall four six t h, Forall (unambiguous t) four -> Forall (unambiguous t) six ->
  Forall (fun f => Forall (unambiguous t) (state four six h f)) [str "-4"; str "-6"].
Proof.
  intros four six t h F4 F6. rewrite Forall_forall in F4, F6. apply Forall_forall. intros f _. apply Forall_forall. intros r Hr. apply after_sub in Hr. unfold base_rules in Hr.
  destruct (beq f (str "-4")); [auto|]. destruct (beq f (str "-6")); [auto|]. destruct Hr.
Qed.
Definition marks_tell (t : Z) (h : history) : bool :=
  forallb (fun ev => negb (same (fst ev) (show_mark wg0)) || beq (a_output (snd ev)) (mark_str t ++ [10])) h.
Lemma tells_mark_ruled : forall four six t h, 0 <= t -> Forall (unambiguous (print_dec t)) four -> Forall (unambiguous (print_dec t)) six ->
  marks_tell t h = true -> tells_mark wg0 (state four six) h.
Proof.
  intros four six t h Ht F4 F6 Hm h0 am hd E _. exists t. split; [exact Ht|]. split; [|intros _; apply ruled_unambiguous; assumption].
  unfold marks_tell in Hm. rewrite forallb_forall in Hm. specialize (Hm (show_mark wg0, am)). cbn [fst snd] in Hm.
  assert (S : same (show_mark wg0) (show_mark wg0) = true) by (apply same_iff; reflexivity). rewrite S in Hm. cbn [negb orb] in Hm. apply beq_eq, Hm. rewrite E. apply in_or_app. right. left. reflexivity.
Qed.
Lemma plain_unambiguous : Forall (unambiguous (print_dec 51820)) plain_four.
Proof.
  assert (O : unambiguous (print_dec 51820) (r_marked "32765:" "51820" "0xca6c")).
  { split; [|discriminate]. intros x E. apply (app_inv_head (str "51820")). rewrite app_nil_r. symmetry. exact E. }
  repeat (constructor; [first [exact O|apply unambiguous_table; [reflexivity|first [left; reflexivity|right; eexists; reflexivity]]]|]). constructor.
Qed.
Theorem C49_rules_case : knows_rules (ruled plain_four [] (table_system down_answers)) (state plain_four []) /\
  tells_mark wg0 (state plain_four []) (snd (a_down plain_four [])) /\
  (exists h0 am hd a h2 ap, snd (a_down plain_four []) = h0 ++ (show_mark wg0, am) :: hd ++ (link_delete wg0, a) :: h2 /\
     a_status am = 0 /\ a_output am = mark_str 51820 ++ [10] /\ In (show_aips wg0, ap) hd /\ shows_default (a_output ap)).
Proof.
  split; [apply ruled_knows; [exact plain_proper|constructor]|]. split.
  - apply tells_mark_ruled with (t := 51820); [lia|exact plain_unambiguous|constructor|vm_compute; reflexivity].
  - set (h := snd (a_down plain_four [])). pose (e := nth 2 h (argv [], mk_answer 0 [] None)). pose (e' := nth 3 h (argv [], mk_answer 0 [] None)). pose (e'' := nth 12 h (argv [], mk_answer 0 [] None)).
    exists (firstn 2 h), (snd e), (firstn 9 (skipn 3 h)), (snd e''), (skipn 13 h), (snd e').
    split; [vm_compute; reflexivity|]. split; [vm_compute; reflexivity|]. split; [vm_compute; reflexivity|]. split; [vm_compute; left; reflexivity|].
    exists (str "key 10.1.0.0/16 0.0.0.0"), []. split; [vm_compute; reflexivity|left; reflexivity].
Qed.

(** The names of other tables may not begin with the interface's: the rule for table 518201 is taken for one for 51820, the deletion of which fails,
    and the interface stays, although the system answers as it should. *)
Theorem C49_prefix_refuted : ~ (forall sys glob fuel ifc o conf amp rules st h,
  knows_rules sys rules -> cmd_down sys glob fuel ifc o conf amp = (st, h) ->
  (forall ev, In ev h -> deletes_rule (fst ev) -> a_status (snd ev) = 0)).
Proof.
  intro H. pose (four := [r_local; r_suppress0 "32764:"; r_marked "32765:" "51820" "0xca6c"; r_marked "32766:" "518201" "0x7e839"; r_main]).
  assert (P : Forall proper_rule four) by (repeat (constructor; [apply properb_proper; reflexivity|]); constructor).
  pose proof (H (ruled four [] (table_system down_answers)) no_glob 5%nat wg0 down_options (str "/etc/wireguard/wg0.conf") true (state four []) _ _ (ruled_knows four [] (table_system down_answers) P (Forall_nil _)) (surjective_pairing (a_down four []))) as K.
  assert (E : existsb (fun ev => same (fst ev) (rule_delete (str "-4") (mk_sel (str "51820") None)) && negb (a_status (snd ev) =? 0)) (snd (a_down four [])) = true) by (vm_compute; reflexivity).
  apply existsb_exists in E. destruct E as (ev & Hin & E). apply andb_true_iff in E. destruct E as [E1 E2]. apply same_iff in E1.
  rewrite (K ev Hin) in E2; [discriminate E2|]. rewrite E1. exists (str "-4"), [str "51820"]. split; [left; reflexivity|reflexivity].
Qed.
Example C49_prefix_case : let four := [r_local; r_suppress0 "32764:"; r_marked "32765:" "51820" "0xca6c"; r_marked "32766:" "518201" "0x7e839"; r_main] in
  fst (a_down four []) = Some 2 /\ existsb (fun ev => same (fst ev) (link_delete wg0)) (snd (a_down four [])) = false.
Proof. split; vm_compute; reflexivity. Qed.
Definition two_interfaces : list rule := [r_local; r_suppress0 "32762:"; r_marked "32763:" "51821" "0xca6d"; r_suppress0 "32764:"; r_marked "32765:" "51820" "0xca6c"; r_main].
Lemma down_pair : forall four st, fst (a_down four []) = st ->
  cmd_down (ruled four [] (table_system down_answers)) no_glob 5 wg0 down_options (str "/etc/wireguard/wg0.conf") true = (st, snd (a_down four [])).
Proof. intros four st <-. unfold a_down. apply surjective_pairing. Qed.
(** Two interfaces with default routes: taking down one removes the rules of the other that hide the default routes of the main table. *)
Theorem C49_other_interface_refuted : ~ (forall sys glob fuel ifc o conf amp rules h,
  knows_rules sys rules -> cmd_down sys glob fuel ifc o conf amp = (Some 0, h) -> tells_mark ifc rules h ->
  forall r, In r (rules [] (str "-4")) -> ~ In r (rules h (str "-4")) -> exists t am, 0 <= t /\ In (show_mark ifc, am) h /\ a_output am = mark_str t ++ [10] /\ r_table r = print_dec t).
Proof.
  intro H.
  assert (P : Forall proper_rule two_interfaces) by (repeat (constructor; [apply properb_proper; reflexivity|]); constructor).
  assert (O : unambiguous (print_dec 51820) (r_marked "32765:" "51820" "0xca6c")).
  { split; [|discriminate]. intros x E. apply (app_inv_head (str "51820")). rewrite app_nil_r. symmetry. exact E. }
  assert (U : Forall (unambiguous (print_dec 51820)) two_interfaces).
  { repeat (constructor; [first [exact O|apply unambiguous_table; [reflexivity|first [left; reflexivity|right; eexists; reflexivity]]]|]). constructor. }
  assert (E : fst (a_down two_interfaces []) = Some 0) by (vm_compute; reflexivity).
  pose proof (H (ruled two_interfaces [] (table_system down_answers)) no_glob 5%nat wg0 down_options (str "/etc/wireguard/wg0.conf") true (state two_interfaces []) (snd (a_down two_interfaces []))
    (ruled_knows two_interfaces [] (table_system down_answers) P (Forall_nil _))) as K.
  assert (T1 : tells_mark wg0 (state two_interfaces []) (snd (a_down two_interfaces []))) by (apply tells_mark_ruled with (t := 51820); [apply Z.leb_le; reflexivity|exact U|constructor|vm_compute; reflexivity]).
  specialize (K (down_pair two_interfaces (Some 0) E) T1 (r_suppress0 "32762:")).
  destruct K as (t & am & Ht & _ & _ & K).
  - unfold state, base_rules. cbn [map rules_after]. right. left. reflexivity.
  - assert (Es : state two_interfaces [] (snd (a_down two_interfaces [])) (str "-4") = [r_local; r_marked "32763:" "51821" "0xca6d"; r_main]) by (vm_compute; reflexivity).
    rewrite Es. intros [X|[X|[X|[]]]]; discriminate X.
  - apply (digits_plain t 109 Ht); [lia|]. rewrite <- K. left. reflexivity.
Qed.
