(** C69: wg-quick on Android gives exactly the applications asked for to the tunnel. *)
From Coq Require Import String ZArith List Bool Lia Permutation Sorted.
From Verif Require Import Base Cstr CstrProofs NumSpec ConfigProofs AndUsers AndSpec AndProofs.
Import ListNotations.
Open Scope Z_scope.

Lemma feed_users : forall netid rs users, Forall (fun r => 0 <= fst r <= snd r) rs ->
  (forall u, (exists r, In r rs /\ fst r <= u <= snd r) <-> users u) ->
  adds_users netid (let '(cs, last) := feed netid 0 None rs in finish netid cs last) users.
Proof.
  intros netid rs users B C. destruct (feed_spec netid rs 0 []) as (gs & lst & F & CC & G & L); [lia|cbn; lia|]. cbn [pending app] in F, CC. rewrite F.
  set (all := match lst with [] => gs | _ => gs ++ [lst] end).
  assert (AC : concat all = rs) by (unfold all; destruct lst; [rewrite <- CC, app_nil_r; reflexivity|rewrite concat_app; cbn; rewrite app_nil_r; exact CC]).
  exists all. split; [|split].
  - unfold all, finish. destruct lst as [|r l]; cbn [pending]; [reflexivity|]. rewrite users_command_line by discriminate. rewrite map_app. reflexivity.
  - assert (X : Forall (fun h => (1 <= length h <= 18)%nat) all).
    { unfold all. destruct lst as [|r l]; [exact G|]. apply Forall_app. split; [exact G|]. constructor; [cbn [length] in *; lia|constructor]. }
    rewrite Forall_forall in *. intros g I. split; [apply X; exact I|]. rewrite Forall_forall. intros r R. apply B. rewrite <- AC.
    apply in_concat. exists g. auto.
  - intro u. rewrite <- C. unfold in_ranges. split.
    + intros (g & r & I & R & K). exists r. split; [rewrite <- AC; apply in_concat; exists g; auto|exact K].
    + intros (r & R & K). rewrite <- AC in R. apply in_concat in R as (g & I & R). exists g, r. auto.
Qed.

Lemma collected : forall ulmax s more ps, 2 ^ 31 <= ulmax -> s <> [] -> ~ In 0 s -> Forall proper_package ps -> NoDup (map k_name ps) ->
  exists us n, get_uid_list ulmax (Some (map package_line ps)) (Some (s ++ 0 :: 0 :: more)) = Is (us ++ repeat 0 (S n)) /\
    StronglySorted Z.le us /\ Forall (fun v => 0 < v < 2 ^ 31) us /\ forall u, In u us <-> names_uid s ps u.
Proof.
  intros ulmax s more ps M NE N G D. destruct (capacity_spec s (0 :: more) NE N) as (cap & C & L).
  pose proof (total_bound ps (split_all 44 s) D) as TB.
  unfold get_uid_list. rewrite C, collect_spec by (assumption || lia).
  set (us := picked (split_all 44 s) ps).
  assert (K : forall u, In u us <-> names_uid s ps u).
  { intro u. unfold us. rewrite picked_in. unfold names_uid. reflexivity. }
  assert (F : Forall (fun v => 0 < v < 2 ^ 31) us).
  { rewrite Forall_forall. intros u I. apply K in I as (p & P & _ & _ & <-). rewrite Forall_forall in G. apply G in P as [_ P]. exact P. }
  exists (sort_uids us), (cap - S (length us))%nat. split; [|split; [|split]].
  - f_equal. f_equal. f_equal. unfold us. rewrite picked_length. lia.
  - apply sort_sorted. exact F.
  - rewrite (sort_perm us). exact F.
  - intro u. rewrite <- K. split; apply Permutation_in; [|symmetry]; apply sort_perm.
Qed.

(** With IncludedApplications exactly the users of the installed applications listed are added; with ExcludedApplications exactly the other users from 0 to 99999,
    if no application listed has the user id 99998 or more; with neither, all of them; both are refused.  Each command takes at most 18 ranges. *)
Theorem C69_included : forall ulmax setting more ps netid, 2 ^ 31 <= ulmax -> setting <> [] -> ~ In 0 setting -> Forall proper_package ps -> NoDup (map k_name ps) ->
  exists cs, set_users ulmax (Some (map package_line ps)) netid None (Some (setting ++ 0 :: 0 :: more)) = Is cs /\
    adds_users netid cs (names_uid setting ps).
Proof.
  intros ulmax s more ps netid M NE N G D. destruct (collected ulmax s more ps M NE N G D) as (us & n & E & _ & F & K).
  unfold set_users. rewrite E. cbn [repeat]. rewrite each_spec by exact F.
  pose proof (feed_users netid (map (fun u => (u, u)) us) (names_uid s ps)) as X.
  destruct (feed netid 0 None (map (fun u => (u, u)) us)) as [cs lst]. eexists. split; [reflexivity|]. apply X.
  - rewrite Forall_map. eapply Forall_impl; [|exact F]. cbn. intros. lia.
  - intro u. rewrite <- K. split.
    + intros (r & R & B). apply in_map_iff in R as (v & <- & I). cbn in B. assert (v = u) by lia. subst. exact I.
    + intro I. exists (u, u). split; [apply in_map_iff; exists u; auto|cbn; lia].
Qed.

Lemma feed_users_last : forall netid rs r users, Forall (fun r => 0 <= fst r <= snd r) (rs ++ [r]) ->
  (forall u, (exists r0, In r0 (rs ++ [r]) /\ fst r0 <= u <= snd r0) <-> users u) ->
  adds_users netid (let '(cs, last) := feed netid 0 None rs in finish netid cs (Some (joined last (range_text r)))) users.
Proof.
  intros netid rs r users B C. destruct (feed_spec netid rs 0 []) as (gs & lst & F & CC & G & L); [lia|cbn; lia|]. cbn [pending app] in F, CC. rewrite F.
  rewrite joined_pending. assert (AC : concat (gs ++ [lst ++ [r]]) = rs ++ [r]) by (rewrite concat_app; cbn; rewrite app_nil_r, app_assoc, CC; reflexivity).
  exists (gs ++ [lst ++ [r]]). split; [|split].
  - unfold finish. rewrite users_command_line by (destruct lst; discriminate). rewrite map_app. reflexivity.
  - assert (X : Forall (fun h => (1 <= length h <= 18)%nat) (gs ++ [lst ++ [r]])).
    { apply Forall_app. split; [exact G|]. constructor; [rewrite app_length; cbn [length] in *; lia|constructor]. }
    rewrite Forall_forall in *. intros g I. split; [apply X; exact I|]. rewrite Forall_forall. intros r0 R. apply B. rewrite <- AC.
    apply in_concat. exists g. auto.
  - intro u. rewrite <- C. unfold in_ranges. split.
    + intros (g & r0 & I & R & K). exists r0. split; [rewrite <- AC; apply in_concat; exists g; auto|exact K].
    + intros (r0 & R & K). rewrite <- AC in R. apply in_concat in R as (g & I & R). exists g, r0. auto.
Qed.

(** Up to 99998 without a condition on the user ids. *)
Theorem C69_excluded : forall ulmax setting more ps netid, 2 ^ 31 <= ulmax -> setting <> [] -> ~ In 0 setting -> Forall proper_package ps -> NoDup (map k_name ps) ->
  exists cs users, set_users ulmax (Some (map package_line ps)) netid (Some (setting ++ 0 :: 0 :: more)) None = Is cs /\ adds_users netid cs users /\
    (forall u, users u -> 0 <= u /\ ~ names_uid setting ps u) /\
    (forall u, 0 <= u < 99999 -> ~ names_uid setting ps u -> users u) /\
    ((forall u, names_uid setting ps u -> u < 99998) -> forall u, users u <-> 0 <= u <= 99999 /\ ~ names_uid setting ps u).
Proof.
  intros ulmax s more ps netid M NE N G D. destruct (collected ulmax s more ps M NE N G D) as (us & n & E & SO & F & K).
  unfold set_users. rewrite E. cbn [repeat].
  destruct (between_spec us (repeat 0 n) 0 ltac:(lia) SO F) as (rs & e & R & L & LI & BU & BR & C).
  { eapply Forall_impl; [|exact F]. cbn. intros. lia. }
  rewrite R. rewrite Forall_forall in BU.
  destruct (Z.ltb_spec e 99999) as [LT|GE].
  - pose proof (feed_users_last netid rs (e, 99999) (fun u => 0 <= u <= 99999 /\ ~ names_uid s ps u)) as X.
    destruct (feed netid 0 None rs) as [cs lst]. eexists. exists (fun u => 0 <= u <= 99999 /\ ~ names_uid s ps u).
    split; [reflexivity|]. split; [apply X|].
    + apply Forall_app. split; [eapply Forall_impl; [|exact BR]; cbn; intros; lia|]. constructor; [cbn; lia|constructor].
    + intro u. rewrite <- K. split.
      * intros (r & I & B). apply in_app_or in I as [I|[<-|[]]].
        -- destruct (proj1 (C u)) as [A1 A2]; [exists r; auto|]. split; [lia|exact A2].
        -- cbn in B. split; [lia|]. intro I. apply BU in I. lia.
      * intros [A B]. destruct (Z.lt_ge_cases u e).
        -- destruct (proj2 (C u)) as (r & I & Q); [split; [lia|exact B]|]. exists r. split; [apply in_or_app; left; exact I|exact Q].
        -- exists (e, 99999). split; [apply in_or_app; right; left; reflexivity|cbn; lia].
    + split; [|split]; intros; try tauto. split; [lia|assumption].
  - pose proof (feed_users netid rs (fun u => 0 <= u < e /\ ~ names_uid s ps u)) as X.
    destruct (feed netid 0 None rs) as [cs lst]. eexists. exists (fun u => 0 <= u < e /\ ~ names_uid s ps u).
    split; [reflexivity|]. split; [apply X|].
    + eapply Forall_impl; [|exact BR]. cbn. intros. lia.
    + intro u. rewrite <- K. apply C.
    + split; [intros; split; [lia|tauto]|]. split; [intros; split; [lia|assumption]|].
      intros H. destruct LI as [-> | LI]; [lia|]. apply K in LI. apply H in LI. lia.
Qed.

Theorem C69_neither : forall ulmax lines netid, exists cs, set_users ulmax lines netid None None = Is cs /\ adds_users netid cs (fun u => 0 <= u <= 99999).
Proof.
  intros. pose proof (feed_users_last netid [] (0, 99999) (fun u => 0 <= u <= 99999)) as X. eexists. split; [reflexivity|]. apply X.
  - constructor; [cbn; lia|constructor].
  - intro u. split; [intros (r & [<-|[]] & B); exact B|]. intro B. exists (0, 99999). split; [left; reflexivity|exact B].
Qed.

Theorem C69_both : forall ulmax lines netid a b, set_users ulmax lines netid (Some a) (Some b) = Fails.
Proof. reflexivity. Qed.

(** A line that is not one of an application: it has no second word, or none that is a number, or that number is the uid 0. *)
Inductive no_application (ulmax : Z) : list Z -> Prop :=
| na_one_word : forall l, ~ In 32 l -> no_application ulmax l
| na_no_number : forall name u more, ~ In 32 name -> ~ In 32 u -> (more = [] \/ exists m, more = 32 :: m) -> u = [] \/ (48 <= hd 0 u <= 57 /\ forall v, ~ decimal u v) ->
    no_application ulmax (name ++ 32 :: u ++ more)
| na_root : forall name u more v, ~ In 32 name -> (more = [] \/ exists m, more = 32 :: m) -> decimal u v -> v mod 2 ^ 32 = 0 -> v <= ulmax -> no_application ulmax (name ++ 32 :: u ++ more).
Lemma second_word : forall u more, ~ In 32 u -> (more = [] \/ exists m, more = 32 :: m) ->
  (match split_first 32 (u ++ more) with Some (a, _) => a | None => u ++ more end) = u.
Proof.
  intros u more N [-> |[m ->]].
  - rewrite app_nil_r. destruct (split_first 32 u) as [[a b]|] eqn:E; [|reflexivity]. apply split_first_some in E as [-> _]. exfalso. apply N. apply in_or_app. right. left. reflexivity.
  - rewrite split_first_app by exact N. reflexivity.
Qed.
Lemma not_a_package : forall ulmax l, no_application ulmax l -> package_of ulmax l = None.
Proof.
  intros ulmax l N. unfold package_of. destruct N as [l N|name u more N1 N2 M U|name u more v N1 M D V L].
  - destruct (split_first 32 l) as [[a b]|] eqn:E; [|reflexivity]. apply split_first_some in E as [-> _]. exfalso. apply N. apply in_or_app. right. left. reflexivity.
  - rewrite split_first_app by exact N1. rewrite second_word by assumption. destruct U as [-> |[H U]].
    + destruct (strtoul ulmax 10 []). rewrite orb_true_r. reflexivity.
    + destruct u as [|c s]; [cbn in H; lia|]. pose proof (strtoul10 ulmax c s H) as S.
      destruct (num_value 10 0 (c :: s)) as [v|] eqn:NV; [exfalso; apply (U v), decimal_iff; split; [discriminate|exact NV]|].
      destruct (strtoul ulmax 10 (c :: s)) as [v e]. cbn [snd] in S. assert (B : beq e [] = false) by (destruct e; [congruence|reflexivity]). rewrite B. rewrite orb_true_r. reflexivity.
  - assert (DF : Forall (fun c => 48 <= c <= 57) u).
    { clear -D. induction D as [c v [B _]|s n c v H IH [B _]]; [constructor; [exact B|constructor]|apply Forall_app; split; [exact IH|constructor; [exact B|constructor]]]. }
    rewrite split_first_app by exact N1. rewrite second_word; [|intro K; rewrite Forall_forall in DF; apply DF in K; lia|exact M].
    apply decimal_iff in D as [NE NV]. destruct u as [|c s]; [congruence|]. inversion DF as [|? ? H ?]; subst. pose proof (strtoul10 ulmax c s H) as S. rewrite NV in S. rewrite S.
    destruct (Z.ltb_spec ulmax v); [lia|]. unfold u32. rewrite V. reflexivity.
Qed.
(** Such lines make no difference, wherever they are. *)
Theorem C69_other_lines : forall ulmax before l after netid excluded included, no_application ulmax l ->
  set_users ulmax (Some (before ++ l :: after)) netid excluded included = set_users ulmax (Some (before ++ after)) netid excluded included.
Proof.
  intros ulmax before l after netid excluded included N.
  assert (C : forall m room, collect ulmax m (before ++ l :: after) room = collect ulmax m (before ++ after) room).
  { intro m. induction before as [|b before IH]; intro room; cbn [app collect]; [rewrite (not_a_package _ _ N); reflexivity|].
    destruct (package_of ulmax b) as [[name uid]|]; [|apply IH]. destruct (found (length m) name m); [|reflexivity]. destruct (room <? n)%nat; [reflexivity|]. rewrite IH. reflexivity. }
  assert (G : forall sel, get_uid_list ulmax (Some (before ++ l :: after)) sel = get_uid_list ulmax (Some (before ++ after)) sel).
  { intros [m|]; [|reflexivity]. unfold get_uid_list. destruct (capacity m); [|reflexivity]. rewrite C. reflexivity. }
  unfold set_users. rewrite !G. reflexivity.
Qed.
Theorem C69_other_lines_case : no_application (2 ^ 64 - 1) (str "android 0 0 /data") /\ no_application (2 ^ 64 - 1) (str "org.odd 10061x 0 /data") /\ no_application (2 ^ 64 - 1) (str "nothing").
Proof.
  assert (N : forall s, existsb (Z.eqb 32) s = false -> ~ In 32 s) by (intros s H K; enough (existsb (Z.eqb 32) s = true) by congruence; apply existsb_exists; exists 32; auto).
  split; [|split].
  - apply (na_root _ (str "android") (str "0") (str " 0 /data") 0); [apply N; reflexivity|right; exists (str "0 /data"); reflexivity| |reflexivity|vm_compute; discriminate].
    apply decimal_iff. split; [discriminate|reflexivity].
  - apply (na_no_number _ (str "org.odd") (str "10061x") (str " 0 /data")); [apply N; reflexivity|apply N; reflexivity|right; exists (str "0 /data"); reflexivity|].
    right. split; [cbn; lia|]. intros v D. apply decimal_iff in D as [_ D]. vm_compute in D. discriminate.
  - apply na_one_word, N. reflexivity.
Qed.

(** ** Cases *)
Definition mail : package := mk_package (str "org.mail") 10061 (str "0 /data/user/0/org.mail default 3003" ++ [10]).
Definition maps : package := mk_package (str "org.maps") 10062 (str "0 /data/user/0/org.maps default none" ++ [10]).
Definition shop : package := mk_package (str "com.shop") 10080 (str "0 /data/user/0/com.shop default none" ++ [10]).
Definition phone : list package := [shop; mail; maps].
Lemma phone_proper : Forall proper_package phone /\ NoDup (map k_name phone).
Proof.
  split.
  - repeat constructor; cbn; intuition lia.
  - repeat constructor; cbn; intuition congruence.
Qed.
Definition memory_of (s : list Z) : option (list Z) := Some (s ++ [0; 0]).
Lemma C69_excluded_case : set_users (2 ^ 64 - 1) (Some (map package_line phone)) 100 (memory_of (str "org.maps,org.mail,com.absent")) None =
  Is [str "ndc network users add 100 0-10060 10063-99999"].
Proof. vm_compute. reflexivity. Qed.
Lemma C69_included_case : set_users (2 ^ 64 - 1) (Some (map package_line phone)) 100 None (memory_of (str ",com.shop,org.mail")) =
  Is [str "ndc network users add 100 10061 10080"].
Proof. vm_compute. reflexivity. Qed.

(** ** What goes wrong *)
(** The scan for a name leaves the list after its last name: whatever the list, unless it ends with a comma, one installed application suffices for a read outside of
    the object. *)
Theorem C69_past_end_refuted : forall ulmax setting ps netid, 2 ^ 31 <= ulmax -> setting <> [] -> ~ In 0 setting -> last setting 0 <> 44 ->
  Forall proper_package ps -> ps <> [] ->
  set_users ulmax (Some (map package_line ps)) netid None (Some (setting ++ [0])) = Reads_past /\
  set_users ulmax (Some (map package_line ps)) netid (Some (setting ++ [0])) None = Reads_past.
Proof.
  intros ulmax s ps netid M NE N LA G P. destruct ps as [|p ps]; [congruence|]. inversion G as [|? ? G1 G2]; subst.
  destruct (capacity_spec s [] NE N) as (cap & C & _).
  assert (E : get_uid_list ulmax (Some (map package_line (p :: ps))) (Some (s ++ [0])) = Reads_past).
  { unfold get_uid_list. rewrite C. cbn [map collect]. rewrite package_of_line by assumption. rewrite found_past by assumption. reflexivity. }
  unfold set_users. rewrite E. auto.
Qed.
(** What lies behind the list counts: an application that was not listed is excluded; or the array of user ids overflows. *)
Theorem C69_behind_refuted :
  set_users (2 ^ 64 - 1) (Some (map package_line phone)) 100 (Some (str "org.maps,com.absent" ++ 0 :: str "com.shop" ++ [0; 0])) None =
    Is [str "ndc network users add 100 0-10061 10063-10079 10081-99999"] /\
  set_users (2 ^ 64 - 1) (Some (map package_line phone)) 100 (Some (str "org.maps" ++ 0 :: str "org.maps" ++ 0 :: str "org.maps" ++ [0; 0])) None = Writes_past.
Proof. split; vm_compute; reflexivity. Qed.
(** "ExcludedApplications =" with nothing behind it: the count of the commas begins behind the NUL. *)
Theorem C69_empty_refuted : forall ulmax lines netid, set_users ulmax lines netid (Some [0]) None = Reads_past /\ set_users ulmax lines netid None (Some [0]) = Reads_past.
Proof. intros. split; reflexivity. Qed.
(** Excluding the user 99998 excludes 99999, too (both are isolated processes' user ids). *)
Theorem C69_last_user_refuted :
  set_users (2 ^ 64 - 1) (Some [package_line (mk_package (str "org.iso") 99998 (str "x"))]) 100 (memory_of (str "org.iso")) None =
    Is [str "ndc network users add 100 0-99997"].
Proof. vm_compute. reflexivity. Qed.
(** Two lines of the same name for a single name in the list overflow the array. *)
Theorem C69_same_name_refuted :
  set_users (2 ^ 64 - 1) (Some (map package_line [mail; mail; mail])) 100 (memory_of (str "org.mail")) None = Writes_past.
Proof. vm_compute. reflexivity. Qed.

Print Assumptions C69_included.
Print Assumptions C69_excluded.
Print Assumptions C69_neither.
Print Assumptions C69_other_lines.
Print Assumptions C69_both.
Print Assumptions C69_past_end_refuted.
Print Assumptions C69_behind_refuted.
Print Assumptions C69_empty_refuted.
Print Assumptions C69_last_user_refuted.
Print Assumptions C69_same_name_refuted.
Print Assumptions C69_excluded_case.
Print Assumptions C69_included_case.
