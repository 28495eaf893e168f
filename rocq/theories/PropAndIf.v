(** C72: on Android, what is taken down belongs to the interface; what is set up follows from what the peers are. *)
From Coq Require Import String ZArith List Bool Lia.
From Verif Require Import Base Cstr CstrProofs NumSpec ConfigProofs Uapi AndIf AndSpec.
Import ListNotations.
Open Scope Z_scope.

Lemma after_prefix_some : forall p s r, after_prefix p s = Some r <-> s = p ++ r.
Proof.
  induction p as [|a p IH]; intros s r; cbn [after_prefix app]; [split; congruence|].
  destruct s as [|b s]; [split; discriminate|]. destruct (Z.eqb_spec a b) as [->|E].
  - rewrite IH. split; [intros ->; reflexivity|intro H; congruence].
  - split; [discriminate|intro H; congruence].
Qed.
Lemma after_prefix_app : forall p r, after_prefix p (p ++ r) = Some r.
Proof. intros. apply after_prefix_some. reflexivity. Qed.
Definition literal (iface : list Z) : Prop := ~ In 43 iface /\ ~ In 46 iface.
Lemma ends_none : forall p l, ends_of l p [] = [].
Proof. induction p as [|c p IH]; intro l; [reflexivity|]. cbn. destruct (c =? 43); apply IH. Qed.
Lemma ends_literal : forall p l s, literal p -> ends_of l p [s] = match after_prefix p s with Some r => [r] | None => [] end.
Proof.
  induction p as [|c p IH]; intros l s [P M]; [reflexivity|]. cbn [ends_of after_prefix].
  destruct (Z.eqb_spec c 43); [exfalso; apply P; left; auto|]. cbn [flat_map one_char]. rewrite app_nil_r.
  destruct s as [|b s]; [apply ends_none|]. cbn [one_char]. destruct (Z.eqb_spec c 46); [exfalso; apply M; left; auto|]. cbn [orb].
  destruct (c =? b); [|apply ends_none]. apply IH. split; intro K; [apply P|apply M]; right; exact K.
Qed.

(** ** Firewall rules *)
Lemma has_comment_iff : forall iface text, literal iface -> has_comment iface text = true <-> added_for iface text.
Proof.
  intros iface text L. unfold added_for.
  assert (H : forall t, (match after_prefix (str " --comment ""wireguard rule") t with
     | Some (32 :: s) => existsb (fun r => match r with 34 :: _ => true | _ => false end) (ends_of 32 iface [s]) | _ => false end) = true <->
     exists b, t = str " --comment ""wireguard rule " ++ iface ++ str """" ++ b).
  { intro t. split.
    - destruct (after_prefix (str " --comment ""wireguard rule") t) as [r|] eqn:E; [|discriminate]. apply after_prefix_some in E as ->.
      destruct r as [|c s]; [discriminate|]. destruct (Z.eq_dec c 32) as [->|N]; [|intro X; exfalso; destruct c; try discriminate; do 6 (destruct p; try discriminate); congruence].
      rewrite ends_literal by exact L. destruct (after_prefix iface s) as [r|] eqn:E; [|discriminate]. apply after_prefix_some in E as ->.
      cbn [existsb]. rewrite orb_false_r. destruct r as [|q b]; [discriminate|]. intro X. exists b.
      assert (q = 34) as -> by (destruct q; try discriminate; do 6 (destruct p; try discriminate); reflexivity). reflexivity.
    - intros [b ->]. change (str " --comment ""wireguard rule " ++ iface ++ str """" ++ b) with (str " --comment ""wireguard rule" ++ 32 :: iface ++ 34 :: b).
      rewrite after_prefix_app, ends_literal by exact L. rewrite after_prefix_app. reflexivity. }
  induction text as [|c t IH]; cbn [has_comment]; rewrite orb_true_iff, H.
  - split; [intros [[b E]|E]; discriminate|]. intros (a & b & E). destruct a; discriminate.
  - rewrite IH. split.
    + intros [[b E]|(a & b & E)]; [exists [], b; exact E|]. exists (c :: a), b. cbn [app]. rewrite <- E. reflexivity.
    + intros (a & b & E). destruct a as [|d a]; [left; exists b; exact E|]. right. exists a, b. cbn [app] in E. congruence.
Qed.
Lemma chomp_line : forall t, chomp (t ++ [10]) = t.
Proof. intro t. unfold chomp. rewrite rev_app_distr. cbn [rev app]. apply rev_involutive. Qed.
(** Of the rules iptables-save prints, exactly those whose comment names this interface are deleted, each once, for every name without "." and "+". *)
Theorem C72_rules : forall program iface rules, literal iface ->
  exists gone, goes_for iface rules gone /\
    delete_rules program iface (map (fun l => l ++ [10]) rules) = map (fun r => program ++ str " -D " ++ r) gone.
Proof.
  intros program iface rules L. induction rules as [|l rules (gone & G & E)]; [exists []; split; [constructor|reflexivity]|].
  unfold delete_rules in *. cbn [map flat_map]. unfold rule_of at 1. rewrite chomp_line.
  destruct (after_prefix (str "-A ") l) as [r|] eqn:A.
  - apply after_prefix_some in A as ->. destruct (has_comment iface r) eqn:H.
    + exists (r :: gone). split; [apply goes_one; [apply has_comment_iff; assumption|exact G]|]. cbn [map app]. f_equal. exact E.
    + exists gone. split; [|exact E]. apply goes_not; [|exact G]. intros r1 K C. assert (r1 = r) as -> by (symmetry; eapply app_inv_head; exact K).
      apply has_comment_iff in C; [congruence|exact L].
  - exists gone. split; [|exact E]. apply goes_not; [|exact G]. intros r -> _. rewrite after_prefix_app in A. discriminate.
Qed.

(** ** Networks *)
Lemma hex_run_app : forall h r, Forall (fun c => 48 <= c <= 57 \/ 97 <= c <= 102) h -> (match r with [] => True | c :: _ => hex_char c = false end) -> hex_run (h ++ r) = (h, r).
Proof.
  induction h as [|c h IH]; intros r F R.
  - destruct r as [|c r]; [reflexivity|]. cbn. rewrite R. reflexivity.
  - inversion F as [|? ? F1 F2]; subst. cbn [app hex_run].
    assert (C : hex_char c = true) by (unfold hex_char; apply orb_true_iff; destruct F1; [left|right]; apply andb_true_iff; rewrite !Z.leb_le; lia).
    rewrite C, IH by assumption. reflexivity.
Qed.
Lemma no_x : forall iface s, ~ In 120 s -> netid_in iface s = None.
Proof.
  induction s as [|c s IH]; intro N; [reflexivity|]. cbn [netid_in].
  destruct (after_prefix (str "0xc") (c :: s)) as [r|] eqn:E.
  - exfalso. apply after_prefix_some in E. apply N. rewrite E. right. left. reflexivity.
  - apply IH. intro K. apply N. right. exact K.
Qed.
Lemma skip_front : forall iface f s, ~ In 120 f -> netid_in iface (f ++ 48 :: s) = netid_in iface (48 :: s).
Proof.
  induction f as [|c f IH]; intros s N; [reflexivity|]. cbn [app]. cbn [netid_in].
  destruct (after_prefix (str "0xc") (c :: f ++ 48 :: s)) as [r|] eqn:E.
  - exfalso. apply after_prefix_some in E. destruct f as [|d f]; [cbn in E; congruence|]. apply N. right. left. cbn in E. congruence.
  - apply IH. intro K. apply N. right. exact K.
Qed.
Lemma no_more_x : forall iface h t, Forall (fun c => 48 <= c <= 57 \/ 97 <= c <= 102) h -> netid_in iface (h ++ str "/" ++ t) = netid_in iface (str "/" ++ t).
Proof.
  induction h as [|c h IH]; intros t F; [reflexivity|]. inversion F as [|? ? F1 F2]; subst. cbn [app]. cbn [netid_in].
  destruct (after_prefix (str "0xc") (c :: h ++ str "/" ++ t)) as [r|] eqn:E.
  - exfalso. apply after_prefix_some in E. destruct h as [|d h]; [cbn in E; congruence|]. inversion F2; subst. cbn in E. assert (d = 120) by congruence. lia.
  - apply IH. exact F2.
Qed.
Definition quiet (n : network_rule) : Prop := ~ In 120 (n_name n ++ n_back n).
Lemma netid_of : forall iface n, literal iface -> proper_nrule n -> quiet n ->
  (begins_with iface (n_name n ++ n_back n) /\ netid_in iface (nrule_line n) = Some (n_id n)) \/
  (~ begins_with iface (n_name n ++ n_back n) /\ netid_in iface (nrule_line n) = None).
Proof.
  intros iface n L (N & NE & H) Q. unfold nrule_line. change (str "0xc" ++ n_id n ++ str "/0xcffff lookup " ++ n_name n ++ n_back n)
    with (48 :: 120 :: 99 :: n_id n ++ str "/" ++ str "0xcffff lookup " ++ n_name n ++ n_back n). rewrite skip_front by exact N.
  set (rest := n_name n ++ n_back n) in *.
  assert (S : netid_in iface (48 :: 120 :: 99 :: n_id n ++ str "/" ++ str "0xcffff lookup " ++ rest) =
    match after_prefix iface rest with Some _ => Some (n_id n) | None => netid_in iface (n_id n ++ str "/" ++ str "0xcffff lookup " ++ rest) end).
  { cbn [netid_in].
    change (after_prefix (str "0xc") (48 :: 120 :: 99 :: n_id n ++ str "/" ++ str "0xcffff lookup " ++ rest)) with (Some (n_id n ++ str "/" ++ str "0xcffff lookup " ++ rest)).
    change (after_prefix (str "0xc") (120 :: 99 :: n_id n ++ str "/" ++ str "0xcffff lookup " ++ rest)) with (@None (list Z)).
    change (after_prefix (str "0xc") (99 :: n_id n ++ str "/" ++ str "0xcffff lookup " ++ rest)) with (@None (list Z)).
    cbv iota. rewrite hex_run_app; [|exact H|reflexivity]. destruct (n_id n) as [|c h] eqn:EI; [congruence|].
    change (str "/" ++ str "0xcffff lookup " ++ rest) with (str "/0xcffff lookup" ++ 32 :: rest). rewrite after_prefix_app, ends_literal by exact L.
    destruct (after_prefix iface rest); reflexivity. }
  rewrite S. destruct (after_prefix iface rest) as [r|] eqn:E.
  - left. split; [exists r; apply after_prefix_some; exact E|reflexivity].
  - right. split; [intros [r K]; rewrite K, after_prefix_app in E; discriminate|].
    rewrite no_more_x by exact H. change (str "/" ++ str "0xcffff lookup " ++ rest) with (47 :: 48 :: 120 :: 99 :: str "ffff lookup " ++ rest).
    cbn [netid_in].
    change (after_prefix (str "0xc") (47 :: 48 :: 120 :: 99 :: str "ffff lookup " ++ rest)) with (@None (list Z)).
    change (after_prefix (str "0xc") (48 :: 120 :: 99 :: str "ffff lookup " ++ rest)) with (Some (str "ffff lookup " ++ rest)).
    change (after_prefix (str "0xc") (120 :: 99 :: str "ffff lookup " ++ rest)) with (@None (list Z)).
    change (after_prefix (str "0xc") (99 :: str "ffff lookup " ++ rest)) with (@None (list Z)). cbv iota.
    change (hex_run (str "ffff lookup " ++ rest)) with (str "ffff", str " lookup " ++ rest). cbv iota beta.
    change (str "ffff") with [102; 102; 102; 102]. cbv iota.
    change (after_prefix (str "/0xcffff lookup") (str " lookup " ++ rest)) with (@None (list Z)). cbv iota.
    apply no_x. intro K. apply in_app_or in K as [K|K]; [cbn in K; intuition lia|]. exact (Q K).
Qed.
Lemma strtoul_id : forall ulmax h v, Forall (fun c => 48 <= c <= 57 \/ 97 <= c <= 102) h -> hexadecimal h v -> v <= ulmax -> fst (strtoul ulmax 16 h) = v.
Proof.
  intros ulmax h v F H L. apply hexadecimal_iff in H as [NE NV]. destruct h as [|c s]; [congruence|]. inversion F as [|? ? C F2]; subst. unfold strtoul.
  assert (S1 : skip_spaces (c :: s) = c :: s).
  { simpl. unfold isspace. destruct (Z.leb_spec 9 c), (Z.leb_spec c 13), (Z.eqb_spec c 32); simpl; try reflexivity; lia. }
  rewrite S1.
  replace (match c :: s with 45 :: t => (true, t) | 43 :: t => (false, t) | _ => (false, c :: s) end) with (false, c :: s).
  2:{ destruct c as [|p|p]; try reflexivity. do 6 (destruct p as [p|p|]; try reflexivity; try (exfalso; lia)). }
  replace (match c :: s with 48 :: x :: t => if (16 =? 16) && ((x =? 120) || (x =? 88)) then (t, Some (x :: t)) else (c :: s, None) | _ => (c :: s, @None (list Z)) end)
    with (c :: s, @None (list Z)).
  2:{ destruct (Z.eq_dec c 48) as [->|N].
      - destruct s as [|x t]; [reflexivity|]. inversion F2 as [|? ? X ?]; subst. destruct (Z.eqb_spec x 120); [lia|]. destruct (Z.eqb_spec x 88); [lia|]. reflexivity.
      - destruct c as [|p|p]; try reflexivity. do 6 (destruct p as [p|p|]; try reflexivity). congruence. }
  pose proof (take_digits_all 16 (c :: s) 0 0) as T. rewrite NV in T. rewrite T. cbn [length Nat.add].
  destruct (Z.ltb_spec ulmax v); [lia|]. reflexivity.
Qed.
(** The network that is destroyed is that of the first rule of a network whose name begins with the interface's. *)
Theorem C72_network : forall ulmax iface ns, literal iface -> Forall (fun n => proper_nrule n /\ quiet n) ns ->
  (exists before n after, ns = before ++ n :: after /\ Forall (fun m => ~ begins_with iface (n_name m ++ n_back m)) before /\ begins_with iface (n_name n ++ n_back n) /\
     forall id, hexadecimal (n_id n) id -> id <= ulmax -> destroy_network ulmax iface (map nrule_line ns) = [str "ndc network destroy " ++ print_dec id]) \/
  (Forall (fun m => ~ begins_with iface (n_name m ++ n_back m)) ns /\ destroy_network ulmax iface (map nrule_line ns) = []).
Proof.
  intros ulmax iface ns L F. unfold destroy_network. induction F as [|n ns [P Q] F IH]; [right; split; [constructor|reflexivity]|].
  cbn [map first_netid]. destruct (netid_of iface n L P Q) as [[B ->]|[B ->]].
  - left. exists [], n, ns. split; [reflexivity|]. split; [constructor|]. split; [exact B|]. intros id H U. rewrite strtoul_id with (v := id); [reflexivity|apply P|exact H|exact U].
  - destruct IH as [(before & m & after & -> & X & Y & E)|[X E]].
    + left. exists (n :: before), m, after. repeat split; auto.
    + right. split; [constructor; assumption|exact E].
Qed.

(** ** Endpoints, ports and routes *)
Definition endpoint_text (s : list Z) : Prop := s = str "(none)" \/ (s <> [] /\ hd 0 s <> 40).
(** IPv6 is blocked exactly if some peer has an endpoint and none has an IPv6 endpoint. *)
Theorem C72_block : forall peers, Forall (fun kv => ~ In 9 (fst kv) /\ endpoint_text (snd kv)) peers ->
  should_block_ipv6 (map peer_line peers) = true <->
  (exists kv, In kv peers /\ snd kv <> str "(none)") /\ forall kv, In kv peers -> hd 0 (snd kv) <> 91.
Proof.
  intros peers F. unfold should_block_ipv6.
  assert (G : forall six none, endpoint_kinds (map peer_line peers) six none = true <->
    (none = false \/ exists kv, In kv peers /\ snd kv <> str "(none)") /\ six = false /\ forall kv, In kv peers -> hd 0 (snd kv) <> 91).
  { induction F as [|kv peers [T E] F IH]; intros six none; cbn [map endpoint_kinds].
    - rewrite andb_true_iff, !negb_true_iff. split; [intros [-> ->]; repeat split; auto; intros ? []|]. intros ([-> | (? & [] & _)] & -> & _). auto.
    - unfold peer_line at 1. change (fst kv ++ [9] ++ snd kv ++ [10]) with (fst kv ++ 9 :: (snd kv ++ [10])). rewrite split_first_app by exact T. rewrite IH.
      assert (HD : hd 0 (snd kv ++ [10]) = hd 0 (snd kv)).
      { destruct E as [-> | [NE _]]; [reflexivity|]. destruct (snd kv); [congruence|reflexivity]. }
      rewrite HD. rewrite andb_false_iff, orb_false_iff, Z.eqb_neq, Z.eqb_neq.
      assert (NN : hd 0 (snd kv) <> 40 <-> snd kv <> str "(none)").
      { destruct E as [-> | [NE H]]; [cbn; split; congruence|]. split; [|intros _; exact H]. intros _ K. apply H. rewrite K. reflexivity. }
      rewrite NN. split.
      + intros ([[-> | K]|(w & I & K)] & [-> X] & A); (split; [|split; [reflexivity|intros v [<-|I2]; [exact X|apply A; exact I2]]]).
        * left. reflexivity.
        * right. exists kv. split; [left; reflexivity|exact K].
        * right. exists w. split; [right; exact I|exact K].
      + intros ([-> | (w & [<-|I] & K)] & -> & A); (split; [|split; [split; [reflexivity|apply A; left; reflexivity]|intros v I2; apply A; right; exact I2]]).
        * left. left. reflexivity.
        * left. right. exact K.
        * right. exists w. auto. }
  rewrite G. split; [intros ([C|C] & _ & A); [discriminate|auto]|]. intros [C A]. auto.
Qed.

(** One command for each allowed IP of each peer, in order; none for a peer without. *)
Lemma strtok_line : forall a cur t, ~ In 32 a -> ~ In 10 a -> strtok_routes cur (a ++ 32 :: t) = (match cur ++ a with [] => [] | w => [w] end) ++ strtok_routes [] t.
Proof.
  induction a as [|c a IH]; intros cur t N1 N2; cbn [app strtok_routes].
  - change (32 =? 32) with true. cbn [orb]. rewrite ?app_nil_r. destruct cur; cbn [app strtok_routes]; rewrite ?app_nil_r; reflexivity.
  - destruct (Z.eqb_spec c 32); [exfalso; apply N1; left; auto|]. destruct (Z.eqb_spec c 10); [exfalso; apply N2; left; auto|]. cbn [orb].
    rewrite IH; [|intro K; apply N1; right; exact K|intro K; apply N2; right; exact K]. rewrite <- app_assoc. reflexivity.
Qed.
Lemma strtok_end : forall a cur, ~ In 32 a -> ~ In 10 a -> strtok_routes cur (a ++ [10]) = match cur ++ a with [] => [] | w => [w] end.
Proof.
  induction a as [|c a IH]; intros cur N1 N2; cbn [app strtok_routes].
  - change (10 =? 32) with false. change (10 =? 10) with true. cbn [orb]. rewrite ?app_nil_r. destruct cur; cbn [app strtok_routes]; rewrite ?app_nil_r; reflexivity.
  - destruct (Z.eqb_spec c 32); [exfalso; apply N1; left; auto|]. destruct (Z.eqb_spec c 10); [exfalso; apply N2; left; auto|]. cbn [orb].
    rewrite IH; [|intro K; apply N1; right; exact K|intro K; apply N2; right; exact K]. rewrite <- app_assoc. reflexivity.
Qed.
Definition allowed_value (ips : list (list Z)) : list Z := match ips with [] => str "(none)" | _ => join [32] ips end.
Definition ip_word (w : list Z) : Prop := w <> [] /\ ~ In 32 w /\ ~ In 10 w /\ w <> str "(none)".
Theorem C72_routes : forall iface netid peers, Forall (fun kv => ~ In 9 (fst kv) /\ Forall ip_word (snd kv)) peers ->
  set_routes iface netid (map (fun kv => peer_line (fst kv, allowed_value (snd kv))) peers) =
  map (fun ip => str "ndc network route add " ++ print_dec netid ++ str " " ++ iface ++ str " " ++ ip) (flat_map snd peers).
Proof.
  intros iface netid peers F. unfold set_routes. induction F as [|[k ips] peers [T W] F IH]; [reflexivity|].
  cbn [map flat_map]. rewrite map_app. rewrite IH. f_equal. clear IH F. unfold peer_line. cbn [fst snd] in *. change (k ++ [9] ++ allowed_value ips ++ [10]) with (k ++ 9 :: (allowed_value ips ++ [10])). rewrite split_first_app by exact T. 
  destruct ips as [|w ips]; [reflexivity|]. cbn [allowed_value]. revert w W. induction ips as [|v ips IH]; intros w W; inversion W as [|? ? (NE & N1 & N2 & NN) W1]; subst.
  - cbn [join]. rewrite strtok_end by assumption. cbn [app]. destruct w as [|c w]; [congruence|]. cbn [flat_map map app].
    destruct (beq (c :: w) (str "(none)")) eqn:B; [apply beq_eq in B; congruence|]. reflexivity.
  - rewrite join_cons by discriminate. rewrite <- !app_assoc. cbn [app]. rewrite strtok_line by assumption. cbn [app]. destruct w as [|c w]; [congruence|]. cbn [app flat_map map].
    destruct (beq (c :: w) (str "(none)")) eqn:B; [apply beq_eq in B; congruence|]. cbn [app]. f_equal. apply (IH v). exact W1.
Qed.

(** The MTU of the configuration is taken as it is; otherwise it is 80 less than that of the default route, or 1420. *)
Definition default_mtu (reply : list Z -> list (list Z)) : Z := if get_route_mtu reply (str "default") =? -1 then 1500 else get_route_mtu reply (str "default").
Theorem C72_mtu_given : forall reply iface mtu, 0 < mtu -> set_mtu reply iface mtu = str "ndc interface setmtu " ++ iface ++ str " " ++ print_dec mtu.
Proof. intros reply iface mtu M. unfold set_mtu. destruct (Z.eqb_spec mtu 0); [lia|]. reflexivity. Qed.
Lemma no_endpoint : forall kv, endpoint_of (peer_line kv) = None.
Proof.
  intros [k v]. unfold endpoint_of, peer_line. cbn [fst snd]. destruct (split_last 58 (k ++ [9] ++ v ++ [10])) as [[a port]|] eqn:E; [|reflexivity].
  apply split_last_some in E as [E _].
  assert (P : port = [] \/ exists q, port = q ++ [10]).
  { destruct port as [|c q] using rev_ind; [left; reflexivity|]. right. exists q. f_equal. f_equal.
    replace (k ++ [9] ++ v ++ [10]) with ((k ++ [9] ++ v) ++ [10]) in E by (rewrite <- !app_assoc; reflexivity).
    replace (a ++ 58 :: q ++ [c]) with ((a ++ 58 :: q) ++ [c]) in E by (rewrite <- app_assoc; reflexivity). apply app_inj_tail in E. symmetry. tauto. }
  destruct P as [-> | [q ->]].
  - cbn [forallb beq negb andb]. reflexivity.
  - rewrite forallb_app. cbn [forallb]. change ((48 <=? 10) && (10 <=? 57)) with false. rewrite andb_false_r. reflexivity.
Qed.
(** The routes to the endpoints are never looked at, although the code is meant to: the pattern is matched against the whole line, key, tab and newline included. *)
Theorem C72_endpoint_mtu_refuted : forall reply iface peers, reply (str "wg show " ++ iface ++ str " endpoints") = map peer_line peers ->
  set_mtu reply iface 0 = str "ndc interface setmtu " ++ iface ++ str " " ++ print_int (s32 (default_mtu reply - 80)).
Proof.
  intros reply iface peers E. unfold set_mtu. rewrite E. change (negb (0 =? 0)) with false. cbv iota zeta. fold (default_mtu reply).
  assert (K : forall m, least_mtu reply (map peer_line peers) m = m).
  { clear E. intro m. induction peers as [|kv peers IH]; [reflexivity|]. cbn [map least_mtu]. rewrite no_endpoint. exact IH. }
  rewrite K. reflexivity.
Qed.

(** ** Numbers found in the output *)
Lemma take_digits_stop : forall base c t, digit_in base c = None -> forall s acc n v, num_value base acc s = Some v ->
  take_digits base acc n (s ++ c :: t) = (v, (n + length s)%nat, c :: t).
Proof.
  intros base c t N. induction s as [|d s IH]; intros acc n v H; cbn [num_value app take_digits length] in *.
  - rewrite N. rewrite Nat.add_0_r. congruence.
  - destruct (digit_in base d); [|discriminate]. rewrite (IH _ _ _ H). do 2 f_equal. lia.
Qed.
Lemma decimal_digits : forall d v, decimal d v -> Forall (fun c => 48 <= c <= 57) d.
Proof.
  intros d v H. induction H as [c v H|s n c v H IH D].
  - constructor; [apply H|constructor].
  - apply Forall_app. split; [exact IH|constructor; [apply D|constructor]].
Qed.
(** The port is that which "wg show IFACE listen-port" prints in its first line; without output, and for 0, there is none. *)
Theorem C72_port : forall ulmax d p more, 65535 < ulmax -> decimal d p ->
  listen_port ulmax ((d ++ [10]) :: more) = (if p <=? 65535 then p else 0) /\ listen_port ulmax [] = 0.
Proof.
  intros ulmax d p more U D. split; [|reflexivity]. unfold listen_port.
  pose proof (decimal_digits _ _ D) as F. pose proof (decimal_nonneg _ _ D) as NN. apply decimal_iff in D as [NE NV]. destruct d as [|c s]; [congruence|]. inversion F as [|? ? C F2]; subst.
  assert (S : fst (strtoul ulmax 10 ((c :: s) ++ [10])) = if ulmax <? p then ulmax else p).
  { unfold strtoul.
    assert (S1 : skip_spaces ((c :: s) ++ [10]) = (c :: s) ++ [10]).
    { simpl. unfold isspace. destruct (Z.leb_spec 9 c), (Z.leb_spec c 13), (Z.eqb_spec c 32); simpl; try reflexivity; lia. }
    rewrite S1. cbn [app].
    replace (match c :: s ++ [10] with 45 :: t => (true, t) | 43 :: t => (false, t) | _ => (false, c :: s ++ [10]) end) with (false, c :: s ++ [10]).
    2:{ destruct c as [|q|q]; try reflexivity. do 6 (destruct q as [q|q|]; try reflexivity; try (exfalso; lia)). }
    replace (match c :: s ++ [10] with 48 :: x :: t => if (10 =? 16) && ((x =? 120) || (x =? 88)) then (t, Some (x :: t)) else (c :: s ++ [10], None) | _ => (c :: s ++ [10], @None (list Z)) end)
      with (c :: s ++ [10], @None (list Z)).
    2:{ destruct (s ++ [10]); destruct c as [|q|q]; try reflexivity. all: do 6 (destruct q as [q|q|]; try reflexivity). }
    change (c :: s ++ [10]) with ((c :: s) ++ [10]). rewrite (take_digits_stop 10 10 []) with (v := p); [|rewrite digit_in_10; reflexivity|exact NV].
    cbn [length Nat.add]. destruct (ulmax <? p); reflexivity. }
  rewrite S. destruct (Z.ltb_spec ulmax p) as [K|K].
  - destruct (Z.leb_spec p 65535); [lia|]. destruct (Z.ltb_spec 65535 ulmax); cbn [orb]; [reflexivity|lia].
  - destruct (Z.ltb_spec 65535 p), (Z.leb_spec p 65535), (Z.eqb_spec p 0); cbn [orb]; lia || reflexivity.
Qed.

(** The MTU of a route: that which the route itself has, or else that of its device. *)
Definition before_mtu (a : list Z) : Prop := forall x y, a ++ str "mtu" <> x ++ str "mtu " ++ y.
Lemma digit_run_app : forall d t, Forall (fun c => 48 <= c <= 57) d -> (match t with [] => True | c :: _ => ~ 48 <= c <= 57 end) -> digit_run (d ++ t) = d.
Proof.
  induction d as [|c d IH]; intros t F T; cbn [app].
  - destruct t as [|c t]; [reflexivity|]. cbn [digit_run]. destruct (Z.leb_spec 48 c), (Z.leb_spec c 57); cbn [andb]; reflexivity || lia.
  - inversion F as [|? ? C F2]; subst. cbn [digit_run]. destruct (Z.leb_spec 48 c), (Z.leb_spec c 57); cbn [andb]; try lia. f_equal. apply IH; assumption.
Qed.
Lemma mtu_in_found : forall a d t, before_mtu a -> d <> [] -> Forall (fun c => 48 <= c <= 57) d -> (match t with [] => True | c :: _ => ~ 48 <= c <= 57 end) ->
  mtu_in (a ++ str "mtu " ++ d ++ t) = Some d.
Proof.
  induction a as [|c a IH]; intros d t B NE F T.
  - change ([] ++ str "mtu " ++ d ++ t) with (109 :: 116 :: 117 :: 32 :: (d ++ t)). cbn [mtu_in]. 
    change (after_prefix (str "mtu ") (109 :: 116 :: 117 :: 32 :: (d ++ t))) with (Some (d ++ t)). cbv iota. rewrite digit_run_app by assumption. destruct d; [congruence|reflexivity].
  - cbn [app]. cbn [mtu_in]. destruct (after_prefix (str "mtu ") (c :: a ++ str "mtu " ++ d ++ t)) as [r|] eqn:E.
    + exfalso. apply after_prefix_some in E.
      assert (K : exists y, (c :: a) ++ str "mtu" = str "mtu " ++ y).
      { destruct a as [|a1 [|a2 a]]; cbn [app] in *; try (cbn in E; congruence).
        change (str "mtu ") with [109; 116; 117; 32]. change (str "mtu") with [109; 116; 117]. change (str "mtu ") with [109; 116; 117; 32] in E. cbn [app] in E.
        destruct a as [|a3 a]; cbn [app] in E; [congruence|]. exists (a ++ [109; 116; 117]). cbn [app]. congruence. }
      destruct K as [y K]. apply (B [] y). exact K.
    + apply IH; try assumption. intros x y K. apply (B (c :: x) y). cbn [app]. rewrite K. reflexivity.
Qed.
Lemma atoi_decimal : forall d v, decimal d v -> v < 2 ^ 31 -> atoi d = v.
Proof.
  intros d v D L. pose proof (decimal_nonneg _ _ D) as NN. pose proof (decimal_digits _ _ D) as F. apply decimal_iff in D as [NE NV]. unfold atoi.
  destruct d as [|c s]; [congruence|]. inversion F as [|? ? C F2]; subst.
  unfold strtoll.
  assert (S1 : skip_spaces (c :: s) = c :: s).
  { simpl. unfold isspace. destruct (Z.leb_spec 9 c), (Z.leb_spec c 13), (Z.eqb_spec c 32); simpl; try reflexivity; lia. }
  rewrite S1.
  replace (match c :: s with 45 :: t => (true, t) | 43 :: t => (false, t) | _ => (false, c :: s) end) with (false, c :: s).
  2:{ destruct c as [|p|p]; try reflexivity. do 6 (destruct p as [p|p|]; try reflexivity; try (exfalso; lia)). }
  pose proof (take_digits_all 10 (c :: s) 0 0) as T. rewrite NV in T. rewrite T. cbn [length Nat.add fst].
  assert (P : 2 ^ 31 < 2 ^ 63 - 1) by reflexivity. rewrite Z.min_l by lia. unfold s32, u32. assert (P2 : 2 ^ 31 < 2 ^ 32) by reflexivity. rewrite Z.mod_small by lia.
  destruct (Z.ltb_spec v (2 ^ 31)); lia.
Qed.
Definition with_mtu (l : list Z) (v : Z) : Prop := exists a d t, l = a ++ str "mtu " ++ d ++ t /\ before_mtu a /\ decimal d v /\ (match t with [] => True | c :: _ => ~ 48 <= c <= 57 end).
Lemma with_mtu_in : forall l v, with_mtu l v -> v < 2 ^ 31 -> exists d, mtu_in l = Some d /\ atoi d = v.
Proof.
  intros l v (a & d & t & -> & B & D & T) L. exists d. split; [|apply atoi_decimal; assumption].
  apply mtu_in_found; [exact B| |apply (decimal_digits _ _ D)|exact T]. apply decimal_iff in D. tauto.
Qed.
Lemma word_run_app : forall w t, ~ In 32 w -> word_run (w ++ 32 :: t) = w.
Proof.
  induction w as [|c w IH]; intros t N; [reflexivity|]. cbn [app word_run]. destruct (Z.eqb_spec c 32) as [K|_]; [exfalso; apply N; left; exact K|].
  f_equal. apply IH. intro K. apply N. right. exact K.
Qed.
Lemma dev_in_found : forall a w t, (forall x y, a ++ str "dev" <> x ++ str "dev " ++ y) -> w <> [] -> ~ In 32 w -> dev_in (a ++ str "dev " ++ w ++ 32 :: t) = Some w.
Proof.
  induction a as [|c a IH]; intros w t B NE N.
  - change ([] ++ str "dev " ++ w ++ 32 :: t) with (100 :: 101 :: 118 :: 32 :: (w ++ 32 :: t)). cbn [dev_in].
    change (after_prefix (str "dev ") (100 :: 101 :: 118 :: 32 :: (w ++ 32 :: t))) with (Some (w ++ 32 :: t)). cbv iota. rewrite word_run_app by exact N. destruct w; [congruence|reflexivity].
  - cbn [app]. cbn [dev_in]. destruct (after_prefix (str "dev ") (c :: a ++ str "dev " ++ w ++ 32 :: t)) as [r|] eqn:E.
    + exfalso. apply after_prefix_some in E.
      assert (K : exists y, (c :: a) ++ str "dev" = str "dev " ++ y).
      { destruct a as [|a1 [|a2 a]]; cbn [app] in *; try (cbn in E; congruence).
        change (str "dev ") with [100; 101; 118; 32]. change (str "dev") with [100; 101; 118]. change (str "dev ") with [100; 101; 118; 32] in E. cbn [app] in E.
        destruct a as [|a3 a]; cbn [app] in E; [congruence|]. exists (a ++ [100; 101; 118]). cbn [app]. congruence. }
      destruct K as [y K]. apply (B [] y). exact K.
    + apply IH; try assumption. intros x y K. apply (B (c :: x) y). cbn [app]. rewrite K. reflexivity.
Qed.
Lemma no_mtu : forall l, (forall x y, l <> x ++ str "mtu " ++ y) -> mtu_in l = None.
Proof.
  induction l as [|c l IH]; intro N; [reflexivity|]. cbn [mtu_in]. destruct (after_prefix (str "mtu ") (c :: l)) as [r|] eqn:E.
  - exfalso. apply after_prefix_some in E. exact (N [] r E).
  - apply IH. intros x y K. apply (N (c :: x) y). rewrite K. reflexivity.
Qed.
Theorem C72_default_mtu : forall reply iface route v peers,
  (exists more, reply (str "ip -o route show default") = route :: more) -> v < 2 ^ 31 -> reply (str "wg show " ++ iface ++ str " endpoints") = map peer_line peers -> 80 <= v ->
  (with_mtu route v \/
   ((forall x y, route <> x ++ str "mtu " ++ y) /\ exists a w t link more, route = a ++ str "dev " ++ w ++ 32 :: t /\ (forall x y, a ++ str "dev" <> x ++ str "dev " ++ y) /\ w <> [] /\ ~ In 32 w /\
      reply (str "ip -o link show dev " ++ w) = link :: more /\ with_mtu link v)) ->
  set_mtu reply iface 0 = str "ndc interface setmtu " ++ iface ++ str " " ++ print_dec (v - 80).
Proof.
  intros reply iface route v peers [more R] L NP G H.
  assert (K : get_route_mtu reply (str "default") = v).
  { unfold get_route_mtu. change (beq (str "default") (str "default")) with true. cbv iota. change (str "ip -o route show " ++ str "default") with (str "ip -o route show default"). rewrite R.
    destruct H as [W|(NM & a & w & t & link & more2 & -> & B & NE & N & RL & W)].
    - apply with_mtu_in in W as (d & -> & A); [exact A|exact L].
    - rewrite (no_mtu _ NM), dev_in_found by assumption. rewrite RL. apply with_mtu_in in W as (d & -> & A); [exact A|exact L]. }
  rewrite (C72_endpoint_mtu_refuted reply iface peers NP). unfold default_mtu. rewrite K. destruct (Z.eqb_spec v (-1)); [lia|].
  assert (P2 : 2 ^ 31 < 2 ^ 32) by reflexivity. unfold s32, u32. rewrite Z.mod_small by lia. destruct (Z.ltb_spec (v - 80) (2 ^ 31)); [|lia].
  unfold print_int. destruct (Z.ltb_spec (v - 80) 0); [lia|]. reflexivity.
Qed.

(** Concrete cases. *)
Definition nl (s : list Z) : list Z := s ++ [10].
Theorem C72_rules_case : delete_rules (str "iptables") (str "home")
  (map nl [str "-P INPUT ACCEPT"; str "-A OUTPUT ! -o home -m comment --comment ""wireguard rule home"" -j DROP"; str "-A INPUT -m comment --comment ""wireguard rule home2"" -j DROP"]) =
  [str "iptables -D OUTPUT ! -o home -m comment --comment ""wireguard rule home"" -j DROP"].
Proof. vm_compute. reflexivity. Qed.
Theorem C72_network_case : exists ns, map nrule_line ns = [str "13000:	from all fwmark 0xc0064/0xcffff lookup wlan0"; str "13000:	from all fwmark 0xc0065/0xcffff lookup home"] /\
  Forall (fun n => proper_nrule n /\ quiet n) ns /\ destroy_network (2 ^ 64 - 1) (str "home") (map nrule_line ns) = [str "ndc network destroy 101"].
Proof.
  exists [mk_nrule (str "13000:	from all fwmark ") (str "0064") (str "wlan0") []; mk_nrule (str "13000:	from all fwmark ") (str "0065") (str "home") []].
  assert (N : forall s, existsb (Z.eqb 120) s = false -> ~ In 120 s) by (intros s H K; enough (existsb (Z.eqb 120) s = true) by congruence; apply existsb_exists; exists 120; auto).
  split; [reflexivity|]. split; [|vm_compute; reflexivity].
  repeat constructor; cbn [n_front n_id n_name n_back]; try (apply N; reflexivity); try discriminate; try (vm_compute; left; split; discriminate).
Qed.
Theorem C72_block_case :
  should_block_ipv6 (map peer_line [(str "AAAA", str "192.0.2.1:51820"); (str "BBBB", str "(none)")]) = true /\
  should_block_ipv6 (map peer_line [(str "AAAA", str "192.0.2.1:51820"); (str "BBBB", str "[2001:db8::1]:51820")]) = false /\
  should_block_ipv6 (map peer_line [(str "AAAA", str "(none)")]) = false.
Proof. vm_compute. auto. Qed.
Theorem C72_routes_case : set_routes (str "home") 101 (map peer_line [(str "AAAA", str "10.0.0.0/8 fd00::/8"); (str "BBBB", str "(none)"); (str "CCCC", str "0.0.0.0/0")]) =
  [str "ndc network route add 101 home 10.0.0.0/8"; str "ndc network route add 101 home fd00::/8"; str "ndc network route add 101 home 0.0.0.0/0"].
Proof. vm_compute. reflexivity. Qed.
Definition phone (c : list Z) : list (list Z) :=
  if beq c (str "ip -o route show default") then [nl (str "default via 10.1.1.1 dev wlan0 proto static")]
  else if beq c (str "ip -o link show dev wlan0") then [nl (str "3: wlan0: <UP> mtu 1400 qdisc fq")]
  else if beq c (str "ip -o route get 192.0.2.1") then [nl (str "192.0.2.1 via 10.1.1.1 dev wlan0 mtu 1280")]
  else if beq c (str "wg show home endpoints") then [peer_line (str "AAAA", str "192.0.2.1:51820")]
  else [].
(** The route to the endpoint has an MTU of 1280, but 1400 - 80 is set. *)
Theorem C72_mtu_case : set_mtu phone (str "home") 0 = str "ndc interface setmtu home 1320" /\ set_mtu phone (str "home") 1420 = str "ndc interface setmtu home 1420".
Proof. vm_compute. auto. Qed.
Theorem C72_port_case : listen_port (2 ^ 64 - 1) [nl (str "51820")] = 51820 /\ listen_port (2 ^ 64 - 1) [nl (str "0")] = 0.
Proof. vm_compute. auto. Qed.
(** "." in a name stands for any character: the rules of another interface are deleted. *)
Theorem C72_dot_refuted : delete_rules (str "iptables") (str "wg.0") (map nl [str "-A INPUT --comment ""wireguard rule wg10"" -j DROP"]) =
  [str "iptables -D INPUT --comment ""wireguard rule wg10"" -j DROP"] /\ ~ added_for (str "wg.0") (str "INPUT --comment ""wireguard rule wg10"" -j DROP").
Proof.
  split; [vm_compute; reflexivity|]. intros (a & b & E).
  assert (I : In 46 (a ++ str " --comment ""wireguard rule " ++ str "wg.0" ++ str """" ++ b)) by (apply in_or_app; right; apply in_or_app; right; right; right; left; reflexivity).
  rewrite <- E in I. vm_compute in I. repeat (destruct I as [I|I]; [discriminate I|]). exact I.
Qed.
(** The network of an interface whose name only begins with this one's is destroyed. *)
Theorem C72_prefix_refuted : destroy_network (2 ^ 64 - 1) (str "wg0") [nl (str "13000:	from all fwmark 0xc0065/0xcffff lookup wg01")] = [str "ndc network destroy 101"].
Proof. vm_compute. reflexivity. Qed.

Print Assumptions C72_rules.
Print Assumptions C72_network.
Print Assumptions C72_block.
Print Assumptions C72_routes.
Print Assumptions C72_mtu_given.
Print Assumptions C72_default_mtu.
Print Assumptions C72_port.
Print Assumptions C72_endpoint_mtu_refuted.
Print Assumptions C72_dot_refuted.
Print Assumptions C72_prefix_refuted.
