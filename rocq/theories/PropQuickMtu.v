(** C47: the MTU 'wg-quick up' gives the interface (set_mtu_up of linux.bash). *)
From Coq Require Import String ZArith List Bool Lia.
From Verif Require Import Base Cstr CstrProofs Inet InetProofs Types Uapi Show ShowSpec TextProofs ShowProofs ShowProofs2 Encoding EncodingSpec EncodingProofs
  Bash Quick QuickSpec QuickProofs QuickRun QuickRunSpec QuickRunProofs QuickUpProofs QuickRouteSpec QuickRouteProofs QuickMtuSpec PropQuickUp.
Import ListNotations.
Open Scope Z_scope.

Section Field.
Variable p : list Z.
Variable f : Z -> bool.
Variable F : Z -> Prop.
Hypothesis fF : forall c, f c = true <-> F c.

Lemma take_while_spec : forall s, exists b, s = take_while f s ++ b /\ Forall F (take_while f s) /\ (forall c b', b = c :: b' -> ~ F c).
Proof.
  induction s as [|c s (b & E & A & N)]; cbn [take_while]; [exists []; repeat split; [constructor|discriminate]|].
  destruct (f c) eqn:H.
  - exists b. cbn [app]. rewrite <- E. split; [reflexivity|]. split; [constructor; [apply fF, H|exact A]|exact N].
  - exists (c :: s). split; [reflexivity|]. split; [constructor|]. intros x b' Eb. injection Eb as <- <-. rewrite <- fF. congruence.
Qed.
Lemma find_field_spec : forall s, match find_field p f s with Some v => field p F s v | None => forall a c b, s = a ++ p ++ c :: b -> ~ F c end.
Proof.
  assert (Step : forall s, (forall r, strip_prefix p s = Some r -> take_while f r = []) ->
            match (match s with [] => None | _ :: s' => find_field p f s' end) with Some v => field p F s v | None => forall a c b, s = a ++ p ++ c :: b -> ~ F c end ->
            match (match s with [] => None | _ :: s' => find_field p f s' end) with Some v => field p F s v | None => forall a c b, s = a ++ p ++ c :: b -> ~ F c end) by auto.
  assert (No0 : forall s c b, (forall r, strip_prefix p s = Some r -> take_while f r = []) -> s = p ++ c :: b -> ~ F c).
  { intros s c b H -> Fc. specialize (H (c :: b)). rewrite strip_prefix_some in H. specialize (H eq_refl). cbn [take_while] in H.
    apply fF in Fc. rewrite Fc in H. discriminate. }
  assert (Rec : forall x s, (forall r, strip_prefix p (x :: s) = Some r -> take_while f r = []) ->
            match find_field p f s with Some v => field p F s v | None => forall a c b, s = a ++ p ++ c :: b -> ~ F c end ->
            match find_field p f s with Some v => field p F (x :: s) v | None => forall a c b, x :: s = a ++ p ++ c :: b -> ~ F c end).
  { intros x s H IH. destruct (find_field p f s) as [v|].
    - destruct IH as (a & b & -> & Nv & Fv & Nb & Min). exists (x :: a), b. split; [reflexivity|]. split; [exact Nv|]. split; [exact Fv|]. split; [exact Nb|].
      intros [|y a'] c b' E Fc.
      + exfalso. exact (No0 _ c b' H E Fc).
      + cbn [app] in E. injection E as _ E. cbn [length]. apply le_n_S, (Min a' c b' E Fc).
    - intros [|y a'] c b' E.
      + exact (No0 _ c b' H E).
      + cbn [app] in E. injection E as _ E. exact (IH _ _ _ E). }
  induction s as [|x s IH]; cbn [find_field].
  - destruct (strip_prefix p []) as [r|] eqn:E.
    + destruct (take_while f r) as [|y v] eqn:T.
      * intros a c b Es. destruct a as [|y a]; [|discriminate]. apply (No0 [] c b); [|exact Es]. intros r' E'. congruence.
      * exfalso. apply strip_prefix_some in E. symmetry in E. apply app_eq_nil in E as [_ ->]. discriminate.
    + intros a c b Es. destruct a as [|y a]; [|discriminate]. exfalso. cbn [app] in Es. assert (X : strip_prefix p [] = Some (c :: b)) by (apply strip_prefix_some, Es). congruence.
  - destruct (strip_prefix p (x :: s)) as [r|] eqn:E.
    + destruct (take_while f r) as [|y v] eqn:T.
      * apply Rec; [|exact IH]. intros r' E'. congruence.
      * apply strip_prefix_some in E. destruct (take_while_spec r) as (b & Er & A & N). rewrite T in *. exists [], b. rewrite E. split; [cbn [app]; rewrite Er at 1; reflexivity|].
        split; [discriminate|]. split; [exact A|]. split; [exact N|]. intros. cbn [length]. lia.
    + apply Rec; [|exact IH]. intros r' E'. congruence.
Qed.
End Field.

Lemma digit_iff : forall c, digit c = true <-> 48 <= c <= 57.
Proof. intro c. unfold digit. lia. Qed.
Lemma notspace_iff : forall c, negb (c =? 32) = true <-> c <> 32.
Proof. intro c. rewrite negb_true_iff, Z.eqb_neq. reflexivity. Qed.
Lemma take_digits_fold : forall d acc n, Forall (fun c => 48 <= c <= 57) d -> fst (fst (take_digits 10 acc n d)) = fold_left (fun v c => v * 10 + (c - 48)) d acc.
Proof.
  induction d as [|c d IH]; intros acc n H; [reflexivity|]. inversion H; subst. cbn [take_digits fold_left].
  assert (E : digit_in 10 c = Some (c - 48)).
  { unfold digit_in. replace ((48 <=? c) && (c <=? 57)) with true by lia. cbv iota beta zeta. replace (c - 48 <? 10) with true by lia. reflexivity. }
  rewrite E. rewrite IH by assumption. reflexivity.
Qed.
Lemma fold_nonneg : forall d acc, Forall (fun c => 48 <= c <= 57) d -> 0 <= acc -> 0 <= fold_left (fun v c => v * 10 + (c - 48)) d acc.
Proof. induction d as [|c d IH]; intros acc H Ha; [exact Ha|]. inversion H; subst. cbn [fold_left]. apply IH; [assumption|lia]. Qed.
Lemma mtu_field_spec : forall s, match mtu_field s with Some n => names_mtu s n /\ 0 <= n | None => forall k, ~ names_mtu s k end.
Proof.
  intro s. unfold mtu_field. pose proof (find_field_spec (str "mtu ") digit _ digit_iff s) as H. destruct (find_field _ digit s) as [d|].
  - pose proof H as (a & b & _ & _ & A & _). unfold number. rewrite take_digits_fold by exact A. split; [|apply fold_nonneg; [exact A|lia]]. exists d. split; [exact H|]. split; [exact A|reflexivity].
  - intros k (d & (a & b & E & N & A & _) & _). destruct d as [|c d]; [contradiction|]. inversion A; subst. apply (H a c (d ++ b)); [reflexivity|assumption].
Qed.
Lemma dev_field_spec : forall s, match dev_field s with Some d => names_dev s d | None => forall d, ~ names_dev s d end.
Proof.
  intro s. unfold dev_field. pose proof (find_field_spec (str "dev ") _ _ notspace_iff s) as H. destruct (find_field _ _ s) as [d|]; [exact H|].
  intros d (a & b & E & N & A & _). destruct d as [|c d]; [contradiction|]. inversion A; subst. apply (H a c (d ++ b)); [reflexivity|assumption].
Qed.

Section Mtu.
Variable sys : system.
Definition or_0 (m : option Z) : Z := match m with Some n => n | None => 0 end.
Lemma route_mtu_value : forall out, good any (route_mtu sys out) (fun m h => route_says out h (or_0 m) /\ 0 <= or_0 m).
Proof.
  intro out. unfold route_mtu. pose proof (mtu_field_spec out) as M. destruct (mtu_field out) as [n|].
  - apply good_ret. split; [constructor|]; apply M.
  - pose proof (dev_field_spec out) as D. destruct (dev_field out) as [d|].
    + eapply good_bind; [apply query_good; split; [exact I|reflexivity]|]. cbn beta. intros l h (a & -> & ->). apply good_ret. cbn [app].
      pose proof (mtu_field_spec (captured (a_output a))) as L. destruct (mtu_field (captured (a_output a))) as [n|]; cbn [or_0].
      * split; [|apply L]. apply rs_dev; [exact M|exact D|left; apply L].
      * split; [|lia]. apply rs_dev; [exact M|exact D|right; auto].
    + apply good_ret. split; [constructor; assumption|cbn; lia].
Qed.
Lemma larger_max : forall mtu m, 0 <= mtu -> 0 <= or_0 m -> larger mtu m = Z.max mtu (or_0 m).
Proof. intros mtu [n|] H1 H2; cbn [larger or_0] in *; [destruct (Z.ltb_spec mtu n)|]; lia. Qed.

Definition hosts (lines : list (list Z)) : list (list Z) := flat_map (fun l => match endpoint_host (second_field l) with Some h => [h] | None => [] end) lines.
Lemma endpoints_mtu_value : forall lines mtu, 0 <= mtu -> good any (endpoints_mtu sys lines mtu) (fun v h => exists m, routes_say (hosts lines) h m /\ 0 <= m /\ v = Z.max mtu m).
Proof.
  induction lines as [|l lines IH]; intros mtu Hm; cbn [endpoints_mtu hosts flat_map].
  - apply good_ret. exists 0. split; [constructor|]. lia.
  - fold (hosts lines). destruct (endpoint_host (second_field l)) as [x|]; [|apply IH, Hm]. cbn [app].
    eapply good_bind; [apply query_good; split; [exact I|reflexivity]|]. cbn beta. intros out h (a & -> & ->).
    eapply good_bind; [apply route_mtu_value|]. cbn beta. intros m h1 (H1 & Hn).
    eapply good_conseq; [apply IH; rewrite larger_max by assumption; lia|]. cbn beta. intros v h2 _ (m2 & H2 & Hm2 & ->).
    exists (Z.max (or_0 m) m2). split; [apply (rss_cons x (hosts lines) a h1 (or_0 m) h2 m2); assumption|]. split; [lia|]. rewrite larger_max by assumption. lia.
Qed.

Lemma first_line_spec : forall out, first_line out (trim blankb (before 10 (no_nul out))).
Proof.
  intro out. unfold first_line, before. destruct (split_first 10 (no_nul out)) as [[a b]|] eqn:E.
  - apply split_first_some in E as [E N]. exists a, (10 :: b). split; [exact E|]. split; [exact N|]. split; [right; eauto|]. apply (trimmed_iff blankb blank blankb_blank). reflexivity.
  - apply split_first_none in E. exists (no_nul out), []. split; [symmetry; apply app_nil_r|]. split; [exact E|]. split; [left; reflexivity|].
    apply (trimmed_iff blankb blank blankb_blank). reflexivity.
Qed.
End Mtu.

(** The hosts found in "wg show INTERFACE endpoints". *)
Lemma host_chars : forall s, Forall TextProofs.addr_char s -> forallb host_char s = true.
Proof.
  intros s H. apply forallb_forall. intros c Hc. rewrite Forall_forall in H. specialize (H c Hc). unfold TextProofs.addr_char in H. unfold host_char, digit. lia.
Qed.
Lemma dec_port : forall p, 0 <= p -> forallb digit (print_dec p) && negb (beq (print_dec p) []) = true.
Proof.
  intros p P. assert (D : forallb digit (print_dec p) = true).
  { apply forallb_forall. intros c Hc. pose proof (print_dec_digits _ P) as Q. rewrite Forall_forall in Q. specialize (Q c Hc). cbv beta in Q. unfold digit. lia. }
  rewrite D. cbn [andb]. destruct (beq (print_dec p) []) eqn:E; [|reflexivity]. apply beq_eq in E.
  pose proof (print_dec_value _ P) as Q. rewrite E in Q. cbn in Q. injection Q as Q. unfold print_dec in E. rewrite <- Q in E. discriminate.
Qed.
Lemma dec_no_colon : forall p, 0 <= p -> ~ In 58 (print_dec p).
Proof. intros p P Hi. pose proof (print_dec_digits _ P) as Q. rewrite Forall_forall in Q. specialize (Q _ Hi). cbv beta in Q. lia. Qed.

Lemma not_91 : forall x (t z : list Z), x <> 91 -> match x :: t with 91 :: t' => t' | _ => z end = z.
Proof. intros x t z N. destruct x as [|q|q]; try reflexivity. do 7 (try (destruct q as [q|q|]; try reflexivity)). contradiction. Qed.
Lemma not_93 : forall x (t z : list Z), x <> 93 -> match x :: t with 93 :: t' => rev t' | _ => z end = z.
Proof. intros x t z N. destruct x as [|q|q]; try reflexivity. do 7 (try (destruct q as [q|q|]; try reflexivity)). contradiction. Qed.
Lemma host_of_endpoint : forall E ep, wf_endpoint ep -> ep <> EpNone ->
  if scopeless ep then exists h, endpoint_host (endpoint_str E ep) = Some h /\ names_host h ep else endpoint_host (endpoint_str E ep) = None.
Proof.
  intros E [|a p|a p f s] W N; [contradiction| |]; cbn [scopeless wf_endpoint] in *.
  - destruct W as (L & B & P). exists (inet_ntop4 a). split; [|cbn [names_host]; apply inet4_roundtrip; split; assumption].
    unfold endpoint_str, endpoint_host. cbn [nameinfo andb]. rewrite split_last_app by (apply dec_no_colon; lia).
    assert (A : Forall TextProofs.addr_char (inet_ntop4 a)) by (apply ntop4_addr, B). assert (Ne : inet_ntop4 a <> []) by (apply ntop4_ne; split; assumption).
    assert (E1 : match inet_ntop4 a with 91 :: t => t | _ => inet_ntop4 a end = inet_ntop4 a).
    { destruct (inet_ntop4 a) as [|x t]; [contradiction|]. inversion A; subst. unfold TextProofs.addr_char in H1. apply not_91. lia. }
    rewrite E1. destruct (exists_last Ne) as (v & y & Ey).
    assert (Ny : y <> 93). { intros ->. rewrite Ey in A. apply Forall_app in A as [_ A]. inversion A; subst. unfold TextProofs.addr_char in *. lia. }
    assert (E2 : match rev (inet_ntop4 a) with 93 :: t => rev t | _ => inet_ntop4 a end = inet_ntop4 a).
    { rewrite Ey at 1. rewrite rev_app_distr. cbn [rev app]. apply not_93, Ny. }
    rewrite E2. rewrite dec_port by lia. rewrite host_chars by exact A. apply beq_neq in Ne. rewrite Ne. reflexivity.
  - destruct W as (L & B & P & _). assert (Ba : bytes_n 16 a) by (split; assumption).
    assert (Hc : has_char 58 (inet_ntop6 a ++ (if s =? 0 then [] else 37 :: se_scope E a s)) = true) by (apply has_char_In, in_app_iff; left; apply ntop6_colon_in, Ba).
    assert (A : Forall TextProofs.addr_char (inet_ntop6 a)) by (apply ntop6_chars, B).
    unfold endpoint_str, endpoint_host. cbn [nameinfo andb]. rewrite Hc. cbv iota.
    set (h := inet_ntop6 a ++ (if s =? 0 then [] else 37 :: se_scope E a s)) in *.
    change (91 :: h ++ 93 :: 58 :: print_dec p) with ((91 :: h) ++ [93] ++ 58 :: print_dec p). rewrite app_assoc, split_last_app by (apply dec_no_colon; lia).
    cbn [app]. rewrite rev_app_distr. cbn [rev app]. rewrite rev_involutive. rewrite dec_port by lia.
    destruct (Z.eqb_spec s 0) as [->|Ns].
    + assert (Eh : h = inet_ntop6 a) by (unfold h; cbn; apply app_nil_r). exists h. rewrite Eh. rewrite host_chars by exact A.
      assert (Ne : inet_ntop6 a <> []) by (intro X; pose proof (ntop6_colon_in a Ba) as Hi; rewrite X in Hi; destruct Hi).
      apply beq_neq in Ne. rewrite Ne. split; [reflexivity|]. cbn [names_host]. apply inet6_roundtrip, Ba.
    + assert (Eh : forallb host_char h = false).
      { destruct (forallb host_char h) eqn:X; [|reflexivity]. rewrite forallb_forall in X. specialize (X 37). unfold h in X. assert (K : host_char 37 = true); [|discriminate].
        apply X, in_or_app. right. left. reflexivity. }
      rewrite Eh. reflexivity.
Qed.

(** The second column of a table wg prints for the peers. *)
Lemma second_column : forall (v : peer -> list Z) ps, Forall wf_peer ps -> (forall p, In p ps -> visible (v p) /\ v p <> []) ->
  map second_field (read_complete (unlines (map (fun p => rfc4648 (p_pub p) ++ 9 :: v p) ps))) = map v ps.
Proof.
  intros v ps W V.
  assert (K : Forall (fun p => visible (rfc4648 (p_pub p)) /\ rfc4648 (p_pub p) <> []) ps).
  { eapply Forall_impl; [|exact W]. intros p (Hk & _). split; [apply key_visible, Hk|]. destruct Hk as [L _]. destruct (p_pub p) as [|a [|b [|c k]]]; discriminate. }
  rewrite Forall_forall in K. rewrite read_complete_unlines.
  - rewrite !map_map. apply map_ext_in. intros p Hp. destruct (K p Hp) as (Kv & Kn). destruct (V p Hp) as (Vv & Vn).
    destruct (visible_token _ Kn Kv) as [_ Kt]. destruct (visible_token _ Vn Vv) as [_ Vt].
    assert (B : forall c, ifsb c = false -> blankb c = false) by (intros c Hc; unfold ifsb in Hc; apply orb_false_iff in Hc; apply Hc).
    destruct (last_split _ Vn) as (w & y & Ey).
    rewrite (trim_id _ (hd 0 (rfc4648 (p_pub p))) y (tl (rfc4648 (p_pub p)) ++ 9 :: v p) (rfc4648 (p_pub p) ++ 9 :: w)).
    + apply second_field_tab; [split; assumption|]. destruct (v p) as [|x u]; [contradiction|]. inversion Vt; subst. exists x, u. split; [reflexivity|]. apply B. assumption.
    + destruct (rfc4648 (p_pub p)); [contradiction|reflexivity].
    + rewrite <- app_assoc. cbn [app]. rewrite Ey. reflexivity.
    + destruct (rfc4648 (p_pub p)) as [|c k]; [contradiction|]. inversion Kt; subst. cbn [hd]. apply B. assumption.
    + rewrite Ey in Vt. apply Forall_app in Vt as [_ Vt]. inversion Vt; subst. apply B. assumption.
  - apply Forall_forall. intros l Hl. apply in_map_iff in Hl as (p & <- & Hp). destruct (visible_no0 _ (proj1 (K p Hp))), (visible_no0 _ (proj1 (V p Hp))).
    rewrite in_app_iff. cbn [In]. intuition discriminate.
  - apply Forall_forall. intros l Hl. apply in_map_iff in Hl as (p & <- & Hp). destruct (visible_no0 _ (proj1 (K p Hp))), (visible_no0 _ (proj1 (V p Hp))).
    rewrite in_app_iff. cbn [In]. intuition discriminate.
Qed.

Lemma hosts_device : forall E d out, wf_device d -> (forall a s, visible (se_scope E a s)) -> ugly_print E d (str "endpoints") false = Some out ->
  Forall2 names_host (hosts (read_complete out)) (filter scopeless (map p_endpoint (d_peers d))).
Proof.
  intros E d out (_ & _ & _ & _ & W) S H.
  set (v := fun p => if has_endpoint (p_endpoint p) then endpoint_str E (p_endpoint p) else str "(none)").
  change (ugly_print E d (str "endpoints") false) with (Some (flat_map (fun p => [] ++ key_to_base64 (p_pub p) ++ (tab ++ v p) ++ [10]) (d_peers d))) in H.
  set (fm := flat_map (fun p => [] ++ key_to_base64 (p_pub p) ++ (tab ++ v p) ++ [10]) (d_peers d)) in H.
  assert (Eo : out = fm) by congruence. rewrite Eo. clear H Eo. unfold fm.
  assert (U : flat_map (fun p => [] ++ key_to_base64 (p_pub p) ++ (tab ++ v p) ++ [10]) (d_peers d) = unlines (map (fun p => rfc4648 (p_pub p) ++ 9 :: v p) (d_peers d))).
  { unfold unlines. clear - W. induction W as [|p l (Hk & _) W IH]; [reflexivity|]. cbn [flat_map map concat]. rewrite IH. f_equal. rewrite key_to_base64_rfc by exact Hk.
    unfold tab. cbn [app]. rewrite <- app_assoc. reflexivity. }
  assert (Nep : forall p, has_endpoint (p_endpoint p) = true -> p_endpoint p <> EpNone) by (intros p Hp X; rewrite X in Hp; discriminate).
  assert (V : forall p, In p (d_peers d) -> visible (v p) /\ v p <> []).
  { intros p Hp. rewrite Forall_forall in W. destruct (W p Hp) as (_ & _ & We & _). unfold v. destruct (has_endpoint (p_endpoint p)) eqn:He.
    - destruct (ep_visible E _ We (Nep p He) S) as (Hv & Hf). split; [exact Hv|]. intro X. rewrite X in Hf. inversion Hf; match goal with X : ?l ++ _ = [] |- _ => destruct l; discriminate | X : [] = ?l ++ _ |- _ => destruct l; discriminate end.
    - split; [apply visible_b; reflexivity|discriminate]. }
  assert (Eh : forall lines, hosts lines = flat_map (fun w => match endpoint_host w with Some h => [h] | None => [] end) (map second_field lines)).
  { unfold hosts. induction lines as [|l lines IH]; [reflexivity|]. cbn [map flat_map]. rewrite IH. reflexivity. }
  rewrite U, Eh, second_column by assumption. clear U Eh V.
  induction W as [|p l (_ & _ & We & _) W IH]; [constructor|]. cbn [map flat_map filter]. unfold v at 1. destruct (has_endpoint (p_endpoint p)) eqn:He.
  - pose proof (host_of_endpoint E _ We (Nep p He)) as Hh. destruct (scopeless (p_endpoint p)).
    + destruct Hh as (h & -> & Hn). constructor; assumption.
    + rewrite Hh. exact IH.
  - destruct (p_endpoint p); try discriminate. exact IH.
Qed.

(** C47: the configured MTU verbatim; else 80 less than the largest MTU on the way to an endpoint, else than the default route's, else 1420. *)
Theorem C47_mtu : forall sys ifc o s v s1, set_mtu_up sys ifc o true s = Done v s1 ->
  exists h b, sh_hist s1 = sh_hist s ++ h ++ [b] /\ all_well [b] /\ changes h = [] /\
    (o_mtu o <> [] -> h = [] /\ fst b = set_mtu ifc (o_mtu o)) /\
    (o_mtu o = [] -> exists a h1 h2 m n, h = (show_endpoints ifc, a) :: h1 ++ h2 /\ fst b = set_mtu ifc (signed (n - 80)) /\
       (forall E d, wf_device d -> (forall x y, visible (se_scope E x y)) -> ugly_print E d (str "endpoints") false = Some (a_output a) ->
          exists hs, Forall2 names_host hs (filter scopeless (map p_endpoint (d_peers d))) /\ routes_say hs h1 m) /\
       ((0 < m /\ h2 = [] /\ n = m) \/
        (m = 0 /\ exists c h3 line k, h2 = (show_default, c) :: h3 /\ first_line (a_output c) line /\ route_says line h3 k /\
                                      ((0 < k /\ n = k) \/ (k = 0 /\ n = 1500))))).
Proof.
  intros sys ifc o s v s1 H.
  assert (G : good any (set_mtu_up sys ifc o true) (fun _ h0 => exists h b, h0 = h ++ [b] /\ all_well [b] /\ changes h = [] /\
    (o_mtu o <> [] -> h = [] /\ fst b = set_mtu ifc (o_mtu o)) /\
    (o_mtu o = [] -> exists a h1 h2 m n, h = (show_endpoints ifc, a) :: h1 ++ h2 /\ fst b = set_mtu ifc (signed (n - 80)) /\
       routes_say (hosts (read_complete (a_output a))) h1 m /\
       ((0 < m /\ h2 = [] /\ n = m) \/
        (m = 0 /\ exists c h3 line k, h2 = (show_default, c) :: h3 /\ first_line (a_output c) line /\ route_says line h3 k /\
                                      ((0 < k /\ n = k) \/ (k = 0 /\ n = 1500))))))).
  { unfold set_mtu_up, step.
    assert (Q1 : forall text h k, route_says text h k -> changes h = []) by (intros text h k R; inversion R; subst; reflexivity).
    assert (Q2 : forall hs h k, routes_say hs h k -> changes h = []).
    { intros hs h k R. induction R as [|x hs a h n h' m R1 R2 IH]; [reflexivity|]. change ((route_to x, a) :: h ++ h') with ([(route_to x, a)] ++ h ++ h').
      rewrite !changes_app, IH, (Q1 _ _ _ R1). reflexivity. }
    assert (Aw : forall c (a : answer), a_status a = 0 -> all_well [(c, a)]).
    { intros c a Ha ev st [<-|[]] (_ & F1 & F2). cbn [snd] in F1. congruence. }
    destruct (o_mtu o) as [|x xs] eqn:E.
    - eapply good_bind; [apply output_good; split; [exact I|reflexivity]|]. cbn beta. intros eps h (a & -> & ->).
      eapply good_bind; [apply endpoints_mtu_value; lia|]. cbn beta. intros m1 h1 (m & H1 & Hm & Em).
      eapply good_bind with (Q := fun m2 h2 => (0 < m /\ h2 = [] /\ m2 = m) \/ (m = 0 /\ exists c h3 line, h2 = (show_default, c) :: h3 /\ first_line (a_output c) line /\ route_says line h3 m2 /\ 0 <= m2)).
      + destruct (Z.eqb_spec m1 0) as [E0|N0].
        * eapply good_bind; [apply output_good; split; [exact I|reflexivity]|]. cbn beta. intros out h2 (c & -> & ->).
          eapply good_bind; [apply route_mtu_value|]. cbn beta. intros r h3 (R & Hr). apply good_ret. right. split; [lia|].
          exists c, h3. eexists. split; [rewrite app_nil_r; reflexivity|]. split; [apply first_line_spec|]. rewrite larger_max by (try assumption; lia).
          replace (Z.max m1 (or_0 r)) with (or_0 r) by lia. split; assumption.
        * apply good_ret. left. repeat split; lia.
      + cbn beta. intros m2 h2 H2.
        eapply good_conseq; [apply step_good; [exact I|reflexivity]|]. cbn beta. intros _ h3 _ (_ & b & -> & Hb).
        exists ((show_endpoints ifc, a) :: h1 ++ h2). eexists. split; [cbn [app]; rewrite <- app_assoc; reflexivity|]. split; [apply Aw, Hb|].
        assert (C2 : changes h2 = []).
        { destruct H2 as [(_ & -> & _)|(_ & c & h3 & line & -> & _ & R & _)]; [reflexivity|].
          change ((show_default, c) :: h3) with ([(show_default, c)] ++ h3). rewrite changes_app, (Q1 _ _ _ R). reflexivity. }
        split; [change ((show_endpoints ifc, a) :: h1 ++ h2) with ([(show_endpoints ifc, a)] ++ h1 ++ h2); rewrite !changes_app, C2, (Q2 _ _ _ H1); reflexivity|].
        split; [contradiction|]. intros _. exists a, h1, h2, m, (if 0 <? m2 then m2 else 1500). split; [reflexivity|]. split.
        * cbn [fst]. unfold set_mtu, signed. set (m3 := if 0 <? m2 then m2 else 1500).
          destruct (Z.ltb_spec m3 80); destruct (Z.ltb_spec (m3 - 80) 0); try lia; [replace (- (m3 - 80)) with (80 - m3) by lia|]; reflexivity.
        * split; [exact H1|]. destruct H2 as [(P1 & P2 & ->)|(P1 & c & h3 & line & P2 & P3 & P4 & P5)].
          -- left. replace (0 <? m) with true by lia. auto.
          -- right. split; [exact P1|]. exists c, h3, line, m2. split; [exact P2|]. split; [exact P3|]. split; [exact P4|]. destruct (Z.ltb_spec 0 m2); [left|right]; lia.
    - eapply good_conseq; [apply step_good; [exact I|reflexivity]|]. cbn beta. intros _ h _ (_ & a & -> & Ha). exists []. eexists. split; [reflexivity|].
      split; [apply Aw, Ha|]. split; [reflexivity|]. split; [intros _; split; reflexivity|discriminate]. }
  specialize (G s). rewrite H in G. destruct G as (h0 & Eh & _ & h & b & -> & Hb & Hc & Hset & Hauto). exists h, b. split; [exact Eh|]. split; [exact Hb|].
  split; [exact Hc|]. split; [exact Hset|]. intro Ho. destruct (Hauto Ho) as (a & h1 & h2 & m & n & E1 & E2 & E3 & E4). exists a, h1, h2, m, n.
  split; [exact E1|]. split; [exact E2|]. split; [|exact E4]. intros E d W S U. exists (hosts (read_complete (a_output a))). split; [|exact E3]. eapply hosts_device; eauto.
Qed.

(** Two endpoints: the route to the first names an MTU, that to the second a device. *)
Definition mtu_env : show_env := mk_show_env false false None 0 (fun _ _ => str "eth0") (fun _ => []).
Definition mtu_peer (b : Z) (ep : endpoint) : peer := mk_peer false false true false false (repeat b 32) (repeat 0 32) ep 0 0 0 0 0 [].
Definition mtu_device : device :=
  mk_device wg0 3 false true true true true (repeat 4 32) (repeat 5 32) 0 51820
    [mtu_peer 7 (Ep4 [192; 0; 2; 1] 51820); mtu_peer 8 EpNone; mtu_peer 9 (Ep6 (32 :: 1 :: 13 :: 184 :: repeat 0 11 ++ [1]) 51821 0 0)].
Definition mtu_system (d : device) : system := fun h c =>
  match c_argv c with
  | [w; s; i; p] =>
      if beq p (str "endpoints") then mk_answer 0 (match ugly_print mtu_env d (str "endpoints") false with Some x => x | None => [] end) None
      else if beq p (str "192.0.2.1") then mk_answer 0 (str "192.0.2.1 via 10.0.0.1 dev eth0 src 10.0.0.2 mtu 1400" ++ [10]) None
      else if beq p (str "2001:db8::1") then mk_answer 0 (str "2001:db8::1 via fe80::1 dev ppp0 src 2001:db8::2" ++ [10]) None
      else if beq p (str "default") then mk_answer 0 (str "default via 10.0.0.1 dev ppp0 mtu 1300" ++ [10; 10]) None
      else mk_answer 1 [] None
  | [w; s; i; p; x] => mk_answer 0 (if beq x (str "ppp0") then str "3: ppp0: <UP> mtu 1492 qdisc" ++ [10] else []) None
  | _ => mk_answer 0 [] None
  end.
Example C47_case : match set_mtu_up (mtu_system mtu_device) wg0 options0 true (mk_shell [] false false) with
  | Done _ s => map fst (sh_hist s) = [show_endpoints wg0; route_to (str "192.0.2.1"); route_to (str "2001:db8::1"); show_link (str "ppp0"); set_mtu wg0 (str "1412")]
  | _ => False end.
Proof. vm_compute. reflexivity. Qed.

(** What does not hold: that every endpoint counts.  One with a scope (a link-local address) is printed with its interface after a percent
    sign, which the pattern of line 132 does not allow; the default route is used instead. *)
Theorem C47_scoped_refuted : let d := mk_device wg0 3 false true true true true (repeat 4 32) (repeat 5 32) 0 51820
    [mtu_peer 7 (Ep6 (254 :: 128 :: repeat 0 13 ++ [1]) 51820 0 2)] in
  ugly_print mtu_env d (str "endpoints") false = Some (rfc4648 (repeat 7 32) ++ 9 :: str "[fe80::1%eth0]:51820" ++ [10]) /\
  match set_mtu_up (mtu_system d) wg0 options0 true (mk_shell [] false false) with
  | Done _ s => map fst (sh_hist s) = [show_endpoints wg0; show_default; set_mtu wg0 (str "1220")]
  | _ => False end.
Proof. cbv zeta. split; vm_compute; reflexivity. Qed.
Print Assumptions C47_mtu.
