(** Proofs about AndDns.v. *)
From Coq Require Import String ZArith List Bool Lia.
From Verif Require Import Base Cstr CstrProofs Uapi AndUsers AndDns AndSpec.
Import ListNotations.
Open Scope Z_scope.

(** ** The entries *)
Lemma delim_eq : forall c, delim c = existsb (Z.eqb c) [44; 32; 9; 10].
Proof. intro c. unfold delim. cbn [existsb]. rewrite orb_false_r, !orb_assoc. reflexivity. Qed.
Lemma strtok_entries : forall s cur, strtok cur s = entries_from cur s.
Proof.
  induction s as [|c s IH]; intro cur; [reflexivity|]. cbn [strtok entries_from]. rewrite delim_eq. destruct (existsb (Z.eqb c) [44; 32; 9; 10]); [|apply IH].
  rewrite IH. destruct cur; reflexivity.
Qed.
Lemma skipped_eq : forall t, negb (skipped t) = forallb (fun c => negb (c =? 39) && negb (c =? 92)) t.
Proof.
  induction t as [|c t IH]; [reflexivity|]. cbn [forallb]. rewrite <- IH. unfold skipped, has_char. cbn [existsb].
  rewrite (Z.eqb_sym c 39), (Z.eqb_sym c 92). destruct (39 =? c), (92 =? c), (existsb (Z.eqb 39) t), (existsb (Z.eqb 92) t); reflexivity.
Qed.
Lemma entries_eq : forall s, filter (fun t => negb (skipped t)) (strtok [] s) = entries s.
Proof. intro s. unfold entries. rewrite strtok_entries. apply filter_ext. exact skipped_eq. Qed.
Lemma is_ip_eq : forall t, t <> [] -> is_ip t = is_server t.
Proof.
  intros t NE. unfold is_ip, is_server, has_char. rewrite orb_comm. f_equal. destruct t; [congruence|]. apply andb_true_r.
Qed.

Fixpoint weight (ts : list (list Z)) : nat := match ts with [] => 0%nat | t :: ts' => (S (length t) + weight ts')%nat end.
Lemma weight_app : forall a b, weight (a ++ b) = (weight a + weight b)%nat.
Proof. induction a as [|t a IH]; intro b; [reflexivity|]. cbn [app weight]. rewrite IH. lia. Qed.
Lemma strtok_weight : forall s cur, (weight (strtok cur s) <= S (length cur + length s))%nat.
Proof.
  induction s as [|c s IH]; intro cur; cbn [strtok length].
  - destruct cur; cbn [weight length]; lia.
  - destruct (delim c).
    + rewrite weight_app. pose proof (IH []) as K. cbn [length] in K. destruct cur; cbn [weight length]; lia.
    + pose proof (IH (cur ++ [c])) as K. rewrite app_length in K. cbn [length] in K. lia.
Qed.
Lemma strtok_nonempty : forall s cur t, In t (strtok cur s) -> t <> [].
Proof.
  induction s as [|c s IH]; intros cur t I; cbn [strtok] in I.
  - destruct cur; [destruct I|]. destruct I as [<-|[]]. discriminate.
  - destruct (delim c); [|exact (IH _ _ I)]. apply in_app_or in I as [I|I]; [|exact (IH _ _ I)]. destruct cur; [destruct I|]. destruct I as [<-|[]]. discriminate.
Qed.
Lemma weight_filter : forall f ts, (weight (filter f ts) <= weight ts)%nat.
Proof. induction ts as [|t ts IH]; [cbn; lia|]. cbn [filter]. destruct (f t); cbn [weight]; lia. Qed.

(** ** The buffers *)
Definition put (len : nat) (t : list Z) : list Z := snprintf (len + 3) (quoted t).
Definition puts (len : nat) (ts : list (list Z)) : list Z := concat (map (put len) ts).
Lemma put_length : forall len t, (length (put len t) <= length t + 3)%nat /\ (length (put len t) <= len + 2)%nat.
Proof.
  intros. unfold put, snprintf, quoted. rewrite firstn_length. cbn [length]. rewrite app_length. cbn [length]. lia.
Qed.
Lemma strncat_ok : forall len buf arg, (1 <= len)%nat -> (length arg <= 4 * len - 1)%nat -> (length buf + length arg <= 4 * len)%nat -> strncat len buf arg = Some (buf ++ arg).
Proof.
  intros len buf arg L A B. unfold strncat. rewrite firstn_all2 by lia. rewrite app_length. destruct (Nat.ltb_spec (4 * len) (length buf + length arg)); [lia|reflexivity].
Qed.
Definition cost (ts : list (list Z)) : nat := (weight ts + 2 * length ts)%nat.
Lemma cost_bound : forall ts, Forall (fun t => t <> []) ts -> (cost ts <= 2 * weight ts)%nat.
Proof. intros ts F. unfold cost. induction F as [|t ts NE F IH]; [cbn; lia|]. cbn [weight length] in *. destruct t; [congruence|]. cbn [length]. lia. Qed.

Definition good (ts : list (list Z)) : list (list Z) := filter (fun t => negb (skipped t)) ts.
Lemma fill_spec : forall len ts ns nd x, (1 <= len)%nat -> Forall (fun t => (1 <= length t <= len)%nat) ts ->
  (length (x_shell x) + cost ts <= 4 * len)%nat -> (length (x_search_shell x) + cost ts <= 4 * len)%nat ->
  (length (x_function x) + cost ts <= 4 * len)%nat -> (length (x_search_function x) + cost ts <= 4 * len)%nat ->
  (length (x_servers x) + length (filter is_ip (good ts)) <= ns)%nat -> (length (x_domains x) + length (filter (fun t => negb (is_ip t)) (good ts)) <= nd)%nat ->
  exists fn sf, fill len ns nd x ts = Is (mk_texts (x_servers x ++ filter is_ip (good ts)) (x_domains x ++ filter (fun t => negb (is_ip t)) (good ts))
    (x_shell x ++ puts len (filter is_ip (good ts))) (x_search_shell x ++ puts len (filter (fun t => negb (is_ip t)) (good ts))) fn sf).
Proof.
  intros len ts. induction ts as [|t ts IH]; intros ns nd x L F B1 B2 B3 B4 C1 C2.
  - cbn. rewrite !app_nil_r. destruct x. eexists. eexists. reflexivity.
  - inversion F as [|? ? [F0 F1] F2]; subst. cbn [fill]. unfold good in *. cbn [filter] in *. unfold cost in *. cbn [weight length] in *.
    destruct (skipped t) eqn:S; cbn [negb] in *.
    { apply IH; (assumption || lia). }
    cbn [filter] in *. pose proof (put_length len t) as [P1 P2]. fold (put len t) in *.
    assert (FN : forall b, (length (snprintf (len + 2) (commaed b t)) <= length t + 2)%nat /\ (length (snprintf (len + 2) (commaed b t)) <= len + 1)%nat).
    { intro b. unfold snprintf. rewrite firstn_length. destruct b; cbn [commaed length]; lia. }
    destruct (is_ip t) eqn:I; cbn [negb length] in *.
    + change (snprintf (len + 3) (quoted t)) with (put len t). destruct (FN (x_function x)) as [G1 G2].
      rewrite strncat_ok by lia. rewrite strncat_ok by lia.
      destruct (Nat.ltb_spec (length (x_servers x)) ns); [|lia].
      edestruct (IH ns nd) as (fn & sf & E); [assumption..| | | | | | |]; cycle 6.
      * exists fn, sf. rewrite E. cbn [x_servers x_domains x_shell x_search_shell puts map concat]. rewrite <- !app_assoc. reflexivity.
      * cbn [x_shell]. rewrite app_length. lia.
      * cbn [x_search_shell]. lia.
      * cbn [x_function]. rewrite app_length. lia.
      * cbn [x_search_function]. lia.
      * cbn [x_servers]. rewrite app_length. cbn [length]. lia.
      * cbn [x_domains]. lia.
    + change (snprintf (len + 3) (quoted t)) with (put len t). destruct (FN (x_search_function x)) as [G1 G2].
      rewrite strncat_ok by lia. rewrite strncat_ok by lia.
      destruct (Nat.ltb_spec (length (x_domains x)) nd); [|lia].
      edestruct (IH ns nd) as (fn & sf & E); [assumption..| | | | | | |]; cycle 6.
      * exists fn, sf. rewrite E. cbn [x_servers x_domains x_shell x_search_shell puts map concat]. rewrite <- !app_assoc. reflexivity.
      * cbn [x_shell]. lia.
      * cbn [x_search_shell]. rewrite app_length. lia.
      * cbn [x_function]. lia.
      * cbn [x_search_function]. rewrite app_length. lia.
      * cbn [x_servers]. lia.
      * cbn [x_domains]. rewrite app_length. cbn [length]. lia.
Qed.

Lemma member_bound : forall ts t, In t ts -> (S (length t) <= weight ts)%nat.
Proof. induction ts as [|u ts IH]; intros t I; [destruct I|]. cbn [weight]. destruct I as [->|I]; [lia|]. apply IH in I. lia. Qed.
Lemma parts_spec : forall s, Z.of_nat (length s) <= 65536 ->
  dns_parts s = Is None /\ filter is_ip (entries s) = [] \/
  filter is_ip (entries s) <> [] /\ exists fn sf, dns_parts s = Is (Some (mk_texts (filter is_ip (entries s)) (filter (fun t => negb (is_ip t)) (entries s))
    (puts (length s) (filter is_ip (entries s))) (puts (length s) (filter (fun t => negb (is_ip t)) (entries s))) fn sf)).
Proof.
  intros s L. unfold dns_parts. destruct (Z.ltb_spec 65536 (Z.of_nat (length s))); [lia|].
  destruct s as [|c s0]; [left; split; reflexivity|]. set (s := c :: s0) in *. rewrite entries_eq.
  destruct (filter is_ip (entries s)) as [|ip ips] eqn:E; [left; split; reflexivity|]. right. split; [discriminate|]. rewrite <- E.
  assert (W : (weight (strtok [] s) <= S (length s))%nat) by (pose proof (strtok_weight s []) as K; cbn [length] in K; exact K).
  assert (NE : Forall (fun t => t <> []) (strtok [] s)) by (apply Forall_forall; intros t I; exact (strtok_nonempty _ _ _ I)).
  pose proof (cost_bound _ NE) as CB. assert (L1 : (1 <= length s)%nat) by (cbn [length]; unfold s; cbn [length]; lia).
  edestruct (fill_spec (length s) (strtok [] s) (length (filter is_ip (entries s))) (length (filter (fun t => negb (is_ip t)) (entries s))) (mk_texts [] [] [] [] [] []))
    as (fn & sf & F).
  - exact L1.
  - apply Forall_forall. intros t I. pose proof (member_bound _ _ I). apply strtok_nonempty in I. destruct t; [congruence|]. cbn [length] in *. lia.
  - cbn [x_shell length]. lia.
  - cbn [x_search_shell length]. lia.
  - cbn [x_function length]. lia.
  - cbn [x_search_function length]. lia.
  - cbn [x_servers length]. unfold good. rewrite entries_eq. lia.
  - cbn [x_domains length]. unfold good. rewrite entries_eq. lia.
  - exists fn, sf. rewrite F. unfold good. rewrite entries_eq. reflexivity.
Qed.

(** ** Words *)
Lemma words_quoted : forall t w r, ~ In 39 t -> words_from true (Some w) (t ++ 39 :: r) = words_from false (Some (w ++ t)) r.
Proof.
  induction t as [|c t IH]; intros w r N; [cbn; rewrite app_nil_r; reflexivity|]. cbn [app words_from].
  destruct (Z.eqb_spec c 39); [exfalso; apply N; left; auto|]. cbn [so_far]. rewrite IH by (intro K; apply N; right; exact K). rewrite <- app_assoc. reflexivity.
Qed.
Lemma words_plain : forall t w r, forallb plain_char t = true -> t <> [] -> words_from false w (t ++ r) = words_from false (Some (so_far w ++ t)) r.
Proof.
  induction t as [|c t IH]; intros w r P NE; [congruence|]. cbn [forallb] in P. apply andb_prop in P as [P1 P2]. cbn [app words_from].
  destruct (Z.eqb_spec c 39) as [->|_]; [discriminate P1|]. destruct (Z.eqb_spec c 32) as [->|_]; [discriminate P1|]. rewrite P1.
  destruct t as [|d t]; [reflexivity|]. rewrite IH by (exact P2 || discriminate). cbn [so_far]. rewrite <- app_assoc. reflexivity.
Qed.
Lemma words_args : forall ts, Forall (fun t => ~ In 39 t) ts -> words_from false None (concat (map quoted ts)) = Some ts.
Proof.
  induction ts as [|t ts IH]; intro F; [reflexivity|]. inversion F; subst. cbn [map concat quoted app words_from]. change (39 =? 39) with true. cbv iota.
  rewrite <- app_assoc. cbn [app so_far]. rewrite words_quoted by assumption. cbn [app words_from]. change (32 =? 39) with false. change (32 =? 32) with true. cbv iota.
  rewrite IH by assumption. reflexivity.
Qed.
(** The entries are quoted for a second time: what the first quotes protected is bare. *)
Lemma words_twice : forall ts w r, Forall (fun t => forallb plain_char t = true /\ t <> []) ts ->
  words_from true (Some w) (concat (map quoted ts) ++ r) = words_from true (Some (w ++ concat (map (fun t => t ++ [32]) ts))) r.
Proof.
  induction ts as [|t ts IH]; intros w r F; [cbn; rewrite app_nil_r; reflexivity|]. inversion F as [|? ? [F1 F2] F3]; subst.
  cbn [map concat]. rewrite <- app_assoc. unfold quoted at 1. cbn [app words_from]. change (39 =? 39) with true. cbv iota.
  rewrite <- app_assoc. rewrite words_plain by assumption. cbn [app words_from so_far]. change (39 =? 39) with true. change (32 =? 39) with false. cbv iota.
  cbn [so_far]. rewrite IH by assumption. rewrite <- !app_assoc. reflexivity.
Qed.
Lemma put_full : forall len t, (length t < len)%nat -> put len t = quoted t.
Proof. intros len t L. unfold put, snprintf. apply firstn_all2. unfold quoted. cbn [length]. rewrite app_length. cbn [length]. lia. Qed.
Lemma put_whole : forall t, put (length t) t = 39 :: t ++ [39].
Proof.
  intro t. unfold put, snprintf, quoted. replace (length t + 3 - 1)%nat with (length (39 :: t ++ [39])) by (cbn [length]; rewrite app_length; cbn [length]; lia).
  replace (39 :: t ++ [39; 32]) with ((39 :: t ++ [39]) ++ [32]) by (cbn [app]; rewrite <- app_assoc; reflexivity).
  rewrite firstn_app, Nat.sub_diag, firstn_all. apply app_nil_r.
Qed.
Lemma single : forall s t, In t (strtok [] s) -> (length s <= length t)%nat -> strtok [] s = [t] /\ length t = length s.
Proof.
  intros s t I L. pose proof (strtok_weight s []) as W. cbn [length Nat.add] in W.
  apply in_split in I as (a & b & E). rewrite E in *. rewrite weight_app in W. cbn [weight] in W.
  assert (A : a = []) by (destruct a; [reflexivity|cbn [weight] in W; lia]). assert (B : b = []) by (destruct b; [reflexivity|cbn [weight] in W; lia]).
  subst. split; [reflexivity|]. cbn [weight] in W. lia.
Qed.
