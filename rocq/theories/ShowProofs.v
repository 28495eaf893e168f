(** Proofs about 'wg show': the order of peers, times and sizes. *)
From Coq Require Import String ZArith List Bool Lia Permutation Sorted.
From Verif Require Import Base Ctype Encoding EncodingSpec EncodingProofs Cstr CstrProofs NumSpec ConfigProofs Inet Types Terminal TerminalSpec PropTerminal Show ShowSpec.
Import ListNotations.
Open Scope Z_scope.

(** ** Order *)
Lemma s64_id : forall z, - 2 ^ 63 <= z < 2 ^ 63 -> s64 z = z.
Proof. intros z H. unfold s64. rewrite Z.mod_small; lia. Qed.

Lemma peer_cmp_le : forall a b, times_ok a -> times_ok b -> peer_cmp a b <= 0 <-> not_older a b.
Proof.
  intros a b [A1 A2] [B1 B2]. unfold peer_cmp, not_older, never. rewrite !s64_id by lia.
  destruct (Z.eqb_spec (p_hs_sec a) 0), (Z.eqb_spec (p_hs_nsec a) 0), (Z.eqb_spec (p_hs_sec b) 0), (Z.eqb_spec (p_hs_nsec b) 0); cbn [andb negb];
    try destruct (Z.eqb_spec (p_hs_sec a - p_hs_sec b) 0);
    repeat match goal with |- context [?x <? ?y] => destruct (Z.ltb_spec x y) end; lia.
Qed.
Lemma peer_cmp_anti : forall a b, times_ok a -> times_ok b -> peer_cmp a b = - peer_cmp b a.
Proof.
  intros a b [A1 A2] [B1 B2]. unfold peer_cmp. rewrite !s64_id by lia.
  destruct (Z.eqb_spec (p_hs_sec a) 0), (Z.eqb_spec (p_hs_nsec a) 0), (Z.eqb_spec (p_hs_sec b) 0), (Z.eqb_spec (p_hs_nsec b) 0); cbn [andb negb];
    try destruct (Z.eqb_spec (p_hs_sec a - p_hs_sec b) 0); try destruct (Z.eqb_spec (p_hs_sec b - p_hs_sec a) 0);
    repeat match goal with |- context [?x <? ?y] => destruct (Z.ltb_spec x y) end; lia.
Qed.
Lemma not_older_trans : forall a b c, times_ok a -> times_ok b -> times_ok c -> not_older a b -> not_older b c -> not_older a c.
Proof.
  intros a b c [A1 A2] [B1 B2] [C1 C2]. unfold not_older, never. intros H1 H2. 
  destruct (Z.eq_dec (p_hs_sec a) 0), (Z.eq_dec (p_hs_nsec a) 0), (Z.eq_dec (p_hs_sec b) 0), (Z.eq_dec (p_hs_nsec b) 0), (Z.eq_dec (p_hs_sec c) 0), (Z.eq_dec (p_hs_nsec c) 0); lia.
Qed.

Definition matrix (l : list peer) : list (list Z) := map (fun a => map (peer_cmp a) l) l.
Lemma at_matrix : forall l i j, (i < length l)%nat -> (j < length l)%nat -> at2 (matrix l) i j = peer_cmp (nth i l peer0) (nth j l peer0).
Proof.
  intros l i j Hi Hj. unfold at2, matrix. set (f := fun a => map (peer_cmp a) l).
  rewrite (nth_indep (map f l) [] (f peer0)) by (rewrite map_length; exact Hi). rewrite map_nth. unfold f.
  rewrite (nth_indep _ 0 (peer_cmp (nth i l peer0) peer0)) by (rewrite map_length; exact Hj). rewrite map_nth. reflexivity.
Qed.
Lemma matrix_order : forall l, Forall times_ok l -> an_order (matrix l).
Proof.
  intros l T. rewrite Forall_forall in T. assert (N : forall i, (i < length (matrix l))%nat -> (i < length l)%nat /\ times_ok (nth i l peer0)).
  { intros i H. unfold matrix in H. rewrite map_length in H. split; [exact H|]. apply T, nth_In, H. }
  split.
  - intros i j Hi Hj. apply N in Hi as [Hi Ti], Hj as [Hj Tj]. rewrite !at_matrix by assumption. rewrite (peer_cmp_anti _ _ Tj Ti). lia.
  - intros i j k Hi Hj Hk. apply N in Hi as [Hi Ti], Hj as [Hj Tj], Hk as [Hk Tk]. rewrite !at_matrix, !peer_cmp_le by assumption. apply not_older_trans; assumption.
Qed.
Lemma map_nth_seq : forall A (l : list A) d, map (fun i => nth i l d) (seq 0 (length l)) = l.
Proof.
  intros A l d. induction l as [|x l IH]; [reflexivity|]. cbn [length seq map nth]. f_equal. rewrite <- seq_shift, map_map. exact IH.
Qed.
Lemma sort_peers_spec : forall qsort l, index_sorts qsort -> Forall times_ok l -> Permutation l (sort_peers qsort l) /\ StronglySorted not_older (sort_peers qsort l).
Proof.
  intros qsort l Q T. destruct l as [|p l0] eqn:El; [split; [reflexivity|constructor]|]. rewrite <- El in *. assert (S : sort_peers qsort l = map (fun i => nth i l peer0) (qsort (matrix l))) by (rewrite El; reflexivity).
  clear El. rewrite S. destruct (Q _ (matrix_order l T)) as [P O]. assert (Lm : length (matrix l) = length l) by (unfold matrix; apply map_length). rewrite Lm in P.
  assert (B : Forall (fun i => (i < length l)%nat) (qsort (matrix l))).
  { apply Forall_forall. intros i Hi. apply Permutation_sym in P. apply (Permutation_in _ P) in Hi. apply in_seq in Hi. lia. }
  split.
  - rewrite <- (map_nth_seq _ l peer0) at 1. apply Permutation_map, P.
  - assert (Tn : forall i, (i < length l)%nat -> times_ok (nth i l peer0)) by (intros i Hi; rewrite Forall_forall in T; apply T, nth_In, Hi).
    assert (SS : StronglySorted (fun i j => (i < length l)%nat /\ (j < length l)%nat /\ not_older (nth i l peer0) (nth j l peer0)) (qsort (matrix l))).
    { apply Sorted_StronglySorted; [intros i j k (Hi & Hj & H1) (_ & Hk & H2); split; [exact Hi|]; split; [exact Hk|]; eapply not_older_trans; [| | |exact H1|exact H2]; apply Tn; assumption|].
      clear P S. induction O as [|i s O IH H]; [constructor|]. inversion B as [|? ? Bi Bs]; subst. constructor; [apply IH, Bs|]. destruct H as [|j s' H]; constructor.
      inversion Bs as [|? ? Bj _]; subst. split; [exact Bi|]. split; [exact Bj|]. rewrite at_matrix in H by assumption. apply peer_cmp_le; [apply Tn, Bi|apply Tn, Bj|exact H]. }
    clear - SS. induction SS as [|i s SS IH H]; [constructor|]. cbn [map]. constructor; [exact IH|]. apply Forall_forall. intros p Hp. apply in_map_iff in Hp as (j & <- & Hj).
    rewrite Forall_forall in H. apply (H j Hj).
Qed.

(** ** Colours: [t] is coloured text that reads [u]. *)
Definition plainly (t u : list Z) : Prop := exists l, Forall piece_ok l /\ Forall is_char (coloured l) /\ coloured l = t /\ uncoloured l = u.
Lemma plainly_nil : plainly [] [].
Proof. exists []. repeat split; constructor. Qed.
Lemma plainly_app : forall t u t' u', plainly t u -> plainly t' u' -> plainly (t ++ t') (u ++ u').
Proof.
  intros t u t' u' (l & A & B & <- & <-) (l' & A' & B' & <- & <-). exists (l ++ l'). unfold coloured, uncoloured in *. rewrite !flat_map_app.
  repeat split; apply Forall_app; split; assumption.
Qed.
Definition textual (t : list Z) : Prop := Forall is_char t /\ ~ In 27 t.
Lemma plainly_text : forall t, textual t -> plainly t t.
Proof. intros t [C N]. exists [Plain t]. unfold coloured, uncoloured. cbn [flat_map piece_text plain_text]. rewrite app_nil_r. repeat split; [repeat constructor; exact N|exact C]. Qed.
Lemma plainly_code : forall n, In n [cyan; red; green; yellow; bold; reset] -> plainly n [].
Proof.
  assert (G : forall ps, forallb (fun c => negb (letter c)) ps = true -> Forall is_char ps -> plainly (27 :: 91 :: ps ++ [109]) []).
  { intros ps H C. exists [Code ps 109]. unfold coloured, uncoloured. cbn [flat_map piece_text plain_text]. rewrite app_nil_r. repeat split.
    - constructor; [|constructor]. split; [|reflexivity]. apply Forall_forall. intros c Hc. rewrite forallb_forall in H. specialize (H c Hc). apply negb_true_iff, H.
    - constructor; [unfold is_char; lia|]. constructor; [unfold is_char; lia|]. apply Forall_app. split; [exact C|]. constructor; [unfold is_char; lia|constructor]. }
  assert (D : forall c, In c (str "0123456789") -> is_char c) by (intros c H; cbn in H; unfold is_char; lia).
  intros n H. cbn [In] in H. destruct H as [<-|[<-|[<-|[<-|[<-|[<-|[]]]]]]]; [apply (G (str "36"))|apply (G (str "31"))|apply (G (str "32"))|apply (G (str "33"))|apply (G (str "1"))|apply (G (str "0"))];
    try reflexivity; repeat constructor; apply D; cbn; tauto.
Qed.
Lemma textual_app : forall a b, textual a -> textual b -> textual (a ++ b).
Proof. intros a b [A1 A2] [B1 B2]. split; [apply Forall_app; split; assumption|]. rewrite in_app_iff. tauto. Qed.
Lemma textual_b : forall t, forallb (fun c => (0 <? c) && (c <? 256) && negb (c =? 27)) t = true -> textual t.
Proof.
  intros t H. rewrite forallb_forall in H. split.
  - apply Forall_forall. intros c Hc. specialize (H c Hc). rewrite !andb_true_iff, !Z.ltb_lt in H. unfold is_char. lia.
  - intro I. specialize (H 27 I). discriminate.
Qed.
Lemma textual_by : forall (P : Z -> Prop) t, Forall P t -> (forall c, P c -> 0 < c < 256 /\ c <> 27) -> textual t.
Proof.
  intros P t H Q. split; [eapply Forall_impl; [|exact H]; intros c Hc; apply Q, Hc|]. intro I. rewrite Forall_forall in H. specialize (H 27 I). apply Q in H. lia.
Qed.
Lemma textual_dec : forall n, 0 <= n -> textual (print_dec n).
Proof. intros n H. apply (textual_by _ _ (print_dec_digits n H)). intros; lia. Qed.
Lemma plainly_printf : forall sg t u, plainly t u -> terminal_printf sg false t = u.
Proof. intros sg t u (l & A & B & <- & <-). apply C33_uncoloured; assumption. Qed.
Lemma plainly_stripped : forall t u, plainly t u -> stripped t u.
Proof. intros t u (l & A & B & <- & <-). apply uncoloured_stripped; assumption. Qed.
Lemma plainly_flat : forall ts us, Forall2 plainly ts us -> plainly (flat_map (fun t => t) ts) (flat_map (fun u => u) us).
Proof. induction 1; [apply plainly_nil|]. cbn [flat_map]. apply plainly_app; assumption. Qed.
Ltac plain := repeat first [apply plainly_app | apply plainly_code; cbn [In]; tauto].

(** ** Times *)
(** The text of one unit, with colours. *)
Definition unit_str (name : string) (n : Z) : list Z := print_dec n ++ 32 :: cyan ++ str name ++ (if n =? 1 then [] else str "s") ++ reset.
Definition units_of (n : Z) : list (string * Z) :=
  filter (fun u => negb (snd u =? 0))
    [("year", n / 31536000); ("day", n mod 31536000 / 86400); ("hour", n mod 31536000 mod 86400 / 3600);
     ("minute", n mod 31536000 mod 86400 mod 3600 / 60); ("second", n mod 31536000 mod 86400 mod 3600 mod 60)]%string.
Lemma join_snoc : forall sep l x, l <> [] -> join sep (l ++ [x]) = join sep l ++ sep ++ x.
Proof.
  intros sep. induction l as [|a l IH]; intros x N; [congruence|]. destruct l as [|b l]; [reflexivity|]. cbn [app]. cbn [join]. rewrite <- !app_assoc. cbn [app]. f_equal. f_equal.
  apply IH. discriminate.
Qed.
Lemma join_nil_iff : forall l, Forall (fun x => x <> []) l -> length (join (str ", ") l) = O <-> l = [].
Proof.
  intros l F. destruct F as [|x l N F]; [split; reflexivity|]. split; [|discriminate]. intro H. apply length_zero_iff_nil in H. destruct l; [cbn in H; congruence|]. cbn in H. destruct x; [congruence|discriminate].
Qed.

(** One step: the text so far is [join l], it fits. *)
Lemma put_unit_step : forall len name n us, (forall u, In u us -> 0 <= snd u) -> 0 <= n ->
  let l := map (fun u => unit_str (fst u) (snd u)) us in
  (length (join (str ", ") l) + length (unit_str name n) + 3 <= len)%nat ->
  put_unit len name n (join (str ", ") l, length (join (str ", ") l)) =
  (let t := join (str ", ") (map (fun u => unit_str (fst u) (snd u)) (us ++ filter (fun u => negb (snd u =? 0)) [(name, n)])) in (t, length t)).
Proof.
  intros len name n us Hu Hn l L. unfold put_unit. cbn [filter snd]. destruct (Z.eqb_spec n 0) as [->|N]; [cbn [negb]; rewrite app_nil_r; reflexivity|]. cbn [negb].
  assert (F : Forall (fun x => x <> []) l).
  { apply Forall_forall. intros x Hx. unfold l in Hx. apply in_map_iff in Hx as (u & <- & _). unfold unit_str. intro E. apply app_eq_nil in E as [E _]. revert E. apply print_num_nonempty. }
  rewrite map_app. cbn [map fst snd]. fold l. unfold snprintf_at. rewrite firstn_all.
  assert (R : forall pre, (if Nat.eqb (length (join (str ", ") l)) 0 then [] else str ", ") = pre ->
    ((join (str ", ") l ++ firstn (len - length (join (str ", ") l) - 1) (pre ++ unit_str name n)), (length (join (str ", ") l) + length (pre ++ unit_str name n))%nat) =
    (join (str ", ") (l ++ [unit_str name n]), length (join (str ", ") (l ++ [unit_str name n])))).
  { intros pre <-. destruct (Nat.eqb_spec (length (join (str ", ") l)) 0) as [E|E].
    - apply join_nil_iff in E; [|exact F]. rewrite E. cbn [join app length Nat.add]. rewrite firstn_all2 by (rewrite E in L; cbn [join length] in L; cbn [length]; lia). reflexivity.
    - rewrite join_snoc by (intros ->; apply E; reflexivity). rewrite firstn_all2.
      + rewrite !app_length. reflexivity.
      + rewrite app_length. change (length (str ", ")) with 2%nat. lia. }
  apply (R _ eq_refl).
Qed.

Lemma unit_str_len : forall k name n, (0 < k)%nat -> 0 <= n < 10 ^ Z.of_nat k -> (length (str name) <= 6)%nat -> (length (unit_str name n) <= k + 17)%nat.
Proof.
  intros k name n Hk Hn Hl. unfold unit_str. rewrite app_length. cbn [length]. rewrite !app_length.
  pose proof (print_num_length k 10 n ltac:(lia) Hn Hk) as P. unfold print_dec. change (length cyan) with 5%nat. change (length reset) with 4%nat.
  assert (length (if (n =? 1)%Z then [] else str "s") <= 1)%nat by (destruct (n =? 1); cbn; lia). lia.
Qed.

Lemma pretty_time_text : forall len n, (200 <= len)%nat -> 0 <= n < 2 ^ 64 ->
  let t := join (str ", ") (map (fun u => unit_str (fst u) (snd u)) (units_of n)) in pretty_time len n = (t, length t) /\ (length t <= 150)%nat.
Proof.
  intros len n L Hn t.
  set (y := n / 31536000) in *. set (d := n mod 31536000 / 86400) in *. set (h := n mod 31536000 mod 86400 / 3600) in *.
  set (m := n mod 31536000 mod 86400 mod 3600 / 60) in *. set (s := n mod 31536000 mod 86400 mod 3600 mod 60) in *.
  assert (By : 0 <= y < 10 ^ Z.of_nat 12) by (change (10 ^ Z.of_nat 12) with 1000000000000; change (2 ^ 64) with 18446744073709551616 in Hn; unfold y; Z.to_euclidean_division_equations; lia).
  assert (Bd : 0 <= d < 10 ^ Z.of_nat 3) by (change (10 ^ Z.of_nat 3) with 1000; unfold d; clear - Hn; Z.to_euclidean_division_equations; lia).
  assert (Bh : 0 <= h < 10 ^ Z.of_nat 2) by (change (10 ^ Z.of_nat 2) with 100; unfold h; clear - Hn; Z.to_euclidean_division_equations; lia).
  assert (Bm : 0 <= m < 10 ^ Z.of_nat 2) by (change (10 ^ Z.of_nat 2) with 100; unfold m; clear - Hn; Z.to_euclidean_division_equations; lia).
  assert (Bs : 0 <= s < 10 ^ Z.of_nat 2) by (change (10 ^ Z.of_nat 2) with 100; unfold s; clear - Hn; Z.to_euclidean_division_equations; lia).
  pose proof (unit_str_len 12 "year" y ltac:(lia) By ltac:(cbn; lia)) as Ly. pose proof (unit_str_len 3 "day" d ltac:(lia) Bd ltac:(cbn; lia)) as Ld.
  pose proof (unit_str_len 2 "hour" h ltac:(lia) Bh ltac:(cbn; lia)) as Lh. pose proof (unit_str_len 2 "minute" m ltac:(lia) Bm ltac:(cbn; lia)) as Lm.
  pose proof (unit_str_len 2 "second" s ltac:(lia) Bs ltac:(cbn; lia)) as Ls.
  set (P := fun u : string * Z => negb (snd u =? 0)). set (F := fun u : string * Z => unit_str (fst u) (snd u)).
  assert (JL : forall us name c, (length (join (str ", ") (map F (us ++ filter P [(name, c)]))) <= length (join (str ", ") (map F us)) + length (unit_str name c) + 2)%nat).
  { intros us name c. cbn [filter]. destruct (P (name, c)); [|rewrite app_nil_r; lia]. rewrite map_app. cbn [map]. destruct us as [|u us]; [cbn [map app join length]; unfold F; cbn [fst snd]; lia|].
    rewrite join_snoc by discriminate. rewrite !app_length. unfold F at 2. cbn [fst snd]. change (length (str ", ")) with 2%nat. lia. }
  set (u1 := filter P [("year"%string, y)]). set (u2 := u1 ++ filter P [("day"%string, d)]). set (u3 := u2 ++ filter P [("hour"%string, h)]).
  set (u4 := u3 ++ filter P [("minute"%string, m)]). set (u5 := u4 ++ filter P [("second"%string, s)]).
  assert (U : units_of n = u5).
  { unfold units_of, u5, u4, u3, u2, u1. fold y d h m s. change (fun u : string * Z => negb (snd u =? 0)) with P. rewrite <- !filter_app. reflexivity. }
  pose proof (JL [] "year"%string y) as J1. cbn [app map join length] in J1. fold u1 in J1.
  pose proof (JL u1 "day"%string d) as J2. fold u2 in J2. pose proof (JL u2 "hour"%string h) as J3. fold u3 in J3. pose proof (JL u3 "minute"%string m) as J4. fold u4 in J4.
  pose proof (JL u4 "second"%string s) as J5. fold u5 in J5.
  assert (T : t = join (str ", ") (map F u5)) by (unfold t; rewrite U; reflexivity).
  split; [|rewrite T; lia].
  assert (Pos : forall us, (forall u, In u us -> 0 <= snd u) -> forall name c, 0 <= c -> forall u, In u (us ++ filter P [(name, c)]) -> 0 <= snd u).
  { intros us H name c Hc u Hu. apply in_app_iff in Hu as [Hu|Hu]; [apply H, Hu|]. apply filter_In in Hu as [[<-|[]] _]. exact Hc. }
  assert (P1 : forall u, In u u1 -> 0 <= snd u) by (apply (Pos []); [intros u []|lia]).
  assert (P2 : forall u, In u u2 -> 0 <= snd u) by (apply (Pos u1); [exact P1|lia]). assert (P3 : forall u, In u u3 -> 0 <= snd u) by (apply (Pos u2); [exact P2|lia]).
  assert (P4 : forall u, In u u4 -> 0 <= snd u) by (apply (Pos u3); [exact P3|lia]).
  unfold pretty_time. change (365 * 24 * 60 * 60) with 31536000. change (24 * 60 * 60) with 86400. change (60 * 60) with 3600. fold y d h m s.
  assert (ST : forall name c us, (forall u, In u us -> 0 <= snd u) -> 0 <= c -> (length (join (str ", ") (map F us)) + length (unit_str name c) + 3 <= len)%nat ->
    put_unit len name c (join (str ", ") (map F us), length (join (str ", ") (map F us))) =
    (join (str ", ") (map F (us ++ filter P [(name, c)])), length (join (str ", ") (map F (us ++ filter P [(name, c)]))))).
  { intros name c us Hu Hc Hlen. exact (put_unit_step len name c us Hu Hc Hlen). }
  change (put_unit len "year" y ([], O)) with (put_unit len "year" y (join (str ", ") (map F []), length (join (str ", ") (map F [])))).
  rewrite (ST "year"%string y []); [|intros u []|lia|cbn [map join length]; lia]. change ([] ++ filter P [("year"%string, y)]) with u1.
  rewrite (ST "day"%string d u1 P1); [|lia|lia]. fold u2. rewrite (ST "hour"%string h u2 P2); [|lia|lia]. fold u3. rewrite (ST "minute"%string m u3 P3); [|lia|lia]. fold u4.
  rewrite (ST "second"%string s u4 P4); [|lia|lia]. fold u5. rewrite T. reflexivity.
Qed.

(** In words. *)
Definition unit_plain (name : string) (n : Z) : list Z := print_dec n ++ 32 :: str name ++ (if n =? 1 then [] else str "s").
Lemma unit_plainly : forall name n, 0 <= n -> textual (str name) -> plainly (unit_str name n) (unit_plain name n).
Proof.
  intros name n Hn Ht. unfold unit_str, unit_plain. apply plainly_app; [apply plainly_text, textual_dec, Hn|]. change (32 :: cyan ++ str name ++ (if n =? 1 then [] else str "s") ++ reset) with
    ([32] ++ cyan ++ str name ++ (if n =? 1 then [] else str "s") ++ reset).
  change (32 :: str name ++ (if n =? 1 then [] else str "s")) with ([32] ++ [] ++ str name ++ (if n =? 1 then [] else str "s")).
  rewrite <- (app_nil_r (if n =? 1 then [] else str "s")) at 2. plain; apply plainly_text; try exact Ht; try (apply textual_b; reflexivity). destruct (n =? 1); apply textual_b; reflexivity.
Qed.
Lemma join_plainly : forall ts us, Forall2 plainly ts us -> plainly (join (str ", ") ts) (join (str ", ") us).
Proof.
  induction 1 as [|t u ts us H F IH]; [apply plainly_nil|]. destruct F as [|t' u' ts us H' F]; [exact H|].
  apply plainly_app; [exact H|]. apply plainly_app; [apply plainly_text, textual_b; reflexivity|exact IH].
Qed.
Definition time_plain (n : Z) : list Z := join (str ", ") (map (fun u => unit_plain (fst u) (snd u)) (units_of n)).
Lemma units_pos : forall n, 0 <= n -> forall u, In u (units_of n) -> 0 < snd u /\ textual (str (fst u)).
Proof.
  intros n Hn u H. unfold units_of in H. apply filter_In in H as [H N]. apply negb_true_iff, Z.eqb_neq in N.
  assert (G : forall a, 0 <= a -> forall b, 0 < b -> 0 <= a / b /\ 0 <= a mod b) by (intros a Ha b Hb; split; [apply Z.div_pos; lia|apply Z.mod_pos_bound; lia]).
  cbn [In] in H. destruct H as [<-|[<-|[<-|[<-|[<-|[]]]]]]; cbn [fst snd] in *; (split; [|apply textual_b; reflexivity]).
  - destruct (G n Hn 31536000); lia.
  - destruct (G n Hn 31536000) as [_ A]; [lia|]. destruct (G _ A 86400); lia.
  - destruct (G n Hn 31536000) as [_ A]; [lia|]. destruct (G _ A 86400) as [_ A']; [lia|]. destruct (G _ A' 3600); lia.
  - destruct (G n Hn 31536000) as [_ A]; [lia|]. destruct (G _ A 86400) as [_ A']; [lia|]. destruct (G _ A' 3600) as [_ A'']; [lia|]. destruct (G _ A'' 60); lia.
  - destruct (G n Hn 31536000) as [_ A]; [lia|]. destruct (G _ A 86400) as [_ A']; [lia|]. destruct (G _ A' 3600) as [_ A'']; [lia|]. destruct (G _ A'' 60); lia.
Qed.
Lemma time_plainly : forall n, 0 <= n -> plainly (join (str ", ") (map (fun u => unit_str (fst u) (snd u)) (units_of n))) (time_plain n).
Proof.
  intros n Hn. apply join_plainly. pose proof (units_pos n Hn) as P. induction (units_of n) as [|u us IH]; [constructor|]. cbn [map]. constructor.
  - destruct (P u) as [A B]; [left; reflexivity|]. apply unit_plainly; [lia|exact B].
  - apply IH. intros v Hv. apply P. right. exact Hv.
Qed.
Lemma unit_words_plain : forall name c, 0 <= c -> unit_words name c (map (fun u => unit_plain (fst u) (snd u)) (filter (fun u => negb (snd u =? 0)) [(name, c)])).
Proof.
  intros name c Hc. cbn [filter snd]. destruct (Z.eqb_spec c 0) as [->|N]; [constructor|]. cbn [negb map fst snd]. unfold unit_plain. destruct (Z.eqb_spec c 1) as [->|N1].
  - rewrite app_nil_r. apply uw_one.
  - apply uw_many; [lia|apply decimal_iff; split; [apply print_num_nonempty|apply print_dec_value; lia]|]. pose proof (print_num_head 10 c ltac:(lia) ltac:(lia)) as H. unfold print_dec.
    destruct (print_num 10 c) eqn:E; [discriminate|exact H].
Qed.
Lemma time_words_plain : forall n, 0 <= n -> time_words n (time_plain n).
Proof.
  intros n Hn. unfold time_words. exists (n / 31536000), (n mod 31536000 / 86400), (n mod 31536000 mod 86400 / 3600), (n mod 31536000 mod 86400 mod 3600 / 60), (n mod 31536000 mod 86400 mod 3600 mod 60).
  assert (Hy : 0 <= n / 31536000) by (apply Z.div_pos; lia).
  set (W := fun (name : string) (c : Z) => map (fun u => unit_plain (fst u) (snd u)) (filter (fun u => negb (snd u =? 0)) [(name, c)])).
  exists (W "year"%string (n / 31536000)), (W "day"%string (n mod 31536000 / 86400)), (W "hour"%string (n mod 31536000 mod 86400 / 3600)),
    (W "minute"%string (n mod 31536000 mod 86400 mod 3600 / 60)), (W "second"%string (n mod 31536000 mod 86400 mod 3600 mod 60)).
  split; [unfold splits_time; Z.to_euclidean_division_equations; lia|].
  repeat (split; [apply unit_words_plain; Z.to_euclidean_division_equations; lia|]).
  unfold time_plain, units_of, W. rewrite <- !map_app, <- !filter_app. reflexivity.
Qed.

Lemma ago_plainly : forall now sec, sec < now -> now - sec < 2 ^ 64 -> plainly (ago now sec) (time_plain (now - sec) ++ str " ago").
Proof.
  intros now sec H R. unfold ago. destruct (Z.eqb_spec now sec); [lia|]. destruct (Z.ltb_spec now sec); [lia|].
  assert (U : u64 (now - sec) = now - sec) by (unfold u64; apply Z.mod_small; lia). rewrite U.
  destruct (pretty_time_text 1024 (now - sec)) as [E L]; [lia|lia|]. rewrite E. rewrite firstn_all. set (t := join _ _) in *.
  rewrite (firstn_all2 (str " ago")) by (cbn [str length map list_ascii_of_string]; lia). rewrite firstn_all2 by (rewrite app_length; cbn [str length map list_ascii_of_string]; lia).
  apply plainly_app; [apply time_plainly; lia|apply plainly_text, textual_b; reflexivity].
Qed.
Lemma every_plainly : forall n, 0 <= n < 65536 -> plainly (every n) (str "every " ++ time_plain n).
Proof.
  intros n H. unfold every. destruct (pretty_time_text (1024 - 6 - 1) n) as [E L]; [lia|change (2 ^ 64) with 18446744073709551616; lia|]. rewrite E. cbn [fst].
  apply plainly_app; [apply plainly_text, textual_b; reflexivity|apply time_plainly; lia].
Qed.

(** ** Sizes *)
Lemma round_even_near : forall a b, 0 < b -> Z.abs (2 * (round_even a b * b - a)) <= b.
Proof.
  intros a b H. unfold round_even. pose proof (Z.div_mod a b ltac:(lia)) as D. pose proof (Z.mod_pos_bound a b H) as M.
  destruct (Z.ltb_spec (2 * (a mod b)) b); [nia|]. destruct (Z.ltb_spec b (2 * (a mod b))); [nia|]. destruct (Z.even (a / b)); nia.
Qed.
Lemma round_even_nonneg : forall a b, 0 < b -> 0 <= a -> 0 <= round_even a b.
Proof.
  intros a b Hb Ha. unfold round_even. assert (0 <= a / b) by (apply Z.div_pos; lia). destruct (2 * (a mod b) <? b); [lia|]. destruct (b <? 2 * (a mod b)); [lia|]. destruct (Z.even (a / b)); lia.
Qed.
Lemma to_double_near : forall b, 0 <= b -> b < 2 ^ 53 /\ to_double b = b \/ 2 ^ 53 <= b /\ 2 ^ 53 * Z.abs (to_double b - b) <= b.
Proof.
  intros b Hb. unfold to_double. destruct (Z.ltb_spec b (2 ^ 53)) as [H|H]; [left; auto|right; split; [exact H|]].
  assert (L : 53 <= Z.log2 b) by (apply Z.log2_le_pow2; lia). set (e := Z.log2 b - 52). assert (He : 1 <= e) by (unfold e; lia).
  assert (P : 0 < 2 ^ e) by (apply Z.pow_pos_nonneg; lia). pose proof (round_even_near b (2 ^ e) P) as N.
  assert (S : 2 ^ (52 + e) <= b) by (pose proof (Z.log2_spec b ltac:(lia)) as [S _]; replace (52 + e) with (Z.log2 b) by (unfold e; lia); exact S).
  rewrite Z.pow_add_r in S by lia. change (2 ^ 53) with (2 * 2 ^ 52). nia.
Qed.
Lemma to_double_nonneg : forall b, 0 <= b -> 0 <= to_double b.
Proof.
  intros b Hb. unfold to_double. destruct (b <? 2 ^ 53); [exact Hb|]. assert (P : 0 < 2 ^ (Z.log2 b - 52) \/ 2 ^ (Z.log2 b - 52) = 0).
  { pose proof (Z.pow_nonneg 2 (Z.log2 b - 52)). lia. }
  destruct P as [P|P]; [|rewrite P; lia]. pose proof (round_even_nonneg b _ P Hb). nia.
Qed.
Lemma hundredths_print : forall n, 0 <= n -> hundredths (print_hundredths n) n.
Proof.
  intros n Hn. unfold hundredths, print_hundredths. exists (print_dec (n / 100)), (48 + n mod 100 / 10), (48 + n mod 10).
  split; [apply decimal_iff; split; [apply print_num_nonempty|apply print_dec_value, Z.div_pos; lia]|]. unfold dec_digit. repeat split; Z.to_euclidean_division_equations; lia.
Qed.
Lemma hundredths_textual : forall n, 0 <= n -> textual (print_hundredths n).
Proof.
  intros n Hn. unfold print_hundredths. apply textual_app; [apply textual_dec, Z.div_pos; lia|]. apply (textual_by (fun c => 46 <= c <= 57)); [|lia].
  repeat constructor; Z.to_euclidean_division_equations; lia.
Qed.
Definition bytes_plain (b : Z) : list Z :=
  if b <? 1024 then print_dec b ++ str " B"
  else if b <? 1024 * 1024 then print_2f (to_double b) 10 ++ str " KiB"
  else if b <? 1024 * 1024 * 1024 then print_2f (to_double b) 20 ++ str " MiB"
  else if b <? 1024 * 1024 * 1024 * 1024 then print_2f (to_double b) 30 ++ str " GiB"
  else print_2f (to_double b) 40 ++ str " TiB".
Lemma bytes_plainly : forall b, 0 <= b -> plainly (bytes_str b) (bytes_plain b).
Proof.
  assert (G : forall n u, textual n -> textual (str u) -> plainly (n ++ 32 :: cyan ++ str u ++ reset) (n ++ 32 :: str u)).
  { intros n u Hn Hu. change (32 :: cyan ++ str u ++ reset) with ([32] ++ cyan ++ str u ++ reset). rewrite <- (app_nil_r (str u)) at 2. change (32 :: str u ++ []) with ([32] ++ [] ++ str u ++ []).
    plain; apply plainly_text; try assumption. apply textual_b. reflexivity. }
  assert (F : forall b k, 0 <= b -> textual (print_2f (to_double b) k)).
  { intros b k Hb. unfold print_2f. apply hundredths_textual. pose proof (Z.pow_nonneg 2 k ltac:(lia)). pose proof (to_double_nonneg b Hb). destruct (Z.eq_dec (2 ^ k) 0) as [E|E].
    - rewrite E. unfold round_even. rewrite Zdiv_0_r. destruct (2 * (100 * to_double b mod 0) <? 0); [lia|]. destruct (0 <? 2 * (100 * to_double b mod 0)); cbn; lia.
    - apply round_even_nonneg; lia. }
  intros b Hb. unfold bytes_str, bytes_plain. destruct (b <? 1024); [apply G; [apply textual_dec, Hb|apply textual_b; reflexivity]|].
  destruct (b <? 1024 * 1024); [apply (G _ "KiB"%string); [apply F, Hb|apply textual_b; reflexivity]|].
  destruct (b <? 1024 * 1024 * 1024); [apply (G _ "MiB"%string); [apply F, Hb|apply textual_b; reflexivity]|].
  destruct (b <? 1024 * 1024 * 1024 * 1024); [apply (G _ "GiB"%string); [apply F, Hb|apply textual_b; reflexivity]|].
  apply (G _ "TiB"%string); [apply F, Hb|apply textual_b; reflexivity].
Qed.
