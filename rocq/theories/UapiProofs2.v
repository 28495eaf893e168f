(** Proofs about src/ipc-uapi.h: reading replies. *)
From Coq Require Import String ZArith List Bool Lia.
From Verif Require Import Base Ctype Encoding EncodingSpec EncodingProofs HexProofs Cstr CstrProofs Inet InetProofs TextProofs Types
  NumSpec ConfigSpec Config ConfigProofs ConfigProofs2 ConfigProofs4 NlSpec UapiSpec Uapi UapiProofs.
Import ListNotations.
Open Scope Z_scope.

(** * Lines *)

Lemma getlines_line : forall l t, ~ In 10 l -> getlines (l ++ 10 :: t) = (l ++ [10]) :: getlines t.
Proof.
  induction l as [|c l IH]; intros t H; [reflexivity|]. cbn [app getlines].
  destruct (Z.eqb_spec c 10) as [-> | _]; [exfalso; apply H; left; reflexivity|].
  rewrite IH by (intro G; apply H; right; exact G). reflexivity.
Qed.
Lemma getlines_last : forall t, t <> [] -> ~ In 10 t -> getlines t = [t].
Proof.
  induction t as [|c t IH]; intros N H; [congruence|]. cbn [getlines].
  destruct (Z.eqb_spec c 10) as [-> | _]; [exfalso; apply H; left; reflexivity|].
  destruct t as [|c' t]; [reflexivity|]. rewrite IH; [reflexivity|discriminate|]. intro G; apply H; right; exact G.
Qed.
Lemma cut_line : forall t, ~ In 10 t \/ exists l t', t = l ++ 10 :: t' /\ ~ In 10 l.
Proof.
  intro t. destruct (split_first 10 t) as [[l t']|] eqn:E.
  - apply split_first_some in E. right. exists l, t'. exact E.
  - apply split_first_none in E. left. exact E.
Qed.

Lemma cstring_id : forall l, ~ In 0 l -> cstring l = l.
Proof. intros l H. unfold cstring. apply split_first_none in H. rewrite H. reflexivity. Qed.
Lemma cstring_sub : forall l c, In c (cstring l) -> In c l.
Proof.
  intros l c H. unfold cstring in H. destruct (split_first 0 l) as [[a b]|] eqn:E; [|exact H].
  apply split_first_some in E as [-> _]. apply in_or_app. left. exact H.
Qed.
Lemma last_in : forall (l : list Z) d, last l d = d \/ In (last l d) l.
Proof.
  induction l as [|x l IH]; intro d; [left; reflexivity|]. destruct l as [|y l]; [right; left; reflexivity|].
  destruct (IH d) as [E|E]; [left; exact E|right; right; exact E].
Qed.
Lemma classify_no_newline : forall t, ~ In 10 t -> classify t = LBad.
Proof.
  intros t H. unfold classify. cbv zeta. assert (H' : ~ In 10 (cstring t)) by (intro G; apply H, cstring_sub, G).
  destruct (beq (cstring t) [10]) eqn:E; [apply beq_eq in E; rewrite E in H'; exfalso; apply H'; left; reflexivity|].
  destruct (split_first 61 (cstring t)) as [[k v]|]; [|reflexivity].
  destruct (Z.eqb_spec (last (cstring t) 0) 10) as [G|_]; [|reflexivity].
  destruct (last_in (cstring t) 0) as [L|L]; [lia|]. rewrite G in L. contradiction.
Qed.
Lemma classify_empty : classify [10] = LEnd.
Proof. reflexivity. Qed.
Lemma classify_pair : forall l k v, pair_line l k v -> classify (l ++ [10]) = LPair k v.
Proof.
  intros l k v (E & Nk & N0 & N10). unfold classify. cbv zeta.
  rewrite cstring_id by (rewrite in_app_iff; intros [G|[G|[]]]; [auto|discriminate]).
  destruct (beq (l ++ [10]) [10]) eqn:B.
  - apply beq_eq in B. exfalso. rewrite E in B. destruct k as [|c [|c' k]]; discriminate.
  - rewrite E at 1. rewrite <- app_assoc. cbn [app]. rewrite split_first_app by exact Nk.
    rewrite last_last, Z.eqb_refl, removelast_last. reflexivity.
Qed.
Lemma classify_inv : forall l, ~ In 10 l -> match classify (l ++ [10]) with LEnd => l = [] | LBad => l <> [] /\ forall k v, ~ pair_line l k v | LPair k v => pair_line l k v end.
Proof.
  intros l N. destruct l as [|c0 l0]; [reflexivity|]. set (l := c0 :: l0) in *.
  destruct (in_dec Z.eq_dec 0 l) as [I0|N0].
  - replace (classify (l ++ [10])) with LBad; [split; [discriminate|]; intros k v (_ & _ & G & _); contradiction|].
    symmetry. apply in_split in I0 as (a & b & E). destruct (in_dec Z.eq_dec 0 a) as [Ia|Na].
    + (* cut at the first NUL *)
      destruct (split_first 0 l) as [[a' b']|] eqn:S.
      * apply split_first_some in S as [S Na']. unfold classify. cbv zeta. rewrite S, <- app_assoc. unfold cstring. rewrite <- app_comm_cons, split_first_app by exact Na'.
        rewrite <- (cstring_id a' Na'). apply classify_no_newline. intro G. apply N. rewrite S. apply in_or_app. left. exact G.
      * apply split_first_none in S. exfalso. apply S. rewrite E. apply in_or_app. right. left. reflexivity.
    + unfold classify. cbv zeta. rewrite E, <- app_assoc. unfold cstring. rewrite <- app_comm_cons, split_first_app by exact Na.
      rewrite <- (cstring_id a Na). apply classify_no_newline. intro G. apply N. rewrite E. apply in_or_app. left. exact G.
  - destruct (split_first 61 l) as [[k v]|] eqn:S.
    + apply split_first_some in S as [S Nk]. assert (P : pair_line l k v) by (repeat split; assumption).
      rewrite (classify_pair l k v P). exact P.
    + apply split_first_none in S. replace (classify (l ++ [10])) with LBad.
      * split; [discriminate|]. intros k v (E & _). apply S. rewrite E. apply in_elt.
      * symmetry. unfold classify. cbv zeta. rewrite cstring_id by (rewrite in_app_iff; intros [G|[G|[]]]; [auto|discriminate]).
        destruct (beq (l ++ [10]) [10]) eqn:B; [apply beq_eq in B; destruct l0; discriminate|].
        replace (split_first 61 (l ++ [10])) with (@None (list Z * list Z)); [reflexivity|].
        symmetry. apply split_first_none. rewrite in_app_iff. intros [G|[G|[]]]; [auto|discriminate].
Qed.

(** * Numbers *)

Section Num.
Variable sg : bool.
Lemma num_decimal : forall ulmax v, Forall is_byte v ->
  (if negb (char_is_digit (first_of sg v)) then None
   else let '(ret, rest) := strtoul ulmax 10 v in match rest with [] => Some ret | _ => None end)
  = match v, num_value 10 0 v with
    | [], _ => None
    | _, Some n => Some (if ulmax <? n then ulmax else n)
    | _, None => None
    end.
Proof.
  intros ulmax v H. exact (strtoul_decimal (mk_env sg ulmax (fun _ => None) (fun _ _ => None) (fun _ => FNoOpen)) v H).
Qed.

Lemma NUM_iff : forall max v n, Forall is_byte v -> NUM sg max v = Some n <-> exists m, decimal v m /\ n = Z.min m (2 ^ 64 - 1) /\ n <= max.
Proof.
  intros max v n H. pose proof (num_decimal (2 ^ 64 - 1) v H) as D. unfold NUM.
  destruct (negb (char_is_digit (first_of sg v))).
  - split; [discriminate|]. intros (m & Dm & _). apply decimal_iff in Dm as [Nv Vm]. destruct v; [congruence|]. rewrite Vm in D. discriminate.
  - destruct (strtoul (2 ^ 64 - 1) 10 v) as [ret rest].
    destruct rest as [|r rest].
    + destruct v as [|c v]; [discriminate|]. destruct (num_value 10 0 (c :: v)) as [m|] eqn:V; [|discriminate].
      assert (Dm : decimal (c :: v) m) by (apply decimal_iff; split; [discriminate|exact V]).
      assert (E : ret = Z.min m (2 ^ 64 - 1)).
      { apply (f_equal (fun o => match o with Some x => x | None => 0 end)) in D. rewrite D. destruct (Z.ltb_spec (2 ^ 64 - 1) m); lia. }
      destruct (Z.ltb_spec max ret); split.
      * discriminate.
      * intros (m' & Dm' & -> & Hm). apply decimal_iff in Dm' as [_ Vm]. rewrite V in Vm. injection Vm as <-. lia.
      * intro G. injection G as <-. exists m. auto.
      * intros (m' & Dm' & -> & Hm). apply decimal_iff in Dm' as [_ Vm]. rewrite V in Vm. injection Vm as <-. f_equal. exact E.
    + split; [discriminate|]. intros (m & Dm & _). apply decimal_iff in Dm as [Nv Vm]. destruct v; [congruence|]. rewrite Vm in D. discriminate.
Qed.
Lemma NUM_small : forall max v n, Forall is_byte v -> max < 2 ^ 64 - 1 -> NUM sg max v = Some n <-> decimal v n /\ n <= max.
Proof.
  intros max v n H Hm. rewrite NUM_iff by exact H. split.
  - intros (m & Dm & -> & L). replace (Z.min m (2 ^ 64 - 1)) with m in * by lia. auto.
  - intros [Dn L]. exists n. repeat split; [exact Dn|lia|exact L].
Qed.
End Num.

(** * The reply to "set" *)

Lemma strtoll_digits : forall s, s <> [] -> Forall is_byte s -> (48 <= hd 0 s <= 57) ->
  match num_value 10 0 s with
  | Some v => strtoll s = (Z.min v (2 ^ 63 - 1), []) /\ strtoll (45 :: s) = (Z.max (- v) (- 2 ^ 63), [])
  | None => snd (strtoll s) <> [] /\ snd (strtoll (45 :: s)) <> []
  end.
Proof.
  intros s N B Hd. destruct s as [|c s]; [congruence|]. cbn [hd] in Hd. unfold strtoll.
  assert (S1 : skip_spaces (c :: s) = c :: s).
  { simpl. unfold isspace. destruct (Z.leb_spec 9 c), (Z.leb_spec c 13), (Z.eqb_spec c 32); simpl; try reflexivity; lia. }
  rewrite S1. change (skip_spaces (45 :: c :: s)) with (45 :: c :: s). cbv iota beta.
  replace (match c :: s with 45 :: t => (true, t) | 43 :: t => (false, t) | _ => (false, c :: s) end) with (false, c :: s).
  2:{ destruct c as [|p|p]; try reflexivity. do 6 (destruct p as [p|p|]; try reflexivity; try (exfalso; lia)). }
  pose proof (take_digits_all 10 (c :: s) 0 0) as T.
  assert (D : digit_in 10 c = Some (c - 48)).
  { rewrite digit_in_10. destruct (Z.leb_spec 48 c), (Z.leb_spec c 57); simpl; try lia. reflexivity. }
  destruct (num_value 10 0 (c :: s)) as [v|].
  - rewrite T. cbn [length Nat.add]. split; reflexivity.
  - destruct (take_digits 10 0 0 (c :: s)) as [[v n] rest] eqn:E. simpl in T.
    destruct n.
    + exfalso. simpl in E. rewrite D in E. pose proof (take_digits_count 10 s (c - 48) 1) as N'. rewrite E in N'. simpl in N'. lia.
    + split; exact T.
Qed.

Lemma decimal_head : forall v n, decimal v n -> v <> [] /\ 48 <= hd 0 v <= 57.
Proof.
  intros v n H. apply decimal_iff in H as [N V]. split; [exact N|]. destruct v as [|c v]; [congruence|]. cbn [num_value hd] in *.
  rewrite digit_in_10 in V. destruct (Z.leb_spec 48 c), (Z.leb_spec c 57); simpl in V; try discriminate. lia.
Qed.
Lemma decimal_bytes : forall v n, decimal v n -> Forall is_byte v.
Proof.
  intros v n H. unfold decimal in H. induction H as [c v [H _]|s n c v H IH [Hc _]].
  - constructor; [unfold is_byte; lia|constructor].
  - apply Forall_app. split; [exact IH|]. constructor; [unfold is_byte; lia|constructor].
Qed.

Lemma errno_value : forall sg v, Forall is_byte v -> forall m,
  (if negb (first_of sg v =? 45) && negb (char_is_digit (first_of sg v)) then None
   else let '(num, rest) := strtoll v in
        match rest with [] => if (2 ^ 31 - 1 <? num) || (num <? - 2 ^ 31) then None else Some num | _ => None end) = Some m
  <-> integer v m /\ - 2 ^ 31 <= m < 2 ^ 31.
Proof.
  intros sg v B m.
  assert (R : forall num, (if (2 ^ 31 - 1 <? num) || (num <? - 2 ^ 31) then None else Some num) = Some m <-> m = num /\ - 2 ^ 31 <= num < 2 ^ 31).
  { intro num. destruct (Z.ltb_spec (2 ^ 31 - 1) num), (Z.ltb_spec num (- 2 ^ 31)); cbn [orb]; split; try discriminate; intro G; try lia.
    - injection G as <-. lia.
    - destruct G as [-> _]. reflexivity. }
  destruct v as [|c v].
  { change (negb (first_of sg [] =? 45) && negb (char_is_digit (first_of sg []))) with true. cbv iota. split; [discriminate|].
    intros [I _]. inversion I as [? ? D|]; subst. apply decimal_head in D as [D _]. congruence. }
  assert (Fd : char_is_digit (first_of sg (c :: v)) = (48 <=? c) && (c <=? 57)).
  { inversion_clear B as [|? ? Bc Bv]. exact (first_digit (mk_env sg 0 (fun _ => None) (fun _ _ => None) (fun _ => FNoOpen)) c v Bc). }
  assert (Fm : (first_of sg (c :: v) =? 45) = (c =? 45)).
  { inversion_clear B as [|? ? Bc Bv]. unfold first_of, char_val, is_byte in *. destruct (Z.eqb_spec c 45) as [-> | Hc].
    - destruct sg; reflexivity.
    - apply Z.eqb_neq. destruct sg; cbn [andb]; [|exact Hc]. destruct (128 <=? c); lia. }
  rewrite Fd, Fm. destruct (Z.eqb_spec c 45) as [-> | Hc]; cbn [negb andb].
  - (* minus *)
    destruct v as [|c v].
    { cbn. split; [discriminate|]. intros [I _]. inversion I as [? ? D|? ? D]; subst; apply decimal_head in D as [D1 D2]; cbn in D2; lia. }
    assert (Hn : ~ (48 <= c <= 57) -> snd (strtoll (45 :: c :: v)) <> []).
    { intros Hd. unfold strtoll. change (skip_spaces (45 :: c :: v)) with (45 :: c :: v). cbv iota beta. cbn [take_digits].
      rewrite digit_in_10. destruct (Z.leb_spec 48 c), (Z.leb_spec c 57); cbn [andb]; try lia; cbn; discriminate. }
    split.
    + destruct (Z.leb_spec 48 c), (Z.leb_spec c 57).
      * pose proof (strtoll_digits (c :: v) ltac:(discriminate) ltac:(inversion B; assumption) ltac:(cbn; lia)) as S.
        destruct (num_value 10 0 (c :: v)) as [n|] eqn:V.
        -- destruct S as [_ ->]. cbv iota. intro G. apply R in G as [-> G]. assert (n <= 2 ^ 31) by lia. replace (Z.max (- n) (- 2 ^ 63)) with (- n) in * by lia.
           split; [|lia]. apply int_neg, decimal_iff. split; [discriminate|exact V].
        -- destruct S as [_ S]. destruct (strtoll (45 :: c :: v)) as [x [|y z]]; [contradiction S; reflexivity|discriminate].
      * specialize (Hn ltac:(lia)). destruct (strtoll (45 :: c :: v)) as [x [|y z]]; [contradiction Hn; reflexivity|discriminate].
      * specialize (Hn ltac:(lia)). destruct (strtoll (45 :: c :: v)) as [x [|y z]]; [contradiction Hn; reflexivity|discriminate].
      * specialize (Hn ltac:(lia)). destruct (strtoll (45 :: c :: v)) as [x [|y z]]; [contradiction Hn; reflexivity|discriminate].
    + intros [I Hm]. inversion I as [? ? D|w n D]; subst.
      * apply decimal_head in D as [_ D]. cbn in D. lia.
      * pose proof (decimal_nonneg _ _ D). pose proof (decimal_head _ _ D) as [_ Hh]. pose proof (strtoll_digits (c :: v) ltac:(discriminate) ltac:(inversion B; assumption) Hh) as S.
        apply decimal_iff in D as [_ V]. rewrite V in S. destruct S as [_ ->]. cbv iota. apply R. lia.
  - (* digit *)
    destruct (Z.leb_spec 48 c), (Z.leb_spec c 57); cbn [andb negb];
      try (split; [discriminate|]; intros [I _]; inversion I as [? ? D|? ? D]; subst; [apply decimal_head in D as [_ D]; cbn in D|]; lia).
    pose proof (strtoll_digits (c :: v) ltac:(discriminate) B ltac:(cbn; lia)) as S. split.
    + destruct (num_value 10 0 (c :: v)) as [n|] eqn:V.
      * destruct S as [-> _]. cbv iota. intro G. apply R in G as [-> G]. replace (Z.min n (2 ^ 63 - 1)) with n in * by lia.
        split; [|lia]. apply int_pos, decimal_iff. split; [discriminate|exact V].
      * destruct S as [S _]. destruct (strtoll (c :: v)) as [x [|y z]]; [contradiction S; reflexivity|discriminate].
    + intros [I Hm]. inversion I as [? ? D|]; subst; [|lia]. pose proof (decimal_nonneg _ _ D). apply decimal_iff in D as [_ V]. rewrite V in S. destruct S as [-> _].
      cbv iota. apply R. lia.
Qed.

Lemma errno_or : forall sg v (fail : Z) (next : Z -> Z), 
  (if negb (first_of sg v =? 45) && negb (char_is_digit (first_of sg v)) then fail
            else let '(num, rest) := strtoll v in
                 match rest with
                 | [] => if (2 ^ 31 - 1 <? num) || (num <? - 2 ^ 31) then fail else next num
                 | _ => fail
                 end)
  = match (if negb (first_of sg v =? 45) && negb (char_is_digit (first_of sg v)) then None
   else let '(num, rest) := strtoll v in
        match rest with [] => if (2 ^ 31 - 1 <? num) || (num <? - 2 ^ 31) then None else Some num | _ => None end) with
    | Some m => next m | None => fail end.
Proof.
  intros. destruct (negb (first_of sg v =? 45) && negb (char_is_digit (first_of sg v))); [reflexivity|].
  destruct (strtoll v) as [num [|? ?]]; [|reflexivity]. destruct ((2 ^ 31 - 1 <? num) || (num <? - 2 ^ 31)); reflexivity.
Qed.

Section SetReplySpec.
Variable sg : bool.
Variable errno : Z.
Definition fail_code : Z := if errno =? 0 then - 71 else - errno.

Lemma set_reply_sound : forall ls n r rest, set_result n ls r -> Forall is_byte (unlines ls) ->
  set_reply_loop sg errno (getlines (unlines ls ++ 10 :: rest)) n = r.
Proof.
  induction 1 as [n|n l v m ls r P I Hm H IH|n l k v ls r P Nk H IH]; intro B.
  - reflexivity.
  - assert (Pl := P). destruct P as (E & _ & _ & N10). unfold unlines in *. cbn [flat_map] in *. fold (unlines ls) in *. rewrite <- !app_assoc in *. cbn [app] in *.
    rewrite getlines_line by exact N10. cbn [set_reply_loop]. rewrite (classify_pair _ _ _ Pl), beq_refl, errno_or.
    apply Forall_app in B as [B1 B2]. inversion_clear B2 as [|? ? _ B3].
    assert (Bv : Forall is_byte v). { rewrite E in B1. apply Forall_app in B1 as [_ B1]. inversion B1; assumption. }
    assert (Ev := proj2 (errno_value sg v Bv m) (conj I Hm)). rewrite Ev. apply IH. exact B3.
  - assert (Pl := P). destruct P as (E & _ & _ & N10). unfold unlines in *. cbn [flat_map] in *. fold (unlines ls) in *. rewrite <- !app_assoc in *. cbn [app] in *.
    rewrite getlines_line by exact N10. cbn [set_reply_loop]. rewrite (classify_pair _ _ _ Pl). apply beq_neq in Nk. rewrite Nk.
    apply IH. apply Forall_app in B as [_ B]. inversion B; assumption.
Qed.

Lemma set_reply_complete : forall len t n, (length t <= len)%nat -> Forall is_byte t ->
  set_reply_loop sg errno (getlines t) n = fail_code \/
  exists ls rest, t = unlines ls ++ 10 :: rest /\ set_result n ls (set_reply_loop sg errno (getlines t) n).
Proof.
  induction len as [|len IH]; intros t n L B.
  { destruct t; [|cbn in L; lia]. left. reflexivity. }
  destruct (cut_line t) as [N|(l & t' & -> & N)].
  - left. destruct t as [|c t]; [reflexivity|]. rewrite getlines_last by (discriminate || exact N). cbn [set_reply_loop].
    rewrite classify_no_newline by exact N. reflexivity.
  - rewrite getlines_line by exact N. cbn [set_reply_loop]. pose proof (classify_inv l N) as C.
    rewrite app_length in L. cbn [length] in L.
    apply Forall_app in B as [Bl Bt]. inversion_clear Bt as [|? ? _ Bt']. 
    destruct (classify (l ++ [10])) as [| |k v].
    + subst l. right. exists [], t'. split; [reflexivity|constructor].
    + left. reflexivity.
    + assert (P := C). destruct C as (E & Nk & N0 & _).
      destruct (beq k (str "errno")) eqn:Ek.
      * apply beq_eq in Ek. subst k. rewrite errno_or.
        assert (Bv : Forall is_byte v). { rewrite E in Bl. apply Forall_app in Bl as [_ Bl]. inversion Bl; assumption. }
        match goal with |- context [match ?x with Some m => _ | None => _ end] => destruct x as [m|] eqn:V end; [|left; reflexivity].
        apply (errno_value sg v Bv m) in V as [I Hm]. destruct (IH t' m ltac:(lia) Bt') as [F|(ls & rest & -> & S)]; [left; exact F|].
        right. exists (l :: ls), rest. split; [unfold unlines; cbn [flat_map]; rewrite <- !app_assoc; reflexivity|].
        apply (sr_errno n l v m ls); assumption.
      * apply beq_neq in Ek. destruct (IH t' n ltac:(lia) Bt') as [F|(ls & rest & -> & S)]; [left; exact F|].
        right. exists (l :: ls), rest. split; [unfold unlines; cbn [flat_map]; rewrite <- !app_assoc; reflexivity|].
        apply (sr_other n l k v ls); assumption.
Qed.
End SetReplySpec.
