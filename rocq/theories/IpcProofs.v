(** The packed list of names: string_list_add never leaves its block and keeps every name. *)
From Coq Require Import String ZArith List Bool Lia.
From Verif Require Import Base Types Encoding Config NlSpec NlProofs NlGetSpec Nl NlSet NlSetProofs4 NlGet NlGetProofs NlRun NlGetProofs3 Show Ipc.
Import ListNotations.
Open Scope Z_scope.

(** "first\0second\0" *)
Definition packed (names : list (list Z)) : list Z := concat (map (fun n => n ++ [0]) names).
Definition good_name (n : list Z) : Prop := n <> [] /\ ~ In 0 n.

(** malloc gives no object of 2^63 bytes or more. *)
Definition heap_ok (hp : heap) : Prop := forall l n junk, hp l n = Some junk -> n < 2 ^ 63.

Definition holds (l : slist) (names : list (list Z)) : Prop :=
  Forall good_name names /\ sl_cap l = len (sl_block l) /\ sl_cap l < 2 ^ 63 /\ sl_len l = len (packed names)
  /\ ((names = [] /\ sl_block l = []) \/ exists rest, sl_block l = packed names ++ 0 :: rest).

Lemma holds0 : holds slist0 [].
Proof. repeat split; try reflexivity; [constructor|]. left. split; reflexivity. Qed.

Lemma len_map : forall (f : Z -> Z) l, len (map f l) = len l.
Proof. intros. unfold len. rewrite map_length. reflexivity. Qed.
Lemma len_zrange : forall a n, len (zrange a n) = Z.of_nat n.
Proof. intros. unfold zrange. unfold len. rewrite map_length, seq_length. reflexivity. Qed.

Lemma resize_grow : forall b n junk, len b <= n -> exists x, resize b n junk = b ++ x /\ len (resize b n junk) = n.
Proof.
  intros b n junk H. unfold resize. unfold len in H. rewrite firstn_all2 by lia. eexists. split; [reflexivity|].
  rewrite len_app, len_map, len_zrange. unfold len. lia.
Qed.

Lemma store_app : forall a b x off, off = len a -> len x <= len b ->
  store (a ++ b) off x = Some (a ++ x ++ skipn (length x) b).
Proof.
  intros a b x off -> H. unfold store. pose proof (len_nonneg a). rewrite len_app.
  destruct (Z.leb_spec 0 (len a)); [|lia]. destruct (Z.leb_spec (len a + len x) (len a + len b)); [|lia]. cbn [andb]. do 2 f_equal.
  - replace (Z.to_nat (len a)) with (length a) by (unfold len; lia). rewrite firstn_app, firstn_all, Nat.sub_diag. cbn [firstn]. apply app_nil_r.
  - f_equal. replace (Z.to_nat (len a + len x)) with (length a + length x)%nat by (unfold len; lia).
    rewrite skipn_app. rewrite skipn_all2 by lia. cbn [app]. f_equal. lia.
Qed.

Lemma packed_app : forall a b, packed (a ++ b) = packed a ++ packed b.
Proof. intros. unfold packed. rewrite map_app, concat_app. reflexivity. Qed.
Lemma packed1 : forall n, packed [n] = n ++ [0].
Proof. intro n. unfold packed. cbn [map concat]. apply app_nil_r. Qed.

Lemma u64_small : forall z, 0 <= z < 2 ^ 64 -> u64 z = z.
Proof. intros z H. unfold u64. apply Z.mod_small, H. Qed.

Lemma add_holds : forall hp l names s, heap_ok hp -> holds l names -> ~ In 0 s -> len s < 2 ^ 62 ->
  exists r l', string_list_add hp l s = Some (r, l')
    /\ ((r = 0 /\ holds l' (names ++ match s with [] => [] | _ => [s] end)) \/ (r = - ENOMEM /\ l' = l)).
Proof.
  intros hp l names s Hh (Hn & Hc & Hb & Hl & Hm) Hs Hls.
  change (2 ^ 62) with 4611686018427387904 in *. change (2 ^ 63) with 9223372036854775808 in *.
  pose proof (len_nonneg s) as Ps. pose proof (len_nonneg (packed names)) as Pp.
  unfold string_list_add. rewrite (u64_small (len s + 1)) by (change (2 ^ 64) with 18446744073709551616; lia).
  destruct (Z.eqb_spec (len s + 1) 1) as [E|E].
  { destruct s as [|x s]; [|unfold len in E; cbn [length] in E; lia]. exists 0, l. split; [reflexivity|]. left. split; [reflexivity|].
    rewrite app_nil_r. repeat split; assumption. }
  assert (Es : exists x s', s = x :: s') by (destruct s as [|x s']; [contradiction E; reflexivity|eauto]).
  assert (Hgood : good_name s) by (split; [destruct Es as (x & s' & ->); discriminate|exact Hs]).
  assert (Elist : match s with [] => [] | _ :: _ => [s] end = [s]) by (destruct Es as (x & s' & ->); reflexivity). rewrite Elist.
  assert (Hlc : sl_len l <= sl_cap l).
  { rewrite Hl, Hc. destruct Hm as [[-> ->]|(rest & ->)]; [cbn; lia|]. rewrite len_app. pose proof (len_nonneg (0 :: rest)). lia. }
  assert (Estr : firstn (Z.to_nat (len s + 1)) (s ++ [0]) = s ++ [0]).
  { apply firstn_all2. rewrite app_length. unfold len. cbn [length]. lia. }
  rewrite Estr.
  (* the rest of the function, for a block with room *)
  assert (Fin : forall l1 x, sl_block l1 = packed names ++ x -> sl_len l1 = sl_len l -> sl_cap l1 = len (sl_block l1) -> sl_cap l1 < 2 ^ 63 -> len s + 2 <= len x ->
    exists l', match store (sl_block l1) (sl_len l1) (s ++ [0]) with
               | None => None
               | Some b => match store b (u64 (sl_len l1 + (len s + 1))) [0] with None => None | Some b1 => Some (0, mk_slist b1 (u64 (sl_len l1 + (len s + 1))) (sl_cap l1)) end
               end = Some (0, l') /\ holds l' (names ++ [s])).
  { intros l1 x E1 E2 E3 E4 E5. change (2 ^ 63) with 9223372036854775808 in *. assert (L1 : len (sl_block l1) = len (packed names) + len x) by (rewrite E1, len_app; reflexivity).
    assert (L2 : len (s ++ [0]) = len s + 1) by (rewrite len_app; reflexivity).
    rewrite u64_small by (change (2 ^ 64) with 18446744073709551616; lia).
    rewrite E1. rewrite (store_app (packed names) x) by lia. rewrite app_assoc.
    assert (L3 : len (skipn (length (s ++ [0])) x) = len x - (len s + 1)).
    { unfold len in *. rewrite skipn_length. rewrite app_length in *. cbn [length] in *. lia. }
    rewrite store_app; [| |rewrite L3; change (len [0]) with 1; lia].
    2: { rewrite len_app, L2. lia. }
    eexists. split; [reflexivity|].
    assert (Ep : packed (names ++ [s]) = packed names ++ s ++ [0]) by (rewrite packed_app, packed1; reflexivity).
    split; [apply Forall_app; split; [exact Hn|constructor; [exact Hgood|constructor]]|].
    cbn [sl_cap sl_block sl_len]. rewrite Ep. change (length [0]) with 1%nat. cbn [app].
    assert (L4 : len (skipn 1 (skipn (length (s ++ [0])) x)) = len x - (len s + 1) - 1).
    { unfold len in *. rewrite skipn_length. lia. }
    repeat split.
    - rewrite len_app. cbn [len]. rewrite len_app, L2. change (len (0 :: skipn 1 (skipn (length (s ++ [0])) x))) with (len ([0] ++ skipn 1 (skipn (length (s ++ [0])) x))).
      rewrite len_app, L4. change (len [0]) with 1. lia.
    - exact E4.
    - rewrite len_app, L2. lia.
    - right. eexists. reflexivity. }
  assert (Ecap : u64 (sl_cap l - sl_len l) = sl_cap l - sl_len l) by (apply u64_small; change (2 ^ 64) with 18446744073709551616; lia).
  rewrite Ecap. destruct (Z.leb_spec (sl_cap l - sl_len l) (len s + 1)) as [Hfull|Hroom].
  - rewrite (u64_small (sl_cap l * 2)) by (change (2 ^ 64) with 18446744073709551616; lia).
    rewrite (u64_small (sl_len l + (len s + 1) + 1)) by (change (2 ^ 64) with 18446744073709551616; lia).
    set (c := if sl_cap l * 2 <? sl_len l + (len s + 1) + 1 then sl_len l + (len s + 1) + 1 else sl_cap l * 2).
    assert (Hcc : sl_len l + len s + 2 <= c /\ sl_cap l <= c).
    { unfold c. destruct (Z.ltb_spec (sl_cap l * 2) (sl_len l + (len s + 1) + 1)); lia. }
    destruct (hp (sl_len l) c) as [junk|] eqn:Eh.
    + specialize (Hh _ _ _ Eh). change (2 ^ 63) with 9223372036854775808 in Hh.
      destruct (resize_grow (sl_block l) c junk ltac:(lia)) as (x & Ex & Lx).
      assert (Hx : exists y, resize (sl_block l) c junk = packed names ++ y).
      { rewrite Ex. destruct Hm as [[-> ->]|(rest & ->)]; [exists x; reflexivity|]. exists ((0 :: rest) ++ x). rewrite app_assoc. reflexivity. }
      destruct Hx as (y & Ey).
      destruct (Fin (mk_slist (resize (sl_block l) c junk) (sl_len l) c) y) as (l' & F1 & F2); cbn [sl_block sl_len sl_cap] in *.
      * exact Ey.
      * reflexivity.
      * symmetry. exact Lx.
      * change (2 ^ 63) with 9223372036854775808. lia.
      * rewrite Ey, len_app in Lx. lia.
      * exists 0, l'. split; [exact F1|]. left. split; [reflexivity|exact F2].
    + exists (- ENOMEM), l. split; [reflexivity|]. right. split; reflexivity.
  - destruct Hm as [[-> Eb]|(rest & Eb)].
    { exfalso. rewrite Eb in Hc. rewrite Hc, Hl in Hroom. cbn in Hroom. lia. }
    destruct (Fin l (0 :: rest) Eb eq_refl Hc) as (l' & F1 & F2).
    + change (2 ^ 63) with 9223372036854775808. exact Hb.
    + rewrite Hc, Hl, Eb, len_app in Hroom. lia.
    + exists 0, l'. split; [exact F1|]. left. split; [reflexivity|exact F2].
Qed.

(** Walking the block gives the names back. *)
Lemma cstring_nul : forall n x, ~ In 0 n -> Terminal.cstring (n ++ 0 :: x) = n.
Proof.
  induction n as [|c n IH]; intros x H; cbn.
  - reflexivity.
  - destruct (Z.eqb_spec c 0) as [->|Hc]; [exfalso; apply H; left; reflexivity|]. f_equal. apply IH. intro H0. apply H. right. exact H0.
Qed.

Lemma walk_packed : forall names rest fuel, Forall good_name names -> (length (packed names) < fuel)%nat ->
  walk fuel (packed names ++ 0 :: rest) = names.
Proof.
  induction names as [|n names IH]; intros rest fuel H Hf.
  - destruct fuel as [|f]; [lia|]. reflexivity.
  - inversion H as [|x y [Hn Hz] Hns]; subst. destruct fuel as [|f]; [lia|].
    assert (E : packed (n :: names) ++ 0 :: rest = n ++ 0 :: (packed names ++ 0 :: rest)).
    { unfold packed. cbn [map concat]. rewrite <- !app_assoc. reflexivity. }
    assert (Lp : length (packed (n :: names)) = (S (length n) + length (packed names))%nat).
    { unfold packed. cbn [map concat]. rewrite !app_length. cbn [length]. lia. }
    rewrite E. cbn [walk]. rewrite cstring_nul by exact Hz. destruct n as [|c n]; [congruence|].
    f_equal. replace (skipn (S (length (c :: n))) ((c :: n) ++ 0 :: (packed names ++ 0 :: rest))) with (packed names ++ 0 :: rest).
    + apply IH; [exact Hns|]. lia.
    + change ((c :: n) ++ 0 :: (packed names ++ 0 :: rest)) with ((c :: n) ++ [0] ++ (packed names ++ 0 :: rest)).
      rewrite app_assoc. symmetry. replace (S (length (c :: n))) with (length ((c :: n) ++ [0])) by (rewrite app_length; cbn [length]; lia).
      rewrite skipn_app, skipn_all, Nat.sub_diag. reflexivity.
Qed.

Lemma holds_names : forall l names, holds l names -> names_of (match sl_block l with [] => [0] | b => b end) = names.
Proof.
  intros l names (Hn & _ & _ & _ & [[-> ->]|(rest & E)]); [reflexivity|].
  assert (E2 : match sl_block l with [] => [0] | b => b end = packed names ++ 0 :: rest).
  { rewrite E. destruct (packed names ++ 0 :: rest) eqn:E0; [destruct (packed names); discriminate|reflexivity]. }
  rewrite E2. apply walk_packed; [exact Hn|]. rewrite app_length. cbn [length]. lia.
Qed.
