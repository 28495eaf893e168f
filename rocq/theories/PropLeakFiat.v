(** C65: the 32-bit scalar multiplication as it is written computes X25519, and the private key cannot be read off its time or its memory accesses. *)
From Coq Require Import String ZArith List Bool Lia.
From Verif Require Import Base CurveSpec Leak LeakValue LeakProofs LeakRuns LeakCurve LeakFiat.
From Verif Require LeakNice.
From Verif Require LeakFiatOps LeakFiatValue LeakFiatValue2 PropFiat.
Import ListNotations.
Open Scope string_scope.
Open Scope Z_scope.

(** The local arrays, their types and lengths; what they hold at first is anything of the type. *)
Definition limbs (x : string) : string * (Z * nat) := (x, (2 ^ 32, 10%nat)).
Definition layout : list (string * (Z * nat)) :=
  (map limbs ["x1"; "x2"; "z2"; "x3"; "z3"; "x2l"; "z2l"; "x3l"; "tmp0"; "tmp1"; "tmp0l"; "tmp1l"; "t0"; "t1"; "t2"; "t3"; "l"; "h"] ++ [("e", (2 ^ 8, 32%nat))])%list.
Definition holds (d : Z * nat) (l : list Z) : Prop := length l = snd d /\ Forall (fun c => 0 <= c < fst d) l.
Definition laid_out (lay : list (string * (Z * nat))) (m : list (string * list Z)) : Prop := Forall2 (fun p d => fst p = fst d /\ holds (snd d) (snd p)) m lay.
Definition bytes32 (l : list Z) : Prop := holds (2 ^ 8, 32%nat) l.

Definition args : list (string * (Z * nat)) := [("mypublic", (2 ^ 8, 32%nat)); ("secret", (2 ^ 8, 32%nat)); ("basepoint", (2 ^ 8, 32%nat))].
Definition ranges (lay : list (string * (Z * nat))) : env (list itv) := map (fun d => (fst d, repeat (0, fst (snd d) - 1) (snd (snd d)))) lay.
Definition arrays0 : env (list itv) := Eval vm_compute in ranges (layout ++ args).
Definition A_start : astate := mk_astate [] arrays0.
Definition pt (x : string) : ptr := (x, 0).
Definition before : list stmt := before_ (pt "secret") (pt "basepoint").
Definition range_of (x : string) : itv :=
  if existsb (String.eqb x) ["pos"; "i"] then (- 2 ^ 31, 2 ^ 31 - 1)
  else if existsb (String.eqb x) ["b"; "swap"; "cb"; "ci"; "cx"; "a0"; "a1"; "a2"; "a3"; "a4"; "a5"; "a6"; "a7"] then (0, 2 ^ 32 - 1)
  else (0, 2 ^ 64 - 1).
Definition whole (names : list string) : astate := Eval cbv delta [arrays0] in mk_astate (map (fun x => (x, range_of x)) names) arrays0.
Definition names_of (o : a_outcome) : list string := match o with Some (a, _, _) => map fst (a_vars a) | None => [] end.
Definition names0 : list string := Eval vm_compute in names_of (a_exec true 300 (block before) A_start).
Definition names1 : list string := Eval vm_compute in names_of (a_exec true 300 (block (before ++ bit_ ++ rung_)) A_start).
Definition Full : astate := whole names1.
Lemma rung_runs : forall sg, runs sg 300 Full (block rung_) Full.
Proof. intro sg. apply runs_calc. vm_compute. reflexivity. Qed.

Definition one (z : Z) : itv := (z, z).
Definition anyint : itv := (- 2 ^ 31, 2 ^ 31 - 1).
Ltac calc := apply runs_calc; vm_compute; reflexivity.
Lemma not_in : forall x l, existsb (String.eqb x) l = false -> ~ In x l.
Proof. intros x l E H. assert (existsb (String.eqb x) l = true); [|congruence]. apply existsb_exists. exists x. split; [exact H|apply String.eqb_refl]. Qed.
Definition decides (sg : bool) (A : astate) (e : expr) (b : bool) : bool := match a_eval sg e A with Some (i, _) => match truth i with Some c => Bool.eqb c b | None => false end | None => false end.
Definition leads (sg : bool) (A : astate) (c : stmt) (B : astate) : bool := match a_exec sg 300 c A with Some (a, None, _) => leq a B | _ => false end.
Definition check_all (n : nat) (f : nat -> bool) : bool := forallb f (List.seq 0 n).
Lemma check_all_sound : forall n f k, check_all n f = true -> (k < n)%nat -> f k = true.
Proof. intros n f k H L. unfold check_all in H. rewrite forallb_forall in H. apply H. apply in_seq. lia. Qed.
Lemma one_any : forall z, 0 <= z <= 1000 -> i_leq (one z) anyint = true.
Proof. intros z L. unfold i_leq, one, anyint. cbn [fst snd]. apply andb_true_iff. split; apply Z.leb_le; lia. Qed.

(** ** The 255 rounds of the ladder; the first one starts without most variables *)
Definition at_pos (A : astate) (p : Z) : astate := know A "pos" (one p).
Definition cond : expr := Bin I32 Lt (Lit (-1)) (v "pos").
Definition dec : stmt := Set_ I32 "pos" (Bin I32 Sub (v "pos") (Lit 1)).
Definition round : stmt := block (bit_ ++ rung_ ++ [dec]).
Definition Big (k : nat) : astate := at_pos Full (Z.of_nat k - 1).
Lemma may_pos : forall p, -1 <= p <= 1000 -> may Full "pos" (one p).
Proof. intros p L. exists anyint. split; [reflexivity|]. unfold i_leq, one, anyint. cbn [fst snd]. apply andb_true_iff. split; apply Z.leb_le; lia. Qed.
Lemma round_runs : forall sg k, (k < 254)%nat -> decided sg (Big (S k)) cond true /\ runs sg 300 (Big (S k)) round (Big k).
Proof.
  intros sg k L. split.
  { apply decided_calc. apply (check_all_sound 254 (fun k => decides sg (Big (S k)) cond true) k); [|exact L]. vm_compute. reflexivity. }
  unfold round. apply (runs_app sg 300 _ (Big (S k)) _ bit_ (rung_ ++ [dec])).
  { apply runs_calc. apply (check_all_sound 254 (fun k => leads sg (Big (S k)) (block bit_) (Big (S k))) k); [|exact L]. vm_compute. reflexivity. }
  apply (runs_app sg 300 _ (Big (S k)) _ rung_ [dec]).
  { apply runs_frame; [apply rung_runs|apply not_in; vm_compute; reflexivity|]. apply may_pos. lia. }
  apply runs_calc. apply (check_all_sound 254 (fun k => leads sg (Big (S k)) (block [dec]) (Big k)) k); [|exact L]. vm_compute. reflexivity.
Qed.
Definition P0 : astate := at_pos (whole names0) 254.
Lemma ladder_runs : forall sg, runs sg 300 P0 ladder_ Full.
Proof.
  intro sg. unfold ladder_. fold cond. fold dec. fold round. apply (runs_weaken sg 300 P0 P0 (Big 0) Full); [|vm_compute; reflexivity|vm_compute; reflexivity].
  apply (runs_while sg 300 256); [|lia]. apply (rounds_more sg 300 255 P0 (Big 254) (Big 0)).
  - apply decided_calc. vm_compute. reflexivity.
  - calc.
  - apply (rounds_down sg 300 Big cond round 254).
    + apply decided_calc. vm_compute. reflexivity.
    + intros k L. apply round_runs. lia.
Qed.

(** ** The 254 squarings of the inversion *)
Definition names2 : list string := Eval vm_compute in (names1 ++ ["i"])%list.
Definition Full2 : astate := whole names2.
Definition icond (n : Z) : expr := Bin I32 Lt (v "i") (Lit n).
Definition inc : stmt := Set_ I32 "i" (Bin I32 Add (v "i") (Lit 1)).
Definition Sq (n : nat) (k : nat) : astate := know Full2 "i" (one (Z.of_nat n - Z.of_nat k)).
Lemma sqr_runs : forall sg x y, In x ["t0"; "t1"; "t2"; "t3"] -> In y ["t0"; "t1"; "t2"; "t3"] -> runs sg 300 Full2 (fe_sqr_ (pt x) (pt y)) Full2.
Proof.
  intros sg x y Hx Hy. apply runs_calc. fold (leads sg Full2 (fe_sqr_ (pt x) (pt y)) Full2).
  assert (C : forallb (fun x => forallb (fun y => leads sg Full2 (fe_sqr_ (pt x) (pt y)) Full2) ["t0"; "t1"; "t2"; "t3"]) ["t0"; "t1"; "t2"; "t3"] = true) by (vm_compute; reflexivity).
  rewrite forallb_forall in C. specialize (C x Hx). rewrite forallb_forall in C. exact (C y Hy).
Qed.
Definition sq_checks (sg : bool) (n : nat) : bool :=
  decides sg (Sq n 0) (icond (Z.of_nat n)) false && check_all (n - 1) (fun k => decides sg (Sq n (S k)) (icond (Z.of_nat n)) true && leads sg (Sq n (S k)) inc (Sq n k)).
Lemma may_i : forall j, 0 <= j <= 1000 -> may Full2 "i" (one j).
Proof. intros j L. exists anyint. split; [reflexivity|apply one_any; exact L]. Qed.
Lemma sq_loop_runs : forall sg A x n, leads sg A (Set_ I32 "i" (Lit 1)) (Sq n (n - 1)) = true -> sq_checks sg n = true -> In x ["t0"; "t1"; "t2"; "t3"] -> (1 < n <= 100)%nat ->
  runs sg 300 A (sq_loop_ (pt x) (Z.of_nat n)) Full2.
Proof.
  intros sg A x n HA HC Hx L. unfold sq_checks in HC. apply andb_true_iff in HC. destruct HC as [H0 HC]. unfold sq_loop_. apply (runs_seq sg 300 _ (Sq n (n - 1))); [apply runs_calc; exact HA|].
  apply (runs_forget sg 300 _ _ Full2 "i" (one (Z.of_nat n - Z.of_nat 0))); [|apply may_i; lia]. fold (Sq n 0). fold (icond (Z.of_nat n)). fold inc.
  apply (runs_while sg 300 (S (n - 1))); [|lia]. apply (rounds_down sg 300 (Sq n)); [apply decided_calc; exact H0|].
  intros k Lk. pose proof (check_all_sound _ _ k HC Lk) as C. apply andb_true_iff in C. destruct C as [C1 C2]. split; [apply decided_calc; exact C1|].
  apply (runs_seq sg 300 _ (Sq n (S k))); [|apply runs_calc; exact C2].
  apply runs_frame; [apply sqr_runs; exact Hx|apply not_in; vm_compute; reflexivity|apply may_i; lia].
Qed.
Lemma more_sq : forall sg x n, sq_checks sg n = true -> leads sg Full2 (Set_ I32 "i" (Lit 1)) (Sq n (n - 1)) = true -> In x ["t0"; "t1"; "t2"; "t3"] -> (1 < n <= 100)%nat -> runs sg 300 Full2 (sq_loop_ (pt x) (Z.of_nat n)) Full2.
Proof. intros sg x n H1 H2. apply sq_loop_runs; assumption. Qed.
Ltac sq n := apply (more_sq _ _ n); [vm_compute; reflexivity|vm_compute; reflexivity|cbn; tauto|lia].
Ltac sqr := apply sqr_runs; cbn; tauto.
Lemma invert_runs : forall sg, runs sg 300 Full (fe_invert_ (pt "z2") (pt "z2")) Full2.
Proof.
  intro sg. unfold fe_invert_. apply (runs_app sg 300 _ Full _ [fe_copy_ (pt "l") (pt "z2")] [fe_loose_invert_ (pt "z2") (pt "l")]); [calc|].
  unfold fe_loose_invert_, pt. fold (pt "t0") (pt "t1") (pt "t2") (pt "t3") (pt "l") (pt "z2"). cbv zeta. eapply runs_seq; [|apply runs_skip]. cbn [block fold_right].
  apply (runs_seq sg 300 _ Full); [calc|]. apply (runs_seq sg 300 _ Full); [calc|].
  apply (runs_seq sg 300 _ Full2). { apply (sq_loop_runs sg Full "t1" 2); [vm_compute; reflexivity|vm_compute; reflexivity|cbn; tauto|lia]. }
  apply (runs_seq sg 300 _ Full2); [calc|]. apply (runs_seq sg 300 _ Full2); [calc|]. apply (runs_seq sg 300 _ Full2); [sqr|]. apply (runs_seq sg 300 _ Full2); [calc|].
  apply (runs_seq sg 300 _ Full2); [sqr|]. apply (runs_seq sg 300 _ Full2); [sq 5%nat|]. apply (runs_seq sg 300 _ Full2); [calc|].
  apply (runs_seq sg 300 _ Full2); [sqr|]. apply (runs_seq sg 300 _ Full2); [sq 10%nat|]. apply (runs_seq sg 300 _ Full2); [calc|].
  apply (runs_seq sg 300 _ Full2); [sqr|]. apply (runs_seq sg 300 _ Full2); [sq 20%nat|]. apply (runs_seq sg 300 _ Full2); [calc|].
  apply (runs_seq sg 300 _ Full2); [sqr|]. apply (runs_seq sg 300 _ Full2); [sq 10%nat|]. apply (runs_seq sg 300 _ Full2); [calc|].
  apply (runs_seq sg 300 _ Full2); [sqr|]. apply (runs_seq sg 300 _ Full2); [sq 50%nat|]. apply (runs_seq sg 300 _ Full2); [calc|].
  apply (runs_seq sg 300 _ Full2); [sqr|]. apply (runs_seq sg 300 _ Full2); [sq 100%nat|]. apply (runs_seq sg 300 _ Full2); [calc|].
  apply (runs_seq sg 300 _ Full2); [sqr|]. apply (runs_seq sg 300 _ Full2); [sq 50%nat|]. apply (runs_seq sg 300 _ Full2); [calc|].
  apply (runs_seq sg 300 _ Full2); [sqr|]. apply (runs_seq sg 300 _ Full2); [sq 5%nat|]. apply (runs_seq sg 300 _ Full2); [calc|]. apply runs_skip.
Qed.

(** ** The whole call *)
Definition pub (alias : bool) : string := if alias then "secret" else "mypublic".
Definition names3 : list string := Eval vm_compute in names_of (a_exec true 300 (fe_tobytes_ (pt "mypublic") (pt "x2")) Full2).
Definition zeros (a : string) (n : nat) (s : astate) : astate := mk_astate (a_vars s) (put (a_arrays s) a (repeat (one 0) n)).
Definition cleared : list string := ["x1"; "x2"; "z2"; "x3"; "z3"; "x2l"; "z2l"; "x3l"].
Definition A_end : astate := fold_right (fun x => zeros x 10) (zeros "e" 32 (whole names3)) cleared.
Lemma program_runs : forall sg alias, runs sg 300 A_start (curve25519_generic_ (pt (pub alias)) (pt "secret") (pt "basepoint")) A_end.
Proof.
  intros sg alias. unfold curve25519_generic_. apply (runs_app sg 300 _ P0); [calc|]. cbn [app block fold_right].
  apply (runs_seq sg 300 _ Full); [apply ladder_runs|]. unfold after_. apply (runs_app sg 300 _ (whole names3)).
  - cbn [block fold_right]. apply (runs_seq sg 300 _ Full); [calc|]. apply (runs_seq sg 300 _ Full); [calc|]. apply (runs_seq sg 300 _ Full2); [apply invert_runs|].
    apply (runs_seq sg 300 _ Full2); [calc|]. eapply runs_seq; [|apply runs_skip]. destruct alias; calc.
  - calc.
Qed.

(** ** The property *)
Lemma ranges_within : forall lay m, laid_out lay m -> agree (Forall2 inside) m (ranges lay).
Proof.
  intros lay m H. induction H as [|[x l] [y [b n]] m lay [E [Hl Hb]] F IH]; [constructor|]. cbn [ranges map fst snd] in *. constructor; [|exact IH]. split; [exact E|]. cbn [snd].
  clear - Hl Hb. revert l Hl Hb. induction n as [|n IH]; intros [|z l] Hl Hb; cbn [length repeat] in *; try discriminate; constructor.
  - apply Forall_inv in Hb. unfold inside. cbn [fst snd]. lia.
  - apply IH; [congruence|]. exact (Forall_inv_tail Hb).
Qed.
Lemma all_zero : forall n l, Forall2 inside l (repeat (one 0) n) -> l = repeat 0 n.
Proof.
  intro n. induction n as [|n IH]; intros l H; inversion H as [|x i l1 l2 Hx F]; subst; [reflexivity|]. cbn [repeat]. rewrite (IH _ F). f_equal. unfold inside, one in Hx. cbn [fst snd] in Hx. lia.
Qed.
(** The arrays of secrets that are zero at the end. *)
Definition wiped (s : state) : Prop :=
  get (st_arrays s) "e" = Some (repeat 0 32) /\ Forall (fun x => get (st_arrays s) x = Some (repeat 0 10)) ["x1"; "x2"; "z2"; "x3"; "z3"; "x2l"; "z2l"; "x3l"].
Lemma program_end : forall s, within s A_end -> wiped s.
Proof.
  intros s [_ W].
  assert (G : forall x n, get (a_arrays A_end) x = Some (repeat (one 0) n) -> get (st_arrays s) x = Some (repeat 0 n)).
  { intros x n E. assert (G : exists l, get (st_arrays s) x = Some l /\ Forall2 inside l (repeat (one 0) n)) by (revert E; apply agree_get; exact W). destruct G as (l & E1 & F). rewrite E1. f_equal. apply all_zero. exact F. }
  split; [apply G; reflexivity|]. repeat (apply Forall_cons; [apply G; reflexivity|]). apply Forall_nil.
Qed.

(** What the run computes: LeakFiatValue2.v, with the theorem that Fiat.v is X25519 of RFC 7748. *)
Lemma laid_get : forall lay m rest x d, laid_out lay m -> get lay x = Some d -> exists l, get (m ++ rest)%list x = Some l /\ holds d l.
Proof.
  intros lay m rest x d H. induction H as [|[y l] [z d1] m lay [E Hl] F IH]; intro G; [discriminate|]. cbn [fst snd get app] in *. subst z. destruct (String.eqb x y); [injection G as <-; exists l; split; [reflexivity|exact Hl]|exact (IH G)].
Qed.
Lemma laid_good : forall locals rest, laid_out layout locals -> LeakFiatOps.good (mk_state [] (locals ++ rest)%list).
Proof.
  intros locals rest H a d G. cbn [st_arrays].
  assert (C : get layout a = Some (2 ^ fst d, snd d)).
  { unfold LeakFiatOps.lay, LeakFiatOps.slot_names in G. cbn [map app get] in G.
    repeat match type of G with (if String.eqb a ?n then _ else _) = _ => destruct (String.eqb_spec a n) as [->|_]; [injection G as <-; reflexivity|] end. discriminate. }
  destruct (laid_get layout locals rest a _ H C) as (l & E & Hl). exists l. split; [exact E|exact Hl].
Qed.
Lemma laid_rest : forall lay m rest x, laid_out lay m -> get lay x = None -> get (m ++ rest)%list x = get rest x.
Proof.
  intros lay m rest x H. induction H as [|[y l] [z d] m lay [E Hl] F IH]; intro G; [reflexivity|]. cbn [fst snd get app] in *. subst z. destruct (String.eqb x y); [discriminate|exact (IH G)].
Qed.
Lemma run_value : forall sg alias locals rest secret basepoint out s T, laid_out layout locals -> bytes32 secret -> bytes32 basepoint -> bytes32 out ->
  get rest "secret" = Some secret -> get rest "basepoint" = Some basepoint -> get rest (pub alias) = Some out ->
  exec sg 300 (curve25519_generic_ (pub alias, 0) ("secret", 0) ("basepoint", 0)) (mk_state [] (locals ++ rest)%list) = Some (s, None, T) -> get (st_arrays s) (pub alias) = Some (x25519 secret basepoint).
Proof.
  intros sg alias locals rest secret basepoint out s T H Hs Hb Ho Gs Gb Go E. apply exec_value in E.
  assert (N : get layout (pub alias) = None) by (destruct alias; reflexivity).
  assert (I : pub alias = "mypublic" \/ pub alias = "secret") by (destruct alias; [right|left]; reflexivity).
  destruct (laid_get layout locals rest "e" (2 ^ 8, 32%nat) H eq_refl) as (e0 & Ge & He).
  destruct (LeakFiatValue2.curve25519_value sg (pub alias) I (mk_state [] (locals ++ rest)%list) secret basepoint out e0 (laid_good locals rest H)) as (s1 & E1 & V).
  - split; [|exact Hs]. cbn [st_arrays]. rewrite (laid_rest layout locals rest "secret" H eq_refl). exact Gs.
  - split; [|exact Hb]. cbn [st_arrays]. rewrite (laid_rest layout locals rest "basepoint" H eq_refl). exact Gb.
  - split; [|exact Ho]. cbn [st_arrays]. rewrite (laid_rest layout locals rest _ H N). exact Go.
  - split; [exact Ge|exact He].
  - unfold LeakFiatOps.pt in E1. assert (Q : s1 = s) by congruence. rewrite Q in V. rewrite V. apply f_equal. apply PropFiat.C61_x25519; [exact Hs|exact Hb].
Qed.

(** curve25519(mypublic, secret, basepoint) as compilers without a 128-bit integer see it: there is one sequence of branches and array accesses, fixed
    before secret, basepoint and whatever the memory held are chosen, that every call shows; every call ends without undefined behaviour, leaves
    X25519(secret, basepoint) of RFC 7748 in mypublic, and the copy of the secret and the eight field elements of the ladder overwritten by zeros. *)
Theorem C65_curve25519 : forall sg, exists T, forall mypublic secret basepoint locals,
  bytes32 mypublic -> bytes32 secret -> bytes32 basepoint -> laid_out layout locals ->
  exists s, exec sg 300 (curve25519_generic_ ("mypublic", 0) ("secret", 0) ("basepoint", 0)) (mk_state [] (locals ++ [("mypublic", mypublic); ("secret", secret); ("basepoint", basepoint)])%list) = Some (s, None, T) /\
    get (st_arrays s) "mypublic" = Some (x25519 secret basepoint) /\ wiped s.
Proof.
  intro sg. destruct (program_runs sg false) as (T & H). exists T. intros mypublic secret basepoint locals H1 H2 H3 H4.
  destruct (H (mk_state [] (locals ++ [("mypublic", mypublic); ("secret", secret); ("basepoint", basepoint)])%list)) as (s & E & W).
  - split; [constructor|]. cbn [st_arrays a_arrays A_start]. change arrays0 with (ranges (layout ++ args)). apply ranges_within. apply Forall2_app; [exact H4|]. repeat (apply Forall2_cons; [split; [reflexivity|assumption]|]). apply Forall2_nil.
  - exists s. split; [exact E|]. split; [|exact (program_end s W)].
    exact (run_value sg false locals [("mypublic", mypublic); ("secret", secret); ("basepoint", basepoint)] secret basepoint mypublic s T H4 H2 H3 H1 eq_refl eq_refl eq_refl E).
Qed.
(** The same with the result written over the secret, as wg pubkey calls it (src/pubkey.c:46); another array, [other], is in memory and not touched. *)
Theorem C65_in_place : forall sg, exists T, forall secret basepoint other locals,
  bytes32 secret -> bytes32 basepoint -> bytes32 other -> laid_out layout locals ->
  exists s, exec sg 300 (curve25519_generic_ ("secret", 0) ("secret", 0) ("basepoint", 0)) (mk_state [] (locals ++ [("mypublic", other); ("secret", secret); ("basepoint", basepoint)])%list) = Some (s, None, T) /\
    get (st_arrays s) "secret" = Some (x25519 secret basepoint) /\ get (st_arrays s) "mypublic" = Some other /\ wiped s.
Proof.
  intro sg. destruct (program_runs sg true) as (T & H). exists T. intros secret basepoint other locals H2 H3 H1 H4.
  destruct (H (mk_state [] (locals ++ [("mypublic", other); ("secret", secret); ("basepoint", basepoint)])%list)) as (s & E & W).
  - split; [constructor|]. cbn [st_arrays a_arrays A_start]. change arrays0 with (ranges (layout ++ args)). apply ranges_within. apply Forall2_app; [exact H4|]. repeat (apply Forall2_cons; [split; [reflexivity|assumption]|]). apply Forall2_nil.
  - exists s. split; [exact E|]. split; [|split; [|exact (program_end s W)]].
    + exact (run_value sg true locals [("mypublic", other); ("secret", secret); ("basepoint", basepoint)] secret basepoint secret s T H4 H2 H3 H2 eq_refl eq_refl eq_refl E).
    + apply exec_value in E. assert (N : existsb (String.eqb "mypublic") (LeakNice.written (curve25519_generic_ (pt (pub true)) (pt "secret") (pt "basepoint"))) = false) by (vm_compute; reflexivity). rewrite (LeakFiatValue.keeps_array sg _ _ _ "mypublic" N E). cbn [st_arrays]. rewrite (laid_rest layout locals _ "mypublic" H4 eq_refl). reflexivity.
Qed.
(** The hypotheses are met, and an implementation that branches on the bit is told apart. *)
Definition zero_locals : list (string * list Z) := map (fun d => (fst d, repeat 0 (snd (snd d)))) layout.
Example zero_locals_laid_out : laid_out layout zero_locals /\ bytes32 (9 :: repeat 0 31).
Proof. split; repeat (constructor || lia || reflexivity || (cbn; lia)). Qed.
Definition branching_swap : stmt := If (Var "swap") (fe_cswap_ ("x2", 0) ("x3", 0) "swap") Skip.
Example branching_seen :
  (exists s T, exec true 300 branching_swap (mk_state [("swap", 0)] [("x2", repeat 0 10); ("x3", repeat 0 10)]) = Some (s, None, T) /\ T = [SawBranch false]) /\
  (exists s T, exec true 300 branching_swap (mk_state [("swap", 1)] [("x2", repeat 0 10); ("x3", repeat 0 10)]) = Some (s, None, T) /\ (1 < length T)%nat).
Proof. split; eexists; eexists; (split; [vm_compute; reflexivity|]); [reflexivity|cbn; lia]. Qed.

Print Assumptions C65_curve25519.
Print Assumptions C65_in_place.
