(** C53: the scalar multiplication as it is written computes X25519, and the private key cannot be read off its time or its memory accesses. *)
From Coq Require Import String ZArith List Bool Lia.
From Verif Require Import Base CurveSpec Leak LeakValue LeakProofs LeakRuns LeakCurve.
From Verif Require LeakCurveOps LeakCurveValue3 PropCurve.
Import ListNotations.
Open Scope string_scope.
Open Scope Z_scope.

(** The local arrays, their types and lengths; what they hold at first is anything of the type. *)
Definition layout : list (string * (Z * nat)) :=
  [("buf0", (2 ^ 64, 10%nat)); ("e", (2 ^ 8, 32%nat)); ("buf", (2 ^ 64, 15%nat)); ("pbuf", (2 ^ 64, 40%nat)); ("abuf", (2 ^ 64, 40%nat)); ("fmtmp", (2 ^ 64, 5%nat)); ("fmt", (2 ^ 128, 5%nat));
   ("fst", (2 ^ 128, 5%nat)); ("fdtmp", (2 ^ 64, 5%nat)); ("fctmp", (2 ^ 128, 5%nat)); ("zbuf", (2 ^ 64, 10%nat)); ("rbuf", (2 ^ 64, 20%nat))].
Definition holds (d : Z * nat) (l : list Z) : Prop := length l = snd d /\ Forall (fun c => 0 <= c < fst d) l.
Definition laid_out (lay : list (string * (Z * nat))) (m : list (string * list Z)) : Prop := Forall2 (fun p d => fst p = fst d /\ holds (snd d) (snd p)) m lay.
Definition bytes32 (l : list Z) : Prop := holds (2 ^ 8, 32%nat) l.

Section Proof.
(** The arguments: three arrays, or the same one for the secret and the result. *)
Variable alias : bool.
Definition pub : ptr := if alias then ("secret", 0) else ("mypublic", 0).
Definition args : list (string * (Z * nat)) := (if alias then [] else [("mypublic", (2 ^ 8, 32%nat))]) ++ [("secret", (2 ^ 8, 32%nat)); ("basepoint", (2 ^ 8, 32%nat))].
Definition ranges (lay : list (string * (Z * nat))) : env (list itv) := map (fun d => (fst d, repeat (0, fst (snd d) - 1) (snd (snd d)))) lay.
Definition arrays0 : env (list itv) := ranges (layout ++ args).
Definition A_start : astate := mk_astate [] arrays0.

Definition nq : ptr := ("pbuf", 0). Definition nqpq : ptr := ("pbuf", 10). Definition nq2 : ptr := ("pbuf", 20). Definition nqpq2 : ptr := ("pbuf", 30).
Definition step : stmt := double_step_ nq nqpq nq2 nqpq2 ("buf0", 0) "byt".
(** Up to the loop. *)
Definition before : list stmt :=
  [zero U64 ("buf0", 0) 10; fexpand_ ("buf0", 0) ("basepoint", 0); st U64 ("buf0", 5) 0 (Lit 1); zero U8 ("e", 0) 32; copy U8 ("e", 0) ("secret", 0) 32; clamp_secret_ ("e", 0);
   zero U64 ("buf", 0) 15; st U64 ("buf", 0) 0 (Lit 1)].
Definition before_loop : list stmt := [zero U64 nq 40; point_copy_ nqpq ("buf0", 0); st U64 nq 0 (Lit 1); Set_ U32 "bli" (Lit 32)].

(** Every variable with the range of its type. *)
Definition range_of (x : string) : itv :=
  if existsb (String.eqb x) ["byte"; "byt"; "byt1"] then (0, 2 ^ 8 - 1)
  else if existsb (String.eqb x) ["ctr"; "swi"; "msri"; "fsi"; "sli"; "bli"] then (0, 2 ^ 32 - 1)
  else if existsb (String.eqb x) ["tctr"; "tctrp1"; "c"; "wb4"; "wb0"; "wb4_"; "wb0_"; "xi"; "s0"; "s1"; "s2"; "s3"; "s4"] then (0, 2 ^ 128 - 1)
  else (0, 2 ^ 64 - 1).
Definition whole (names : list string) : astate := mk_astate (map (fun x => (x, range_of x)) names) arrays0.
Definition names_of (o : a_outcome) : list string := match o with Some (a, _, _) => map fst (a_vars a) | None => [] end.
End Proof.
Definition first_round : list stmt :=
  [Set_ U32 "bli" (Bin U32 Sub (Var "bli") (Lit 1)); Set_ U8 "byte" (ld_ U8 ("e", 0) (v "bli")); Set_ U8 "byt" (v "byte"); Set_ U32 "sli" (Lit 4)].
Definition names0 : list string := Eval vm_compute in names_of (a_exec true 101 (block before) (A_start false)).
Definition names1 : list string := Eval vm_compute in names_of (a_exec true 101 (block (before ++ before_loop)) (A_start false)).
Definition names2 : list string := Eval vm_compute in names_of (a_exec true 101 (block (before ++ before_loop ++ first_round)) (A_start false)).
Definition names3 : list string := Eval vm_compute in names_of (a_exec true 101 (block (before ++ before_loop ++ first_round ++ [step])) (A_start false)).
Definition one (z : Z) : itv := (z, z).
Definition any32 : itv := (0, 2 ^ 32 - 1).

Definition Full (alias : bool) : astate := whole alias names3.
Lemma step_runs : forall sg alias, runs sg 101 (Full alias) step (Full alias).
Proof. intros sg alias. apply runs_calc. destruct alias; vm_compute; reflexivity. Qed.

(** The four rounds of the inner loop. *)
Ltac calc := apply runs_calc; match goal with a : bool |- _ => destruct a end; vm_compute; reflexivity.
Definition small_body : stmt := block [step; Set_ U8 "byt" (Bin I32 Shl (v "byt") (Lit 2))].
Definition dec (x : string) : stmt := Set_ U32 x (Bin U32 Sub (Var x) (Lit 1)).
Lemma not_in : forall x l, existsb (String.eqb x) l = false -> ~ In x l.
Proof. intros x l E H. assert (existsb (String.eqb x) l = true); [|congruence]. apply existsb_exists. exists x. split; [exact H|apply String.eqb_refl]. Qed.
Lemma may_sli : forall alias i, i_leq i any32 = true -> may (Full alias) "sli" i.
Proof. intros alias i H. exists any32. split; [destruct alias; reflexivity|exact H]. Qed.
Lemma may_bli : forall alias i, i_leq i any32 = true -> may (Full alias) "bli" i.
Proof. intros alias i H. exists any32. split; [destruct alias; reflexivity|exact H]. Qed.
Definition cond (x : string) : expr := Bin U32 Ne (Var x) (Lit 0).
Lemma small_body_runs : forall sg alias, runs sg 101 (Full alias) small_body (Full alias).
Proof.
  intros sg alias. unfold small_body. cbn [block fold_right]. eapply runs_seq; [apply step_runs|]. calc.
Qed.
Lemma dec_sli : forall sg alias k, In k [0; 1; 2; 3] -> runs sg 101 (know (Full alias) "sli" (one (k + 1))) (dec "sli") (know (Full alias) "sli" (one k)).
Proof. intros sg alias k H. apply runs_calc. repeat (destruct H as [<-|H]; [destruct alias; vm_compute; reflexivity|]). contradiction. Qed.
Lemma small_rounds : forall sg alias n, (n <= 4)%nat ->
  rounds sg 101 (S n) (know (Full alias) "sli" (one (Z.of_nat n))) (cond "sli") (Seq (dec "sli") small_body) (know (Full alias) "sli" (one 0)).
Proof.
  intros sg alias n L. apply (rounds_down sg 101 (fun k => know (Full alias) "sli" (one (Z.of_nat k)))).
  - apply decided_calc. destruct alias; vm_compute; reflexivity.
  - intros k Lk. split.
    + apply decided_calc. destruct alias; do 4 (destruct k as [|k]; [vm_compute; reflexivity|]); lia.
    + eapply runs_seq.
      * replace (Z.of_nat (S k)) with (Z.of_nat k + 1) by lia. apply dec_sli. do 4 (destruct k as [|k]; [cbn; tauto|]). lia.
      * apply runs_frame; [apply small_body_runs|apply not_in; vm_compute; reflexivity|]. apply may_sli. do 4 (destruct k as [|k]; [reflexivity|]). lia.
Qed.
Definition small : stmt := small_loop_ nq nqpq nq2 nqpq2 ("buf0", 0).
Lemma small_runs : forall sg alias, runs sg 101 (know (Full alias) "sli" (one 4)) small (Full alias).
Proof.
  intros sg alias. unfold small, small_loop_, while_dec. eapply runs_seq.
  - eapply runs_while; [apply (small_rounds sg alias 4); lia|lia].
  - calc.
Qed.

(** The thirty-two rounds of the outer loop; the first one starts without most variables. *)
Definition P1 (alias : bool) : astate := know (whole alias names1) "bli" (one 32).
Definition P2 (alias : bool) : astate := know (whole alias names2) "sli" (one 4).
Definition Full3 (alias : bool) : astate := know (Full alias) "sli" (one 3).
Lemma first_small_runs : forall sg alias, runs sg 101 (P2 alias) small (Full alias).
Proof.
  intros sg alias. unfold small, small_loop_, while_dec. apply (runs_seq sg 101 _ (know (Full alias) "sli" (one 0))); [|calc]. eapply runs_while; [eapply rounds_more|].
  - apply decided_calc. destruct alias; vm_compute; reflexivity.
  - apply (runs_calc sg 101 _ _ (Full3 alias)). destruct alias; vm_compute; reflexivity.
  - apply (small_rounds sg alias 3). lia.
  - lia.
Qed.
Definition round : stmt := block [Set_ U8 "byte" (ld_ U8 ("e", 0) (v "bli")); Set_ U8 "byt" (v "byte"); Set_ U32 "sli" (Lit 4); small].
Lemma first_round_runs : forall sg alias, runs sg 101 (P1 alias) (Seq (dec "bli") round) (know (Full alias) "bli" (one 31)).
Proof.
  intros sg alias. unfold round. cbn [block fold_right]. set (Q := fun l => know (whole alias l) "bli" (one 31)).
  apply (runs_seq sg 101 _ (Q names1)); [calc|]. apply (runs_seq sg 101 _ (Q (names1 ++ ["byte"])%list)); [calc|]. apply (runs_seq sg 101 _ (Q (names1 ++ ["byte"; "byt"])%list)); [calc|].
  apply (runs_seq sg 101 _ (know (P2 alias) "bli" (one 31))); [calc|]. eapply runs_seq; [|apply runs_skip].
  apply runs_frame; [apply first_small_runs|apply not_in; vm_compute; reflexivity|]. exists any32. split; [destruct alias; reflexivity|reflexivity].
Qed.
Definition rounds32 : list nat := List.seq 0 32.
Definition check_all (f : nat -> bool) : bool := forallb f rounds32.
Lemma check_all_sound : forall f k, check_all f = true -> (k < 32)%nat -> f k = true.
Proof. intros f k H L. unfold check_all, rounds32 in H. rewrite forallb_forall in H. apply H. apply in_seq. lia. Qed.
Definition Big (alias : bool) (k : nat) : astate := know (Full alias) "bli" (one (Z.of_nat k)).
Lemma Big_may : forall alias k, (k < 32)%nat -> may (Full alias) "bli" (one (Z.of_nat k)).
Proof. intros alias k L. apply may_bli. unfold i_leq, one, any32. cbn [fst snd]. apply andb_true_iff. split; apply Z.leb_le; lia. Qed.
Lemma round_runs : forall sg alias k, (k < 32)%nat -> decided sg (Big alias (S k)) (cond "bli") true /\ runs sg 101 (Big alias (S k)) (Seq (dec "bli") round) (Big alias k).
Proof.
  intros sg alias k L. split.
  { apply decided_calc. apply (check_all_sound (fun k => match a_eval sg (cond "bli") (Big alias (S k)) with Some (i, _) => match truth i with Some c => Bool.eqb c true | None => false end | None => false end) k); [|exact L]. destruct alias; vm_compute; reflexivity. }
  unfold round. cbn [block fold_right]. apply (runs_seq sg 101 _ (Big alias k)).
  { apply runs_calc. apply (check_all_sound (fun k => match a_exec sg 101 (dec "bli") (Big alias (S k)) with Some (a, None, _) => leq a (Big alias k) | _ => false end) k); [|exact L]. destruct alias; vm_compute; reflexivity. }
  apply (runs_seq sg 101 _ (Big alias k)).
  { apply runs_calc. apply (check_all_sound (fun k => match a_exec sg 101 (Set_ U8 "byte" (ld_ U8 ("e", 0) (v "bli"))) (Big alias k) with Some (a, None, _) => leq a (Big alias k) | _ => false end) k); [|exact L]. destruct alias; vm_compute; reflexivity. }
  assert (R : runs sg 101 (Full alias) (Seq (Set_ U8 "byt" (v "byte")) (Seq (Set_ U32 "sli" (Lit 4)) (Seq small Skip))) (Full alias)).
  { apply (runs_seq sg 101 _ (Full alias)); [calc|]. apply (runs_seq sg 101 _ (know (Full alias) "sli" (one 4))); [calc|]. eapply runs_seq; [apply small_runs|apply runs_skip]. }
  apply runs_frame; [exact R|apply not_in; vm_compute; reflexivity|exact (Big_may alias k L)].
Qed.
Lemma big_runs : forall sg alias, runs sg 101 (P1 alias) (big_loop_ ("e", 0) nq nqpq nq2 nqpq2 ("buf0", 0)) (Full alias).
Proof.
  intros sg alias. unfold big_loop_, while_dec. fold small. fold round. eapply runs_seq.
  - eapply runs_while; [eapply rounds_more; [|apply first_round_runs|]|].
    + apply decided_calc. destruct alias; vm_compute; reflexivity.
    + apply (rounds_down sg 101 (Big alias) (cond "bli") (Seq (dec "bli") round) 31).
      * apply decided_calc. destruct alias; vm_compute; reflexivity.
      * intros k L. apply round_runs. lia.
    + lia.
  - calc.
Qed.

(** Before and after the loop. *)
Definition P0 (alias : bool) : astate := whole alias names0.
Definition zeros (a : string) (n : nat) (s : astate) : astate := mk_astate (a_vars s) (put (a_arrays s) a (repeat (one 0) n)).
Definition names4 : list string := Eval vm_compute in names_of (a_exec true 101 (scalar_of_point_ ("mypublic", 0) ("buf", 0)) (Full false)).
Definition A_end (alias : bool) : astate := zeros "buf0" 10 (zeros "e" 32 (zeros "buf" 15 (whole alias names4))).
Lemma scalar_runs : forall sg alias, runs sg 101 (Full alias) (scalar_of_point_ (pub alias) ("buf", 0)) (whole alias names4).
Proof. intros sg alias. calc. Qed.
Lemma ladder_runs : forall sg alias, runs sg 101 (P0 alias) (ladder_cmult_ ("buf", 0) ("e", 0) ("buf0", 0)) (Full alias).
Proof.
  intros sg alias. unfold ladder_cmult_. fold nq nqpq nq2 nqpq2. cbv zeta.
  apply (runs_app sg 101 _ (P1 alias) _ before_loop [big_loop_ ("e", 0) nq nqpq nq2 nqpq2 ("buf0", 0); point_copy_ ("buf", 0) nq]); [calc|].
  cbn [block fold_right]. eapply runs_seq; [apply big_runs|]. calc.
Qed.
Lemma program_runs : forall sg alias, runs sg 101 (A_start alias) (curve25519_ (pub alias) ("secret", 0) ("basepoint", 0)) (A_end alias).
Proof.
  intros sg alias. unfold curve25519_.
  apply (runs_app sg 101 _ (P0 alias) _ before [ladder_cmult_ ("buf", 0) ("e", 0) ("buf0", 0); scalar_of_point_ (pub alias) ("buf", 0); zero U64 ("buf", 0) 15; zero U8 ("e", 0) 32; zero U64 ("buf0", 0) 10]); [calc|].
  apply (runs_app sg 101 _ (whole alias names4) _ [ladder_cmult_ ("buf", 0) ("e", 0) ("buf0", 0); scalar_of_point_ (pub alias) ("buf", 0)] [zero U64 ("buf", 0) 15; zero U8 ("e", 0) 32; zero U64 ("buf0", 0) 10]).
  - cbn [block fold_right]. eapply runs_seq; [apply ladder_runs|]. eapply runs_seq; [apply scalar_runs|apply runs_skip].
  - calc.
Qed.

(** ** The property *)
Lemma ranges_within : forall lay m, laid_out lay m -> agree (Forall2 inside) m (ranges lay).
Proof.
  intros lay m H. induction H as [|[x l] [y [b n]] m lay [E [Hl Hb]] F IH]; [constructor|]. cbn [ranges map fst snd] in *. constructor; [|exact IH]. split; [exact E|]. cbn [snd].
  clear - Hl Hb. revert l Hl Hb. induction n as [|n IH]; intros [|z l] Hl Hb; cbn [length repeat] in *; try discriminate; constructor.
  - apply Forall_inv in Hb. unfold inside. cbn [fst snd]. lia.
  - apply IH; [congruence|]. exact (Forall_inv_tail Hb).
Qed.
Lemma all_zero : forall n l, Forall2 inside l (repeat (one 0) n) -> l = repeat 0 n.
Proof.
  intro n. induction n as [|n IH]; intros l H; inversion H as [|x i l1 l2 Hx F]; subst; [reflexivity|]. cbn [repeat]. rewrite (IH _ F). f_equal. unfold inside, one in Hx. cbn [fst snd] in Hx. lia.
Qed.
Lemma all_bytes : forall n l, Forall2 inside l (repeat (0, 255) n) -> length l = n /\ Forall (fun c => 0 <= c < 2 ^ 8) l.
Proof.
  intro n. induction n as [|n IH]; intros l H; inversion H as [|x i l1 l2 Hx F]; subst; [split; constructor|]. destruct (IH _ F) as [H1 H2]. split; [cbn; congruence|]. constructor; [|exact H2].
  unfold inside in Hx. cbn [fst snd] in Hx. lia.
Qed.
Lemma program_end : forall alias s, within s (A_end alias) ->
  get (st_arrays s) "e" = Some (repeat 0 32) /\ get (st_arrays s) "buf" = Some (repeat 0 15) /\ get (st_arrays s) "buf0" = Some (repeat 0 10) /\
  exists out, get (st_arrays s) (fst (pub alias)) = Some out /\ bytes32 out.
Proof.
  intros alias s [_ W].
  assert (G : forall x b, get (a_arrays (A_end alias)) x = Some b -> exists a, get (st_arrays s) x = Some a /\ Forall2 inside a b) by (intros x b; apply agree_get; exact W).
  destruct (G "e" (repeat (one 0) 32)) as (l1 & E1 & F1); [destruct alias; reflexivity|]. destruct (G "buf" (repeat (one 0) 15)) as (l2 & E2 & F2); [destruct alias; reflexivity|].
  destruct (G "buf0" (repeat (one 0) 10)) as (l3 & E3 & F3); [destruct alias; reflexivity|]. destruct (G (fst (pub alias)) (repeat (0, 255) 32)) as (l4 & E4 & F4); [destruct alias; reflexivity|].
  rewrite (all_zero _ _ F1) in E1. rewrite (all_zero _ _ F2) in E2. rewrite (all_zero _ _ F3) in E3. repeat split; try assumption. exists l4. split; [exact E4|]. exact (all_bytes _ _ F4).
Qed.

(** What the run computes: LeakCurveValue3.v, with the theorem that Curve.v is X25519 of RFC 7748. *)
Lemma laid_get : forall lay m rest x d, laid_out lay m -> get lay x = Some d -> exists l, get (m ++ rest)%list x = Some l /\ holds d l.
Proof.
  intros lay m rest x d H. induction H as [|[y l] [z d1] m lay [E Hl] F IH]; intro G; [discriminate|]. cbn [fst snd get app] in *. subst z. destruct (String.eqb x y); [injection G as <-; exists l; split; [reflexivity|exact Hl]|exact (IH G)].
Qed.
Lemma laid_good : forall locals rest, laid_out layout locals -> LeakCurveOps.good (mk_state [] (locals ++ rest)%list).
Proof.
  intros locals rest H a d G. cbn [st_arrays].
  assert (C : get layout a = Some (2 ^ fst d, snd d)).
  { unfold LeakCurveOps.lay, LeakCurveOps.main, LeakCurveOps.scratch in G. cbn [app get] in G.
    repeat match type of G with (if String.eqb a ?n then _ else _) = _ => destruct (String.eqb_spec a n) as [->|_]; [injection G as <-; reflexivity|] end. discriminate. }
  destruct (laid_get layout locals rest a _ H C) as (l & E & Hl). exists l. split; [exact E|exact Hl].
Qed.
Lemma laid_rest : forall lay m rest x, laid_out lay m -> get lay x = None -> get (m ++ rest)%list x = get rest x.
Proof.
  intros lay m rest x H. induction H as [|[y l] [z d] m lay [E Hl] F IH]; intro G; [reflexivity|]. cbn [fst snd get app] in *. subst z. destruct (String.eqb x y); [discriminate|exact (IH G)].
Qed.
Lemma run_value : forall sg alias locals rest secret basepoint out s T, laid_out layout locals -> bytes32 secret -> bytes32 basepoint -> bytes32 out ->
  get rest "secret" = Some secret -> get rest "basepoint" = Some basepoint -> get rest (fst (pub alias)) = Some out ->
  exec sg 101 (curve25519_ (pub alias) ("secret", 0) ("basepoint", 0)) (mk_state [] (locals ++ rest)%list) = Some (s, None, T) -> get (st_arrays s) (fst (pub alias)) = Some (x25519 secret basepoint).
Proof.
  intros sg alias locals rest secret basepoint out s T H Hs Hb Ho Gs Gb Go E. apply exec_value in E.
  assert (P : pub alias = (fst (pub alias), 0)) by (destruct alias; reflexivity). assert (N : get layout (fst (pub alias)) = None) by (destruct alias; reflexivity).
  assert (I : fst (pub alias) = "mypublic" \/ fst (pub alias) = "secret") by (destruct alias; [right|left]; reflexivity). rewrite P in E.
  destruct (laid_get layout locals rest "e" (2 ^ 8, 32%nat) H eq_refl) as (e0 & Ge & He).
  destruct (LeakCurveValue3.curve25519_value sg (fst (pub alias)) I (mk_state [] (locals ++ rest)%list) secret basepoint out e0 (laid_good locals rest H)) as (s1 & E1 & V).
  - split; [|exact Hs]. cbn [st_arrays]. rewrite (laid_rest layout locals rest "secret" H eq_refl). exact Gs.
  - split; [|exact Hb]. cbn [st_arrays]. rewrite (laid_rest layout locals rest "basepoint" H eq_refl). exact Gb.
  - split; [|exact Ho]. cbn [st_arrays]. rewrite (laid_rest layout locals rest _ H N). exact Go.
  - split; [exact Ge|exact He].
  - assert (Q : s1 = s) by congruence. rewrite Q in V. rewrite V. apply f_equal. apply PropCurve.C37_x25519; [exact Hs|exact Hb].
Qed.

(** curve25519(mypublic, secret, basepoint): there is one sequence of branches and array accesses, fixed before secret, basepoint and
    whatever the memory held are chosen, that every call shows; every call ends without undefined behaviour, leaves X25519(secret, basepoint) of RFC 7748 in
    mypublic, and the copy of the secret, the point and the expanded base point overwritten by zeros. *)
Theorem C53_curve25519 : forall sg, exists T, forall mypublic secret basepoint locals,
  bytes32 mypublic -> bytes32 secret -> bytes32 basepoint -> laid_out layout locals ->
  exists s, exec sg 101 (curve25519_ ("mypublic", 0) ("secret", 0) ("basepoint", 0)) (mk_state [] (locals ++ [("mypublic", mypublic); ("secret", secret); ("basepoint", basepoint)])%list) = Some (s, None, T) /\
    get (st_arrays s) "mypublic" = Some (x25519 secret basepoint) /\
    get (st_arrays s) "e" = Some (repeat 0 32) /\ get (st_arrays s) "buf" = Some (repeat 0 15) /\ get (st_arrays s) "buf0" = Some (repeat 0 10).
Proof.
  intro sg. destruct (program_runs sg false) as (T & H). exists T. intros mypublic secret basepoint locals H1 H2 H3 H4.
  destruct (H (mk_state [] (locals ++ [("mypublic", mypublic); ("secret", secret); ("basepoint", basepoint)])%list)) as (s & E & W).
  - split; [constructor|]. cbn [st_arrays a_arrays A_start]. apply ranges_within. apply Forall2_app; [exact H4|]. repeat (apply Forall2_cons; [split; [reflexivity|assumption]|]). apply Forall2_nil.
  - exists s. split; [exact E|]. destruct (program_end false s W) as (Z1 & Z2 & Z3 & _). split; [|split; [exact Z1|split; [exact Z2|exact Z3]]].
    exact (run_value sg false locals [("mypublic", mypublic); ("secret", secret); ("basepoint", basepoint)] secret basepoint mypublic s T H4 H2 H3 H1 eq_refl eq_refl eq_refl E).
Qed.
(** The same with the result written over the secret, as wg pubkey calls it (src/pubkey.c:46). *)
Theorem C53_in_place : forall sg, exists T, forall secret basepoint locals,
  bytes32 secret -> bytes32 basepoint -> laid_out layout locals ->
  exists s, exec sg 101 (curve25519_ ("secret", 0) ("secret", 0) ("basepoint", 0)) (mk_state [] (locals ++ [("secret", secret); ("basepoint", basepoint)])%list) = Some (s, None, T) /\
    get (st_arrays s) "secret" = Some (x25519 secret basepoint) /\
    get (st_arrays s) "e" = Some (repeat 0 32) /\ get (st_arrays s) "buf" = Some (repeat 0 15) /\ get (st_arrays s) "buf0" = Some (repeat 0 10).
Proof.
  intro sg. destruct (program_runs sg true) as (T & H). exists T. intros secret basepoint locals H2 H3 H4.
  destruct (H (mk_state [] (locals ++ [("secret", secret); ("basepoint", basepoint)])%list)) as (s & E & W).
  - split; [constructor|]. cbn [st_arrays a_arrays A_start]. apply ranges_within. apply Forall2_app; [exact H4|]. repeat (apply Forall2_cons; [split; [reflexivity|assumption]|]). apply Forall2_nil.
  - exists s. split; [exact E|]. destruct (program_end true s W) as (Z1 & Z2 & Z3 & _). split; [|split; [exact Z1|split; [exact Z2|exact Z3]]].
    exact (run_value sg true locals [("secret", secret); ("basepoint", basepoint)] secret basepoint secret s T H4 H2 H3 H2 eq_refl eq_refl eq_refl E).
Qed.
(** The hypotheses are met, and an implementation that branches on the bit is told apart. *)
Definition zero_locals : list (string * list Z) := map (fun d => (fst d, repeat 0 (snd (snd d)))) layout.
Example zero_locals_laid_out : laid_out layout zero_locals /\ bytes32 (9 :: repeat 0 31).
Proof. split; repeat (constructor || lia || reflexivity || (cbn; lia)). Qed.
Definition branching_swap : stmt := If (Var "bit") (swap5_ ("pbuf", 0) ("pbuf", 10) "bit") Skip.
Example branching_seen :
  (exists s T, exec true 101 branching_swap (mk_state [("bit", 0)] [("pbuf", repeat 0 40)]) = Some (s, None, T) /\ T = [SawBranch false]) /\
  (exists s T, exec true 101 branching_swap (mk_state [("bit", 1)] [("pbuf", repeat 0 40)]) = Some (s, None, T) /\ length T = 21%nat).
Proof. split; eexists; eexists; split; vm_compute; reflexivity. Qed.
