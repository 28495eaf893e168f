(** C41: saving a configuration is crash safe. *)
From Coq Require Import String ZArith List Bool Lia.
From Verif Require Import Base Cstr Bash Quick QuickRun QuickRunSpec QuickRunProofs QuickSave QuickSaveSpec QuickSaveProofs PropQuickUp.
Import ListNotations.
Open Scope Z_scope.

Section Phases.
Variable sys : system.
Variable glob : list Z -> list (list Z).
Variable ifc : list Z.
Variable o : options.
Variable conf : list Z.
Variable amp : bool.
Variable old : option file.
Variable tidy : Prop.
Variable mask : Z.
Notation tmp := (temporary conf).

Lemma tmp_conf : tmp <> conf.
Proof. intro E. assert (L : length tmp = length conf) by (rewrite E; reflexivity). unfold temporary in L. rewrite app_length in L. cbn in L. lia. Qed.

Definition kept_tmp (d : disk) : Prop := tidy -> Forall (fun y => forall f, y = Some f -> private f) (d_file d tmp :: d_past d tmp).
Definition base (d : disk) : Prop := d_file d conf = old /\ d_past d conf = [] /\ kept_tmp d.
Definition is_new (text : list Z) (y : option file) : Prop :=
  exists g, y = Some g /\ f_data g = text /\ f_durable g = true /\ (tidy -> private g).
Definition inv (text : list Z) (d : disk) : Prop :=
  Forall (fun y => y = old \/ is_new text y) (d_file d conf :: d_past d conf) /\ kept_tmp d.
Lemma base_inv : forall text d, base d -> inv text d.
Proof. intros text d (E & P & T). split; [|exact T]. rewrite E, P. constructor; [auto|constructor]. Qed.

(** Names other than [p] keep their meaning. *)
Lemma others_conf : forall d d', others [tmp] d d' -> d_file d' conf = d_file d conf /\ d_past d' conf = d_past d conf.
Proof. intros d d' H. apply H. intros [E|[]]. exact (tmp_conf E). Qed.
Lemma same_kept : forall d d', d_file d' tmp = d_file d tmp -> d_past d' tmp = d_past d tmp -> kept_tmp d -> kept_tmp d'.
Proof. intros d d' E1 E2 H T. rewrite E1, E2. exact (H T). Qed.
Lemma same_base : forall d d', others [] d d' -> base d -> base d'.
Proof.
  intros d d' H (E & P & T). destruct (H conf) as [E1 E2]; [intros []|]. destruct (H tmp) as [E3 E4]; [intros []|].
  split; [congruence|]. split; [congruence|]. eapply same_kept; eauto.
Qed.
Lemma same_inv : forall text d d', others [] d d' -> inv text d -> inv text d'.
Proof.
  intros text d d' H (F & T). destruct (H conf) as [E1 E2]; [intros []|]. destruct (H tmp) as [E3 E4]; [intros []|].
  split; [rewrite E1, E2; exact F|eapply same_kept; eauto].
Qed.

(** [written] with umask 077. *)
Lemma written_kept : forall text d d', written tmp text d d' -> d_mask d = 63 -> kept_tmp d -> kept_tmp d'.
Proof.
  intros text d d' (_ & _ & Ef & Ep) M K T. specialize (K T). inversion K as [|? ? K1 K2]; subst. rewrite Ef, Ep. constructor.
  - intros f E. injection E as <-. unfold private, mode_for. cbn [f_mode]. destruct (d_file d tmp) as [g|] eqn:Eg; [apply (K1 g eq_refl)|]. rewrite M. reflexivity.
  - destruct (d_file d tmp); [exact K2|]. constructor; [discriminate|exact K2].
Qed.
Lemma synced_kept : forall d d', synced tmp d d' -> kept_tmp d -> kept_tmp d'.
Proof.
  intros d d' (_ & _ & Ep & Ef) K T. specialize (K T). inversion K as [|? ? K1 K2]; subst. rewrite Ef, Ep. constructor; [|exact K2].
  intros f E. destruct (d_file d tmp) as [g|]; [|discriminate]. injection E as <-. exact (K1 g eq_refl).
Qed.
Lemma removed_inv : forall text d d', removed tmp d d' -> inv text d -> inv text d'.
Proof.
  intros text d d' (Ho & _ & Ef & Ep) (F & K). destruct (others_conf _ _ Ho) as [E1 E2]. split; [rewrite E1, E2; exact F|].
  intro T. specialize (K T). rewrite Ef, Ep. constructor; [discriminate|exact K].
Qed.

Definition ready (d : disk) : Prop := base d /\ d_mask d = 63.
Lemma prepare_along : along base (fun d => base d /\ d_mask d = mask) (prepare sys glob ifc o amp) (fun r d => ready d /\ octal (fst r) = mask).
Proof.
  unfold prepare. eapply along_bind.
  - apply (along_conseq _ (fun d => base d /\ d_mask d = mask) _ (fun d => base d /\ d_mask d = mask) _ _ (fun _ d => base d /\ d_mask d = mask));
      [apply calm_gather|auto|intros d [H _]; exact H|intros a d H; exact H].
  - intro new. unfold query. eapply along_bind.
    + eapply along_bind; [apply (along_run _ base (fun d => base d /\ d_mask d = mask) _ (fun a d => (base d /\ d_mask d = mask) /\ octal (captured (a_output a)) = mask))|].
      * intros d [H _]. exact H.
      * intros d d' a [H M] (-> & E). split; [exact H|]. split; [auto|congruence].
      * intro a. apply (along_ret _ _ _ _ (fun w d => (base d /\ d_mask d = mask) /\ octal w = mask)); [intros d [[H _] _]; exact H|auto].
    + intro w. cbv beta. eapply along_bind.
      * unfold step, step_in. eapply along_bind.
        -- apply (along_run _ _ _ _ (fun a d => base d /\ octal w = mask /\ (a_status a = 0 -> d_mask d = 63))).
           ++ intros d [[H _] _]. exact H.
           ++ intros d d' a [[H M] E] (Ho & Hm). pose proof (same_base _ _ Ho H) as B. split; [exact B|]. split; [exact B|]. split; [exact E|].
              intro S. destruct Hm as [[_ Hm]|[N _]]; [exact Hm|contradiction].
        -- intro a. cbn [andb]. destruct (Z.eqb_spec (a_status a) 0) as [S|N]; cbn [negb].
           ++ apply (along_ret _ _ _ _ (fun _ d => ready d /\ octal w = mask)); [intros d [H _]; exact H|]. intros d (B & E & M). split; [split; [exact B|auto]|exact E].
           ++ apply along_exit. intros d [H _]. exact H.
      * intro z. cbv beta. eapply along_bind.
        -- apply (along_run _ _ _ _ (fun _ d => ready d /\ octal w = mask)); [intros d [[H _] _]; exact H|]. intros d d' a H He. cbn in He. subst d'. split; [apply H|exact H].
        -- intro a. cbv beta. destruct (negb _); [apply along_exit|apply along_ret]; intros d [[H M] E]; try exact H. cbn [fst]. split; [split; [exact H|exact M]|exact E].
Qed.

Definition done (text : list Z) (d : disk) : Prop := inv text d /\ d_mask d = 63 /\ d_file d tmp = None /\ is_new text (d_file d conf).
Definition holding (text : list Z) (durable : bool) (d : disk) : Prop :=
  ready d /\ exists g, d_file d tmp = Some g /\ f_data g = text /\ (durable = true -> f_durable g = true).
Lemma replace_along : forall text, along (inv text) ready (replace_file sys conf text) (fun _ d => done text d).
Proof.
  intro text. unfold replace_file. eapply along_bind.
  - apply (along_run _ _ _ _ (fun a d => ready d /\ (a_status a = 0 -> holding text false d))).
    + intros d [H _]. apply base_inv. exact H.
    + intros d d' a [H M] He.
      assert (W : forall data, written tmp data d d' -> ready d').
      { intros data Hw. pose proof Hw as (Ho & Hm & Ef & Ep). destruct (others_conf _ _ Ho) as [E1 E2]. destruct H as (H1 & H2 & H3).
        split; [|congruence]. split; [congruence|]. split; [congruence|]. eapply written_kept; eauto. }
      change (effect (mk_cmd [str ">"; tmp] text) a d d') in He. unfold effect in He. cbn [deed_of c_argv c_input existsb bystanders words_of map] in He.
      assert (R : ready d').
      { destruct He as [[_ Hw]|[_ [->|(data & Hw)]]]; [eapply W; eauto|split; assumption|eapply W; eauto]. }
      split; [apply base_inv; apply R|]. split; [exact R|]. intro S. split; [exact R|].
      destruct He as [[_ (_ & _ & Ef & _)]|[N _]]; [|contradiction]. rewrite Ef. eexists. split; [reflexivity|]. split; [reflexivity|discriminate].
  - intro w. cbv beta. destruct (Z.eqb_spec (a_status w) 0) as [S|N]; cbn [negb]; [|apply along_exit; intros d [[H _] _]; apply base_inv; exact H].
    eapply along_bind with (Q := fun _ => holding text true).
    + unfold step, step_in. eapply along_bind.
      * apply (along_run _ _ _ _ (fun a d => ready d /\ (a_status a = 0 -> holding text true d))).
        -- intros d [[H _] _]. apply base_inv. exact H.
        -- intros d d' a [R Hh] He. specialize (Hh S). change (effect (argv [str "sync"; tmp]) a d d') in He. unfold effect in He.
           cbn [deed_of c_argv argv existsb bystanders words_of map] in He.
           assert (Y : synced tmp d d' -> ready d').
           { intros (Ho & Hm & Ep & Ef). destruct (others_conf _ _ Ho) as [E1 E2]. destruct R as ((H1 & H2 & H3) & M).
             split; [|congruence]. split; [congruence|]. split; [congruence|]. eapply synced_kept; [|exact H3]. repeat split; assumption || apply Ho; assumption. }
           assert (R' : ready d') by (destruct He as [[_ Hw]|[_ [->|Hw]]]; [auto|exact R|auto]).
           split; [apply base_inv; apply R'|]. split; [exact R'|]. intro S'. split; [exact R'|].
           destruct He as [[_ (_ & _ & _ & Ef)]|[N _]]; [|contradiction]. destruct Hh as (_ & g & Eg & Dg & _). rewrite Eg in Ef. rewrite Ef.
           eexists. split; [reflexivity|]. auto.
      * intro a. cbn [andb]. destruct (Z.eqb_spec (a_status a) 0) as [S'|N]; cbn [negb].
        -- apply along_ret; [intros d [[H _] _]; apply base_inv; exact H|]. intros d [_ H]. auto.
        -- apply along_exit. intros d [[H _] _]. apply base_inv. exact H.
    + intros _. eapply along_bind.
      * apply (along_run _ _ _ _ (fun a d => inv text d /\ (a_status a = 0 -> done text d))).
        -- intros d [[H _] _]. apply base_inv. exact H.
        -- intros d d' a Hh He. change (effect (argv [str "mv"; tmp; conf]) a d d') in He. unfold effect in He.
           cbn [deed_of c_argv argv existsb bystanders words_of map] in He.
           assert (V : moved tmp conf d d' -> done text d').
           { intros (Ho & Hm & _ & Eq & Ep & Pq & Pp). destruct Hh as (((H1 & H2 & H3) & M) & g & Eg & Dg & Sg). specialize (Sg eq_refl).
             assert (Nw : is_new text (d_file d' conf)).
             { rewrite Eq, Eg. exists g. split; [reflexivity|]. split; [exact Dg|]. split; [exact Sg|]. intro T. specialize (H3 T).
               inversion H3 as [|? ? K1 K2]; subst. apply (K1 g). exact Eg. }
             split; [|split; [congruence|split; [exact Ep|exact Nw]]].
             split; [constructor; [right; exact Nw|]; rewrite Pq, H1, H2; constructor; [auto|constructor]|].
             intro T. specialize (H3 T). rewrite Ep, Pp. constructor; [discriminate|exact H3]. }
           assert (R' : inv text d') by (destruct He as [[_ Hw]|[_ [->|Hw]]]; [apply V; exact Hw|apply base_inv; apply Hh|apply V; exact Hw]).
           split; [exact R'|]. split; [exact R'|]. intro S'. destruct He as [[_ Hw]|[N _]]; [auto|contradiction].
      * intro m. cbv beta. destruct (Z.eqb_spec (a_status m) 0) as [S'|N]; cbn [negb].
        -- apply along_ret; intros d [H1 H2]; auto.
        -- apply along_exit. intros d [H _]. exact H.
Qed.
Lemma cleanup_along : forall text, along (inv text) (inv text) (step sys true [str "rm"; str "-f"; tmp]) (fun _ => inv text).
Proof.
  intro text. unfold step, step_in. eapply along_bind.
  - apply (along_run _ _ _ _ (fun _ => inv text)); [auto|]. intros d d' a H He. change (effect (argv [str "rm"; str "-f"; tmp]) a d d') in He.
    unfold effect in He. cbn [deed_of c_argv argv existsb bystanders words_of map] in He.
    assert (R : inv text d'); [|auto]. destruct He as [[_ Hw]|[_ [->|Hw]]]; [eapply removed_inv; eauto|exact H|eapply removed_inv; eauto].
  - intro a. destruct (_ && _); [apply along_exit|apply along_ret]; auto.
Qed.
Definition finished (text : list Z) (d : disk) : Prop := inv text d /\ d_mask d = mask /\ d_file d tmp = None /\ is_new text (d_file d conf).
Lemma restore_along : forall text w (rest : prog Z), calm rest ->
  along (inv text) (fun d => done text d /\ octal w = mask) (step sys true [str "umask"; w] ;;; rest) (fun _ => finished text).
Proof.
  intros text w rest [Hr _]. eapply along_bind with (Q := fun _ => finished text).
  - unfold step, step_in. eapply along_bind.
    + apply (along_run _ _ _ _ (fun a d => inv text d /\ (a_status a = 0 -> finished text d))).
      * intros d [[H _] _]. exact H.
      * intros d d' a ((Hi & M & Et & Nw) & Ew) He. change (effect (argv [str "umask"; w]) a d d') in He. unfold effect in He.
        cbn [deed_of c_argv argv existsb bystanders words_of map] in He. destruct He as (Ho & Hm).
        pose proof (same_inv _ _ _ Ho Hi) as Hi'. split; [exact Hi'|]. split; [exact Hi'|]. intro S. destruct Hm as [[_ Hm]|[N _]]; [|contradiction].
        destruct (Ho conf) as [E1 _]; [intros []|]. destruct (Ho tmp) as [E2 _]; [intros []|].
        split; [exact Hi'|]. split; [congruence|]. split; [congruence|]. rewrite E1. exact Nw.
    + intro a. cbn [andb]. destruct (Z.eqb_spec (a_status a) 0) as [S'|N]; cbn [negb].
      * apply along_ret; intros d [H1 H2]; auto.
      * apply along_exit. intros d [H _]. exact H.
  - intros _. eapply along_conseq; [apply (Hr (finished text))|auto|intros d H; apply H|auto].
Qed.


(** Whole runs. *)
Definition along_run_of (I P : disk -> Prop) (k : shell -> outcome) (F : disk -> Prop) : Prop := forall s, exists h,
  snd (k s) = sh_hist s ++ h /\
  forall d, P d -> (forall d', instant d h d' -> I d') /\ (fst (k s) = Some 0 -> undisturbed h -> forall d', after d h d' -> F d').

Lemma undisturbed_app : forall h1 h2, undisturbed (h1 ++ h2) <-> undisturbed h1 /\ undisturbed h2.
Proof.
  intros h1 h2. unfold undisturbed. split.
  - intro H. split; intros ev K; apply H; apply in_or_app; auto.
  - intros [H1 H2] ev K. apply in_app_or in K. destruct K; auto.
Qed.
(** The history a piece of script adds, and what a failure means for it. *)
Lemma along_clean : forall A (I P : disk -> Prop) (m : prog A) Q, along I P m Q -> clean m -> forall s, exists h,
  sh_hist (ends (m s)) = sh_hist s ++ h /\
  match m s with Exited st _ => st <> 0 | Signalled _ _ => ~ undisturbed h | _ => True end /\
  forall d, P d -> (forall d', instant d h d' -> I d') /\ (forall v s1 d', m s = Done v s1 -> after d h d' -> Q v d').
Proof.
  intros A I P m Q H C s. destruct (H s) as (h & E & K). specialize (C s). exists h. split; [exact E|]. split; [|exact K].
  destruct (m s) as [v s1|st s1|st s1|s1]; cbn [ends] in E; try exact Logic.I.
  - apply C.
  - destruct C as (h1 & ev & E1 & Hs). rewrite E in E1. apply app_inv_head in E1. subst h. intro U. rewrite (U ev) in Hs; [discriminate|]. apply in_or_app. right. left. reflexivity.
Qed.

Lemma exit_trap_along : forall (I : disk -> Prop) A (cleanup : prog A), along I I cleanup (fun _ => I) -> clean cleanup -> forall st s, exists h,
  snd (exit_trap cleanup st s) = sh_hist s ++ h /\ (forall d, I d -> forall d', instant d h d' -> I d') /\
  (undisturbed h -> st <> 0 -> fst (exit_trap cleanup st s) <> Some 0).
Proof.
  intros I A cleanup Hc Cc st s. destruct (along_clean _ _ _ _ _ Hc Cc s) as (h & E & X & K). exists h. unfold exit_trap.
  destruct (cleanup s) as [v s1|st1 s1|st1 s1|s1]; cbn [ends fst snd] in *; (split; [exact E|]); (split; [intros d Hd; apply (K d Hd)|]).
  - intros _ N E1. injection E1 as E1. contradiction.
  - intros _ _ E1. injection E1 as E1. contradiction.
  - intro U. contradiction.
  - discriminate.
Qed.
Lemma guarded_along : forall (I P : disk -> Prop) A B (cleanup : prog A) (body : prog B) (Q : B -> disk -> Prop) (aft : B -> prog Z) (F : disk -> Prop),
  along I P body Q -> clean body -> along I I cleanup (fun _ => I) -> clean cleanup ->
  (forall b, along I (Q b) (aft b) (fun _ => F)) -> (forall b, clean (aft b)) ->
  forall s, exists h1 h2, sh_hist (ends (body s)) = sh_hist s ++ h1 /\ snd (guarded cleanup body aft s) = sh_hist s ++ h1 ++ h2 /\
    forall d, P d -> (forall d', instant d (h1 ++ h2) d' -> I d') /\
      (fst (guarded cleanup body aft s) = Some 0 -> undisturbed (h1 ++ h2) -> forall d', after d (h1 ++ h2) d' -> F d').
Proof.
  intros I P A B cleanup body Q aft F Hb Cb Hc Cc Ha Ca s. unfold guarded.
  destruct (along_clean _ _ _ _ _ Hb Cb s) as (h1 & E1 & X1 & K1). exists h1. destruct (body s) as [b s1|st s1|st s1|s1]; cbn [ends] in E1.
  - destruct (along_clean _ _ _ _ _ (Ha b) (Ca b) s1) as (h2 & E2 & X2 & K2). exists h2.
    assert (Es : snd match aft b s1 with Done _ s2 => (Some 0, sh_hist s2) | Exited st s2 | Signalled st s2 => (Some st, sh_hist s2) | Loops s2 => (None, sh_hist s2) end
               = sh_hist s ++ h1 ++ h2).
    { rewrite app_assoc, <- E1, <- E2. destruct (aft b s1); reflexivity. }
    split; [exact E1|]. split; [exact Es|]. intros d Hd. destruct (K1 d Hd) as (I1 & Q1). split.
    + intros d' Hi. apply instant_app in Hi. destruct Hi as [Hi|(d1 & Hd1 & Hi)]; [auto|]. exact (proj1 (K2 d1 (Q1 b s1 d1 eq_refl Hd1)) d' Hi).
    + intros St U d' Hd'. apply undisturbed_app in U. destruct U as [U1 U2]. apply after_app in Hd'. destruct Hd' as (d1 & Hd1 & Hd2).
      destruct (aft b s1) as [v s2|st s2|st s2|s2]; cbn [fst] in St.
      * exact (proj2 (K2 d1 (Q1 b s1 d1 eq_refl Hd1)) v s2 d' eq_refl Hd2).
      * injection St as St. contradiction.
      * contradiction.
      * discriminate.
  - destruct (exit_trap_along _ _ _ Hc Cc st s1) as (h2 & E2 & I2 & N2). exists h2. split; [exact E1|]. split; [rewrite E2, E1, app_assoc; reflexivity|].
    intros d Hd. destruct (K1 d Hd) as (I1 & Q1). split.
    + intros d' Hi. apply instant_app in Hi. destruct Hi as [Hi|(d1 & Hd1 & Hi)]; [auto|]. apply (I2 d1); [|exact Hi]. apply I1. apply instant_end. exact Hd1.
    + intros St U. apply undisturbed_app in U. destruct (N2 (proj2 U) X1 St).
  - destruct (along_clean _ _ _ _ _ Hc Cc s1) as (h2 & E2 & X2 & K2).
    assert (G : forall st1 s2, sh_hist s2 = sh_hist s1 ++ h2 -> exists h2, sh_hist s1 = sh_hist s ++ h1 /\ snd (exit_trap cleanup st1 s2) = sh_hist s ++ h1 ++ h2 /\
      forall d, P d -> (forall d', instant d (h1 ++ h2) d' -> I d') /\
        (fst (exit_trap cleanup st1 s2) = Some 0 -> undisturbed (h1 ++ h2) -> forall d', after d (h1 ++ h2) d' -> F d')).
    { intros st1 s2 E2'. destruct (exit_trap_along _ _ _ Hc Cc st1 s2) as (h3 & E3 & I3 & _). exists (h2 ++ h3). split; [exact E1|].
      split; [rewrite E3, E2', E1, <- !app_assoc; reflexivity|]. intros d Hd. destruct (K1 d Hd) as (I1 & _). split.
      - intros d' Hi. apply instant_app in Hi. destruct Hi as [Hi|(d1 & Hd1 & Hi)]; [auto|]. pose proof (I1 d1 (instant_end _ _ _ Hd1)) as Hd1'.
        destruct (K2 d1 Hd1') as (J2 & _). apply instant_app in Hi. destruct Hi as [Hi|(d2 & Hd2 & Hi)]; [auto|].
        apply (I3 d2); [|exact Hi]. apply J2. apply instant_end. exact Hd2.
      - intros _ U. apply undisturbed_app in U. destruct U as [U _]. contradiction. }
    destruct (cleanup s1) as [v s2|st2 s2|st2 s2|s2]; cbn [ends] in E2; try (apply G; exact E2).
    exists h2. split; [exact E1|]. split; [cbn [snd]; rewrite E2, E1, app_assoc; reflexivity|]. intros d Hd. destruct (K1 d Hd) as (I1 & _). split.
    + intros d' Hi. apply instant_app in Hi. destruct Hi as [Hi|(d1 & Hd1 & Hi)]; [auto|]. pose proof (I1 d1 (instant_end _ _ _ Hd1)) as Hd1'.
      exact (proj1 (K2 d1 Hd1') d' Hi).
    + discriminate.
  - exists []. rewrite app_nil_r. split; [exact E1|]. split; [exact E1|]. intros d Hd. destruct (K1 d Hd) as (I1 & _). split; [exact I1|]. discriminate.
Qed.

(** A run that saves: either the configuration stays as it is, or some text is written and replaces it. *)
Definition start (d : disk) : Prop := base d /\ d_mask d = mask.
Definition saves (P : disk -> Prop) (k : shell -> outcome) : Prop := forall s, exists h, snd (k s) = sh_hist s ++ h /\
  (((forall d, P d -> forall d', instant d h d' -> base d') /\ (fst (k s) = Some 0 -> ~ undisturbed h)) \/
   (exists text, writes_text conf text h /\
      forall d, P d -> (forall d', instant d h d' -> inv text d') /\ (fst (k s) = Some 0 -> undisturbed h -> forall d', after d h d' -> finished text d'))).
Lemma saves_after : forall A P (m : prog A) Q (k : A -> shell -> outcome),
  along base P m Q -> clean m -> (forall a, saves (Q a) (k a)) -> saves P (followed m k).
Proof.
  intros A P m Q k Hm Cm Hk s. destruct (along_clean _ _ _ _ _ Hm Cm s) as (h1 & E1 & X1 & K1). unfold followed.
  destruct (m s) as [a s1|st s1|st s1|s1]; cbn [ends] in E1.
  - destruct (Hk a s1) as (h2 & E2 & K2). exists (h1 ++ h2). split; [rewrite E2, E1, app_assoc; reflexivity|]. destruct K2 as [[K2 N2]|(text & W & K2)].
    + left. split.
      * intros d Hd d' Hi. destruct (K1 d Hd) as (I1 & Q1). apply instant_app in Hi. destruct Hi as [Hi|(d1 & Hd1 & Hi)]; [auto|]. eapply K2; [|exact Hi]. eapply Q1; eauto.
      * intros St U. apply undisturbed_app in U. exact (N2 St (proj2 U)).
    + right. exists text. split; [destruct W as (b & W); exists b; apply in_or_app; auto|]. intros d Hd. destruct (K1 d Hd) as (I1 & Q1). split.
      * intros d' Hi. apply instant_app in Hi. destruct Hi as [Hi|(d1 & Hd1 & Hi)]; [apply base_inv; auto|]. exact (proj1 (K2 d1 (Q1 a s1 d1 eq_refl Hd1)) d' Hi).
      * intros St U d' Ha. apply undisturbed_app in U. apply after_app in Ha. destruct Ha as (d1 & Ha & Hb). exact (proj2 (K2 d1 (Q1 a s1 d1 eq_refl Ha)) St (proj2 U) d' Hb).
  - exists h1. split; [exact E1|]. left. split; [intros d Hd; apply (K1 d Hd)|]. intros St. injection St as St. contradiction.
  - exists h1. split; [exact E1|]. left. split; [intros d Hd; apply (K1 d Hd)|]. auto.
  - exists h1. split; [exact E1|]. left. split; [intros d Hd; apply (K1 d Hd)|]. discriminate.
Qed.

Lemma clean_if_zero : forall A st (m : prog A), st <> 0 -> clean m -> forall b : bool, clean (if b then exit_with st else m).
Proof. intros A st m H C [|]; [apply clean_exit; exact H|exact C]. Qed.
Lemma clean_replace_rest : forall w, clean (if negb (a_status w =? 0) then exit_with 1
  else step sys true [str "sync"; tmp_file conf] ;;; m <- run sys (argv [str "mv"; tmp_file conf; conf]) ;; if negb (a_status m =? 0) then exit_with 1 else ret 0).
Proof.
  intro w. apply clean_if_zero; [discriminate|]. apply clean_bind; [apply clean_step|]. intros _. apply clean_bind; [apply clean_run|]. intro m.
  apply clean_if_zero; [discriminate|apply clean_ret].
Qed.
Lemma clean_replace : forall text, clean (replace_file sys conf text).
Proof. intro text. unfold replace_file. apply clean_bind; [apply clean_run|]. intro w. apply clean_replace_rest. Qed.
Lemma replace_writes : forall text s, exists a h, sh_hist (ends (replace_file sys conf text s)) = sh_hist s ++ (mk_cmd [str ">"; tmp] text, a) :: h.
Proof.
  intros text s. unfold replace_file, bind at 1. unfold run at 1. cbv zeta. exists (sys (sh_hist s) (mk_cmd [str ">"; tmp_file conf] text)).
  destruct (a_signal _) as [st|]; [exists []; reflexivity|].
  match goal with |- context [ends (?m ?s1)] => assert (C : clean m) by apply clean_replace_rest; specialize (C s1); destruct (m s1) as [v s2|st s2|st s2|s2] end;
    cbn [ends sh_hist] in *.
  - destruct C as (h & ->). exists h. rewrite <- app_assoc. reflexivity.
  - destruct C as (_ & h & ->). exists h. rewrite <- app_assoc. reflexivity.
  - destruct C as (h & ev & -> & _). exists (h ++ [ev]). rewrite <- app_assoc. reflexivity.
  - destruct C as (h & ->). exists h. rewrite <- app_assoc. reflexivity.
Qed.
Lemma clean_prepare : clean (prepare sys glob ifc o amp).
Proof.
  unfold prepare. apply clean_bind; [apply calm_gather|]. intro new. unfold query. apply clean_bind; [apply clean_bind; [apply clean_run|intro; apply clean_ret]|]. intro w.
  apply clean_bind; [apply clean_step|]. intros _. apply clean_bind; [apply clean_run|]. intro a.
  destruct (Z.eqb_spec (a_status a) 0); cbn [negb]; [apply clean_ret|apply clean_exit; assumption].
Qed.
Lemma save_config_saves : forall rest : prog Z, calm rest -> saves start (save_config sys glob ifc o conf amp rest).
Proof.
  intros rest Hr. unfold save_config. eapply saves_after; [apply prepare_along|apply clean_prepare|]. intros [w text]. cbn [fst snd]. intro s.
  destruct (guarded_along (inv text) (fun d => ready d /\ octal w = mask) _ _ (step sys true [str "rm"; str "-f"; tmp]) (replace_file sys conf text)
    (fun _ d => done text d /\ octal w = mask) (fun _ => step sys true [str "umask"; w] ;;; rest) (finished text)) with (s := s) as (h1 & h2 & E1 & E2 & K).
  - intro s0. destruct (replace_along text s0) as (h & E & K). exists h. split; [exact E|]. intros d [R W]. destruct (K d R) as (K1 & K2). split; [exact K1|]. eauto.
  - apply clean_replace.
  - apply cleanup_along.
  - apply clean_step.
  - intro. apply restore_along. exact Hr.
  - intro. apply clean_bind; [apply clean_step|]. intros _. apply Hr.
  - exists (h1 ++ h2). split; [exact E2|]. right. exists text. split; [|exact K].
    destruct (replace_writes text s) as (a & h & Ew). rewrite E1 in Ew. apply app_inv_head in Ew. subst h1. exists a. left. reflexivity.
Qed.
End Phases.

Section Runs.
Variable sys : system.
Variable glob : list Z -> list (list Z).
Variable fuel : nat.
Variable ifc : list Z.
Variable o : options.
Variable conf : list Z.
Variable amp : bool.
Notation tmp := (temporary conf).

Lemma calm_start : forall old tidy mask A (m : prog A), calm m -> along (base conf old tidy) (start conf old tidy mask) m (fun _ => start conf old tidy mask).
Proof. intros old tidy mask A m [H _]. eapply along_conseq; [apply (H (start conf old tidy mask))|auto|intros d [K _]; exact K|auto]. Qed.
Lemma cmd_save_saves : forall old tidy mask,
  saves conf old tidy mask (start conf old tidy mask) (followed (check_interface sys ifc) (fun _ => save_config sys glob ifc o conf amp (ret 0))).
Proof.
  intros old tidy mask. eapply saves_after; [apply calm_start; apply calm_check|apply calm_check|]. intro v. cbv beta. apply save_config_saves. apply calm_ret.
Qed.
Definition before_down : prog Z := check_interface sys ifc ;;; execute_hooks sys ifc true (o_predown o).
Lemma calm_before : calm before_down.
Proof. unfold before_down. apply calm_bind; [apply calm_check|]. intros _. apply calm_hooks. Qed.
Lemma cmd_down_saves : forall old tidy mask,
  saves conf old tidy mask (start conf old tidy mask) (followed before_down (fun _ => save_config sys glob ifc o conf amp (down_rest sys fuel ifc o))).
Proof.
  intros old tidy mask. eapply saves_after; [apply calm_start; apply calm_before|apply calm_before|]. intro v. cbv beta. apply save_config_saves. apply calm_down_rest.
Qed.
Lemma cmd_down_calm : forall (P : disk -> Prop) s, exists h,
  snd (followed before_down (fun _ => finish (down_rest sys fuel ifc o)) s) = sh_hist s ++ h /\
  forall d, P d -> forall d', instant d h d' -> P d'.
Proof.
  intros P s. destruct (along_clean _ _ _ _ _ (proj1 calm_before P) (proj1 (proj2 calm_before)) s) as (h1 & E1 & _ & K1). unfold followed at 1.
  destruct (before_down s) as [v s1|st s1|st s1|s1]; cbn [ends] in E1.
  - destruct (along_clean _ _ _ _ _ (proj1 (calm_down_rest sys fuel ifc o) P) (proj1 (proj2 (calm_down_rest sys fuel ifc o))) s1) as (h2 & E2 & _ & K2).
    exists (h1 ++ h2). split; [rewrite app_assoc, <- E1, <- E2; unfold finish, followed; destruct (down_rest sys fuel ifc o s1); reflexivity|].
    intros d Hd d' Hi. destruct (K1 d Hd) as (I1 & Q1). apply instant_app in Hi. destruct Hi as [Hi|(d1 & Hd1 & Hi)]; [auto|].
    exact (proj1 (K2 d1 (Q1 v s1 d1 eq_refl Hd1)) d' Hi).
  - exists h1. split; [exact E1|]. intros d Hd. apply (K1 d Hd).
  - exists h1. split; [exact E1|]. intros d Hd. apply (K1 d Hd).
  - exists h1. split; [exact E1|]. intros d Hd. apply (K1 d Hd).
Qed.

(** The runs of the script that may save the configuration. *)
Definition a_run (r : outcome) : Prop := r = cmd_save sys glob ifc o conf amp \/ r = cmd_down sys glob fuel ifc o conf amp.
(** ... and those that are to save it. *)
Definition a_saving_run (r : outcome) : Prop := r = cmd_save sys glob ifc o conf amp \/ (r = cmd_down sys glob fuel ifc o conf amp /\ o_save o = true).

Lemma saving_run : forall r old tidy mask, a_saving_run r ->
  exists k, r = k (mk_shell [] false false) /\ saves conf old tidy mask (start conf old tidy mask) k.
Proof.
  intros r old tidy mask [->|[-> Hs]]; [eexists; split; [reflexivity|apply cmd_save_saves]|].
  unfold cmd_down. rewrite Hs. eexists. split; [reflexivity|apply cmd_down_saves].
Qed.

Lemma run_invariant : forall r d0 old tidy, a_run r -> start conf old tidy (d_mask d0) d0 ->
  (forall d, instant d0 (snd r) d -> base conf old tidy d) \/
  (exists text, writes_text conf text (snd r) /\ forall d, instant d0 (snd r) d -> inv conf old tidy text d).
Proof.
  intros r d0 old tidy Hr Hd.
  assert (S : a_saving_run r \/ (r = cmd_down sys glob fuel ifc o conf amp /\ o_save o = false)).
  { destruct Hr as [-> | ->]; [left; left; reflexivity|]. destruct (o_save o) eqn:E; [left; right; auto|right; auto]. }
  destruct S as [S|[-> S]].
  - destruct (saving_run r old tidy (d_mask d0) S) as (k & -> & Hk). destruct (Hk (mk_shell [] false false)) as (h & E & K). cbn [sh_hist app] in E. rewrite E.
    destruct K as [[K _]|(text & W & K)]; [left; apply (K d0 Hd)|]. right. exists text. split; [exact W|]. apply (K d0 Hd).
  - left. unfold cmd_down. rewrite S. destruct (cmd_down_calm (base conf old tidy) (mk_shell [] false false)) as (h & E & K). cbn [sh_hist app] in E.
    intros d Hi. unfold before_down in E. rewrite E in Hi. exact (K d0 (proj1 Hd) d Hi).
Qed.

(** At every instant at which the power may fail, the configuration file is afterwards the old one or has the complete new contents. *)
Theorem C41_crash : forall r d0 old d x, a_run r -> settled d0 conf old ->
  instant d0 (snd r) d -> found d conf x ->
  x = old \/ exists text f, writes_text conf text (snd r) /\ x = Some f /\ f_data f = text /\ f_durable f = true.
Proof.
  intros r d0 old d x Hr (Ef & Ep & Du) Hi (y & Hy & Hx).
  assert (B : start conf old False (d_mask d0) d0) by (split; [split; [exact Ef|split; [exact Ep|intros []]]|reflexivity]).
  assert (Hold : forall z, In z (d_file d conf :: d_past d conf) -> z = old \/ exists text g, writes_text conf text (snd r) /\ z = Some g /\ f_data g = text /\ f_durable g = true).
  { intros z Hz. destruct (run_invariant r d0 old False Hr B) as [K|(text & W & K)].
    - destruct (K d Hi) as (K1 & K2 & _). rewrite K1, K2 in Hz. destruct Hz as [Hz|[]]; auto.
    - destruct (K d Hi) as (K1 & _). rewrite Forall_forall in K1. destruct (K1 z Hz) as [->|(g & -> & D & S & _)]; [auto|]. right. exists text, g. auto. }
  destruct (Hold y Hy) as [->|(text & g & W & -> & D & S)].
  - destruct Hx as [->|(f & data & -> & S & _)]; [auto|]. rewrite (Du f eq_refl) in S. discriminate.
  - destruct Hx as [->|(f & data & E & S' & _)]; [right; exists text, g; auto|]. injection E as <-. congruence.
Qed.

(** Nobody else can ever read the secrets in the new file, under either name, now or after a crash (unless a temporary file with other
    permissions was there before). *)
Theorem C41_private : forall r d0 old d f, a_run r -> settled d0 conf old -> (forall g, In (Some g) (d_file d0 tmp :: d_past d0 tmp) -> private g) ->
  instant d0 (snd r) d ->
  (found d tmp (Some f) -> private f) /\ (found d conf (Some f) -> Some f = old \/ private f).
Proof.
  intros r d0 old d f Hr (Ef & Ep & Du) Ht Hi.
  assert (B : start conf old True (d_mask d0) d0).
  { split; [split; [exact Ef|split; [exact Ep|]]|reflexivity]. intros _. apply Forall_forall. intros y Hy g ->. exact (Ht g Hy). }
  assert (Kt : kept_tmp conf True d /\ forall z, In z (d_file d conf :: d_past d conf) -> z = old \/ exists g, z = Some g /\ private g /\ f_durable g = true).
  { destruct (run_invariant r d0 old True Hr B) as [K|(text & W & K)].
    - destruct (K d Hi) as (K1 & K2 & K3). split; [exact K3|]. intros z Hz. rewrite K1, K2 in Hz. destruct Hz as [Hz|[]]; auto.
    - destruct (K d Hi) as (K1 & K2). split; [exact K2|]. intros z Hz. rewrite Forall_forall in K1. destruct (K1 z Hz) as [->|(g & -> & D & S & Pv)]; [auto|]. right. exists g. auto. }
  destruct Kt as (Kt & Kc). specialize (Kt Logic.I). rewrite Forall_forall in Kt. split.
  - intros (y & Hy & [<-|(g & data & -> & _ & E)]); [exact (Kt _ Hy f eq_refl)|]. injection E as ->. exact (Kt _ Hy g eq_refl).
  - intros (y & Hy & Hx). destruct (Kc y Hy) as [->|(g & -> & Pv & S)].
    + destruct Hx as [Hx|(g & data & -> & S & _)]; [left; exact Hx|]. rewrite (Du g eq_refl) in S. discriminate.
    + destruct Hx as [Hx|(g' & data & E & S' & _)]; [injection Hx as ->; auto|]. injection E as <-. congruence.
Qed.

(** A run that was to save and reports success has replaced the configuration file, left no temporary file and restored the umask. *)
Theorem C41_success : forall r d0 old d, a_saving_run r -> settled d0 conf old ->
  fst r = Some 0 -> undisturbed (snd r) -> after d0 (snd r) d ->
  d_file d tmp = None /\ d_mask d = d_mask d0 /\
  exists text f, writes_text conf text (snd r) /\ d_file d conf = Some f /\ f_data f = text /\ f_durable f = true.
Proof.
  intros r d0 old d Hr (Ef & Ep & Du) St U Ha.
  assert (B : start conf old False (d_mask d0) d0) by (split; [split; [exact Ef|split; [exact Ep|intros []]]|reflexivity]).
  destruct (saving_run r old False (d_mask d0) Hr) as (k & -> & Hk). destruct (Hk (mk_shell [] false false)) as (h & E & K). cbn [sh_hist app] in E.
  rewrite E in *. destruct K as [[_ N]|(text & W & K)]; [destruct (N St U)|]. destruct (K d0 B) as (_ & Kf). destruct (Kf St U d Ha) as (_ & M & T & g & Eg & D & S & _).
  split; [exact T|]. split; [exact M|]. exists text, g. auto.
Qed.
End Runs.

(** ** After a failure *)
Section Cleanup.
Variable conf : list Z.
Notation tmp := (temporary conf).
Definition removal : command := argv [str "rm"; str "-f"; tmp].
Definition removals_succeed (h : history) : Prop := forall a, In (removal, a) h -> a_status a = 0.
Lemma removal_removes : forall d h a d', after d (h ++ [(removal, a)]) d' -> a_status a = 0 -> d_file d' tmp = None.
Proof.
  intros d h a d' H S. apply after_app in H. destruct H as (d1 & _ & H). inversion H as [|? ? ? d2 ? ? Ef H']; subst. inversion H'; subst.
  unfold effect, removal in Ef. cbn [deed_of c_argv argv existsb bystanders words_of map] in Ef. destruct Ef as [[_ (_ & _ & E & _)]|[N _]]; [exact E|contradiction].
Qed.
(** What removing the temporary file adds to the history. *)
Lemma cleanup_runs : forall sys s, exists a, sh_hist (ends (step sys true [str "rm"; str "-f"; tmp] s)) = sh_hist s ++ [(removal, a)].
Proof.
  intros sys s. unfold step, step_in, bind, run. cbv zeta. cbn [sh_hist]. exists (sys (sh_hist s) removal). change (mk_cmd _ []) with removal.
  destruct (a_signal _); [reflexivity|]. destruct (_ && _); reflexivity.
Qed.
Lemma exit_trap_runs : forall sys st s, exists a, snd (exit_trap (step sys true [str "rm"; str "-f"; tmp]) st s) = sh_hist s ++ [(removal, a)].
Proof.
  intros sys st s. destruct (cleanup_runs sys s) as (a & E). exists a. rewrite <- E. unfold exit_trap. destruct (step _ _ _ s); reflexivity.
Qed.
End Cleanup.

Section Leftover.
Variable sys : system.
Variable glob : list Z -> list (list Z).
Variable fuel : nat.
Variable ifc : list Z.
Variable o : options.
Variable conf : list Z.
Variable amp : bool.
Notation tmp := (temporary conf).
Definition gone (d : disk) : Prop := d_file d tmp = None.

Lemma gone_same : forall d d', others [] d d' -> gone d -> gone d'.
Proof. intros d d' H G. destruct (H tmp) as [E _]; [intros []|]. unfold gone. rewrite E. exact G. Qed.
Lemma mask_along : forall e w, along gone gone (step sys e [str "umask"; w]) (fun _ => gone).
Proof.
  intros e w. unfold step, step_in. eapply along_bind with (Q := fun _ => gone).
  - apply along_run; [auto|]. intros d d' a G He. change (effect (argv [str "umask"; w]) a d d') in He. unfold effect in He.
    cbn [deed_of c_argv argv existsb bystanders words_of map] in He. destruct He as (Ho & _). pose proof (gone_same _ _ Ho G). auto.
  - intro a. destruct (_ && _); [apply along_exit|apply along_ret]; auto.
Qed.
Lemma prepare_gone : along gone gone (prepare sys glob ifc o amp) (fun _ => gone).
Proof.
  unfold prepare. eapply along_bind; [apply calm_gather|]. intro new. eapply along_bind with (Q := fun _ => gone).
  - unfold query. eapply along_bind with (Q := fun _ => gone); [|intro; apply along_ret; auto].
    apply along_run; [auto|]. intros d d' a G (-> & _). auto.
  - intro w. eapply along_bind; [apply mask_along|]. intro z. cbv beta. eapply along_bind; [apply calm_run; reflexivity|]. intro a. cbv beta.
    destruct (negb _); [apply along_exit|apply along_ret]; auto.
Qed.
Lemma replace_no_loop : forall text s s1, replace_file sys conf text s <> Loops s1.
Proof.
  intros text s s1. unfold replace_file, step, step_in, bind, run. cbv zeta. destruct (a_signal _); [discriminate|]. destruct (negb _); [discriminate|]. cbn [sh_hist].
  destruct (a_signal _); [discriminate|]. cbn [andb]. destruct (negb _); [discriminate|]. cbn [sh_hist ret]. destruct (a_signal _); [discriminate|].
  destruct (negb _); discriminate.
Qed.

(** [k], started without temporary file, ends without one. *)
Definition tidies (P : disk -> Prop) (k : shell -> outcome) : Prop := forall s, exists h, snd (k s) = sh_hist s ++ h /\
  forall d d', P d -> removals_succeed conf h -> after d h d' -> gone d'.
Lemma succeed_app : forall h1 h2, removals_succeed conf (h1 ++ h2) <-> removals_succeed conf h1 /\ removals_succeed conf h2.
Proof.
  intros h1 h2. unfold removals_succeed. split.
  - intro H. split; intros a K; apply H; apply in_or_app; auto.
  - intros [H1 H2] a K. apply in_app_or in K. destruct K; auto.
Qed.
Lemma tidies_after : forall A (P : disk -> Prop) (m : prog A) Q (k : A -> shell -> outcome),
  along gone P m Q -> (forall a, tidies (Q a) (k a)) -> tidies P (followed m k).
Proof.
  intros A P m Q k Hm Hk s. destruct (Hm s) as (h1 & E1 & K1). unfold followed. destruct (m s) as [a s1|st s1|st s1|s1]; cbn [ends] in E1.
  - destruct (Hk a s1) as (h2 & E2 & K2). exists (h1 ++ h2). split; [rewrite E2, E1, app_assoc; reflexivity|].
    intros d d' Hd Hs Ha. apply succeed_app in Hs. apply after_app in Ha. destruct Ha as (d1 & Ha & Hb). apply (K2 d1 d'); [|apply Hs|exact Hb]. exact (proj2 (K1 d Hd) a s1 d1 eq_refl Ha).
  - exists h1. split; [exact E1|]. intros d d' Hd _ Ha. apply (proj1 (K1 d Hd)). apply instant_end. exact Ha.
  - exists h1. split; [exact E1|]. intros d d' Hd _ Ha. apply (proj1 (K1 d Hd)). apply instant_end. exact Ha.
  - exists h1. split; [exact E1|]. intros d d' Hd _ Ha. apply (proj1 (K1 d Hd)). apply instant_end. exact Ha.
Qed.
Lemma tidies_finish : forall (m : prog Z), calm m -> tidies gone (finish m).
Proof.
  intros m [Hm _]. unfold finish. eapply tidies_after; [apply Hm|]. intros v s. cbv beta. exists []. rewrite app_nil_r. split; [reflexivity|].
  intros d d' G _ Ha. inversion Ha; subst. exact G.
Qed.
Lemma tidies_guarded : forall text w (rest : prog Z), calm rest ->
  tidies (fun d => exists old, ready conf old False d) (guarded (step sys true [str "rm"; str "-f"; tmp]) (replace_file sys conf text) (fun _ => step sys true [str "umask"; w] ;;; rest)).
Proof.
  intros text w rest [Hr _] s. unfold guarded. pose proof (replace_no_loop text s) as NL.
  destruct (replace_along sys conf None False text s) as (h1 & E1 & _). destruct (replace_file sys conf text s) as [b s1|st s1|st s1|s1] eqn:Eb; cbn [ends] in E1.
  - assert (Ha : along gone gone (step sys true [str "umask"; w] ;;; rest) (fun _ => gone)) by (eapply along_bind; [apply mask_along|intro z; apply Hr]).
    destruct (Ha s1) as (h2 & E2 & K2). exists (h1 ++ h2). split; [rewrite app_assoc, <- E1, <- E2; destruct ((step sys true [str "umask"; w] ;;; rest) s1); reflexivity|].
    intros d d' (old & Hd) _ Hd'. apply after_app in Hd'. destruct Hd' as (d1 & Hd1 & Hd2).
    destruct (replace_along sys conf old False text s) as (h & E & K). rewrite Eb in *. cbn [ends] in E. rewrite E1 in E. apply app_inv_head in E. subst h.
    destruct (proj2 (K d Hd) b s1 d1 eq_refl Hd1) as (_ & _ & G & _). apply (proj1 (K2 d1 G)). apply instant_end. exact Hd2.
  - destruct (exit_trap_runs conf sys st s1) as (a & E2). exists (h1 ++ [(removal conf, a)]). split; [rewrite E2, E1, app_assoc; reflexivity|].
    intros d d' _ Hs Hd'. eapply removal_removes; [exact Hd'|]. apply Hs. apply in_or_app. right. left. reflexivity.
  - destruct (cleanup_runs conf sys s1) as (a & E2).
    assert (G : forall st1 s2, sh_hist s2 = sh_hist s1 ++ [(removal conf, a)] -> exists h, snd (exit_trap (step sys true [str "rm"; str "-f"; tmp]) st1 s2) = sh_hist s ++ h /\
      (forall d d', (exists old, ready conf old False d) -> removals_succeed conf h -> after d h d' -> gone d')).
    { intros st1 s2 E. destruct (exit_trap_runs conf sys st1 s2) as (a2 & E3). exists ((h1 ++ [(removal conf, a)]) ++ [(removal conf, a2)]).
      split; [rewrite E3, E, E1, <- !app_assoc; reflexivity|]. intros d d' _ Hs Hd'. eapply removal_removes; [exact Hd'|]. apply Hs. apply in_or_app. right. left. reflexivity. }
    destruct (step sys true [str "rm"; str "-f"; tmp] s1) as [v s2|st2 s2|st2 s2|s2]; cbn [ends] in E2; try (apply G; exact E2).
    exists (h1 ++ [(removal conf, a)]). split; [cbn [snd]; rewrite E2, E1, app_assoc; reflexivity|].
    intros d d' _ Hs Hd'. eapply removal_removes; [exact Hd'|]. apply Hs. apply in_or_app. right. left. reflexivity.
  - destruct (NL s1). reflexivity.
Qed.
Lemma tidies_conseq : forall (P P' : disk -> Prop) k, tidies P k -> (forall d, P' d -> P d) -> tidies P' k.
Proof. intros P P' k H HP s. destruct (H s) as (h & E & K). exists h. split; [exact E|]. eauto. Qed.
Definition fresh (d : disk) : Prop := gone d /\ d_past d conf = [].
Lemma along_and : forall A (I1 I2 P1 P2 : disk -> Prop) (m : prog A) Q1 Q2, along I1 P1 m Q1 -> along I2 P2 m Q2 ->
  along (fun d => I1 d /\ I2 d) (fun d => P1 d /\ P2 d) m (fun v d => Q1 v d /\ Q2 v d).
Proof.
  intros A I1 I2 P1 P2 m Q1 Q2 H1 H2 s. destruct (H1 s) as (h & E & K1). destruct (H2 s) as (h' & E' & K2). rewrite E in E'. apply app_inv_head in E'. subst h'.
  exists h. split; [exact E|]. intros d [Hd1 Hd2]. destruct (K1 d Hd1), (K2 d Hd2). split; [split; auto|]. split; eauto.
Qed.
Lemma tidies_save : forall old mask rest, calm rest -> tidies (fun d => gone d /\ start conf old False mask d) (save_config sys glob ifc o conf amp rest).
Proof.
  intros old mask rest Hr. unfold save_config. eapply tidies_after with (Q := fun r d => gone d /\ (ready conf old False d /\ octal (fst r) = mask)).
  - eapply along_conseq; [apply (along_and _ _ _ _ _ _ _ _ prepare_gone (prepare_along sys glob ifc o conf amp old False mask))|auto|intros d [H _]; exact H|auto].
  - intros [w text]. eapply tidies_conseq; [apply tidies_guarded; exact Hr|]. intros d (_ & H & _). exists old. exact H.
Qed.
Lemma calm_gone_start : forall old mask A (m : prog A), calm m ->
  along gone (fun d => gone d /\ start conf old False mask d) m (fun _ d => gone d /\ start conf old False mask d).
Proof. intros old mask A m [H _]. eapply along_conseq; [apply (H (fun d => gone d /\ start conf old False mask d))|auto|intros d [K _]; exact K|auto]. Qed.

(** Nothing is left behind: if there was no temporary file before, there is none after, however the run ends (as long as rm works). *)
Theorem C41_no_leftover : forall r d0 old d, a_run sys glob fuel ifc o conf amp r -> settled d0 conf old -> d_file d0 tmp = None ->
  removals_succeed conf (snd r) -> after d0 (snd r) d -> d_file d tmp = None.
Proof.
  intros r d0 old d Hr (Ef & Ep & _) G Hs Ha.
  assert (B : gone d0 /\ start conf old False (d_mask d0) d0) by (split; [exact G|split; [split; [exact Ef|split; [exact Ep|intros []]]|reflexivity]]).
  assert (T : exists k, r = k (mk_shell [] false false) /\ tidies (fun d => gone d /\ start conf old False (d_mask d0) d) k).
  { destruct Hr as [-> | ->].
    - eexists. split; [reflexivity|]. eapply tidies_after; [apply calm_gone_start; apply calm_check|]. intro v. apply tidies_save. apply calm_ret.
    - unfold cmd_down. eexists. split; [reflexivity|]. eapply tidies_after; [apply calm_gone_start; apply (calm_before sys ifc o)|]. intro v. destruct (o_save o).
      + apply tidies_save. apply calm_down_rest.
      + eapply tidies_conseq; [apply tidies_finish; apply calm_down_rest|]. intros d1 [H _]. exact H. }
  destruct T as (k & -> & T). destruct (T (mk_shell [] false false)) as (h & E & K). cbn [sh_hist app] in E. rewrite E in *. exact (K d0 d B Hs Ha).
Qed.
End Leftover.

(** ** A concrete run *)
(** What the commands do when they work. *)
Definition set_at {A} (p : list Z) (x : A) (f : list Z -> A) : list Z -> A := fun q => if beq q p then x else f q.
Definition perform (c : command) (d : disk) : disk :=
  match deed_of c with
  | Writes p t => mk_disk (set_at p (Some (mk_file t false (mode_for d p))) (d_file d))
                    (set_at p (match d_file d p with Some _ => d_past d p | None => None :: d_past d p end) (d_past d)) (d_mask d)
  | Syncs p => mk_disk (set_at p (match d_file d p with Some f => Some (mk_file (f_data f) true (f_mode f)) | None => None end) (d_file d)) (d_past d) (d_mask d)
  | Moves p q => mk_disk (set_at p None (set_at q (d_file d p) (d_file d)))
                   (set_at p (d_file d p :: d_past d p) (set_at q (d_file d q :: d_past d q) (d_past d))) (d_mask d)
  | Removes p => mk_disk (set_at p None (d_file d)) (set_at p (d_file d p :: d_past d p) (d_past d)) (d_mask d)
  | Masks w => mk_disk (d_file d) (d_past d) (octal w)
  | _ => d
  end.
Fixpoint plays (h : history) (d : disk) : bool :=
  match h with
  | [] => true
  | (c, a) :: h' => (a_status a =? 0) &&
      (match deed_of c with
       | Moves p q => match d_file d p with Some _ => negb (beq p q) | None => false end
       | AsksMask => octal (captured (a_output a)) =? d_mask d
       | Unknown => false
       | _ => true
       end) && plays h' (perform c d)
  end.
Lemma set_at_same : forall A p (x : A) f, set_at p x f p = x.
Proof. intros. unfold set_at. rewrite (proj2 (beq_eq _ _) eq_refl). reflexivity. Qed.
Lemma set_at_other : forall A p q (x : A) f, q <> p -> set_at p x f q = f q.
Proof. intros A p q x f H. unfold set_at. destruct (beq q p) eqn:E; [|reflexivity]. apply beq_eq in E. contradiction. Qed.
Lemma plays_after : forall h d, plays h d = true -> after d h (fold_left (fun d ev => perform (fst ev) d) h d).
Proof.
  induction h as [|[c a] h IH]; intros d H; cbn [fold_left fst]; [constructor|]. cbn [plays] in H. apply andb_prop in H. destruct H as [H K]. apply andb_prop in H. destruct H as [S H].
  apply Z.eqb_eq in S. econstructor; [|apply IH; exact K]. clear K IH. unfold effect, perform. cbv zeta. destruct (deed_of c) as [|p t|p|p q|p|w| |].
  - reflexivity.
  - left. split; [exact S|]. unfold written, others. cbn [d_file d_past d_mask]. rewrite !set_at_same. repeat split; try reflexivity;
      apply set_at_other; intros ->; match goal with N : ~ _ |- _ => apply N; left; reflexivity end.
  - left. split; [exact S|]. unfold synced, others. cbn [d_file d_past d_mask]. rewrite !set_at_same. repeat split; try reflexivity;
      apply set_at_other; intros ->; match goal with N : ~ _ |- _ => apply N; left; reflexivity end.
  - left. split; [exact S|]. unfold moved, others. cbn [d_file d_past d_mask]. destruct (d_file d p) as [f|] eqn:Ef; [|discriminate].
    assert (N : q <> p) by (intros ->; rewrite (proj2 (beq_eq _ _) eq_refl) in H; discriminate).
    rewrite !(set_at_other _ p q _ _ N), !set_at_same. repeat split; try reflexivity; try discriminate;
      rewrite !set_at_other; try reflexivity; intros ->; match goal with K : ~ _ |- _ => apply K; cbn; auto end.
  - left. split; [exact S|]. unfold removed, others. cbn [d_file d_past d_mask]. rewrite !set_at_same. repeat split; try reflexivity;
      apply set_at_other; intros ->; match goal with N : ~ _ |- _ => apply N; left; reflexivity end.
  - split; [intros p _; split; reflexivity|]. left. split; [exact S|reflexivity].
  - apply Z.eqb_eq in H. auto.
  - discriminate.
Qed.

Definition save_options : options :=
  mk_options (str "[Interface]" ++ [10]) [str "10.0.0.2/24"] (str "1400") [str "10.0.0.1"] [] (str "off")
             [str "echo %i"] [] [] [str "rm -f /run/%i"] true.
Definition live : list (list string * answer) :=
  [(["wg"; "show"; "interfaces"]%string, says "wg0 wg1");
   (["ip"; "-all"]%string, says "wg0              UNKNOWN        10.0.0.2/24 fd00::2/64 ");
   (["resolvconf"; "-l"]%string, says "nameserver 10.0.0.1");
   (["ip"; "link"; "show"]%string, says "7: wg0: <UP> mtu 1400 qdisc noqueue");
   (["umask"]%string, says "0022");
   (["wg"; "showconf"]%string, mk_answer 0 (str "[Interface]" ++ [10] ++ str "PrivateKey = K" ++ [10; 10] ++ str "[Peer]" ++ [10] ++ str "PublicKey = P" ++ [10]) None)].
Definition conf0 : list Z := str "/etc/wireguard/wg0.conf".
Definition saved_run (l : list (list string * answer)) : outcome := cmd_save (table_system l) no_glob wg0 save_options conf0 true.
Definition down_run (l : list (list string * answer)) : outcome := cmd_down (table_system l) no_glob 5 wg0 save_options conf0 true.
Definition old_file : file := mk_file (str "old") true 420.
Definition disk0 : disk := mk_disk (set_at conf0 (Some old_file) (fun _ => None)) (fun _ => []) 18.
Definition played (h : history) (d : disk) : disk := fold_left (fun d ev => perform (fst ev) d) h d.

Definition saved_example : list Z :=
  (concat (map (fun l => str l ++ [10])
      ["[Interface]"; "Address = 10.0.0.2/24"; "Address = fd00::2/64"; "DNS = 10.0.0.1"; "MTU = 1400"; "Table = off"; "SaveConfig = true";
       "PreUp = echo %i"; "PostDown = rm -f /run/%i"; "PrivateKey = K"; ""; "[Peer]"; "PublicKey = P"]%string)).
(** A run meeting the hypotheses of the theorems above, and its result. *)
Example C41_case :
  settled disk0 conf0 (Some old_file) /\ (forall g, In (Some g) (d_file disk0 (temporary conf0) :: d_past disk0 (temporary conf0)) -> private g) /\
  fst (saved_run live) = Some 0 /\ undisturbed (snd (saved_run live)) /\ after disk0 (snd (saved_run live)) (played (snd (saved_run live)) disk0) /\
  removals_succeed conf0 (snd (saved_run live)) /\
  d_file (played (snd (saved_run live)) disk0) conf0 =
    Some (mk_file saved_example true 384).
Proof.
  repeat match goal with |- _ /\ _ => split end; try reflexivity.
  - split; [reflexivity|]. split; [reflexivity|]. intros f E. injection E as <-. reflexivity.
  - intros g [E|[]]. discriminate.
  - intros ev H. assert (K : forallb (fun ev => match a_signal (snd ev) with None => true | _ => false end) (snd (saved_run live)) = true) by reflexivity.
    rewrite forallb_forall in K. specialize (K ev H). destruct (a_signal (snd ev)); [discriminate|reflexivity].
  - apply plays_after. reflexivity.
  - intros a H. assert (K : forallb (fun ev => a_status (snd ev) =? 0) (snd (saved_run live)) = true) by reflexivity.
    rewrite forallb_forall in K. specialize (K _ H). cbn [snd] in K. apply Z.eqb_eq in K. exact K.
Qed.
Example C41_down_case : fst (down_run live) = Some 0 /\ after disk0 (snd (down_run live)) (played (snd (down_run live)) disk0).
Proof. split; [reflexivity|]. apply plays_after. reflexivity. Qed.

(** The hypothesis of [C41_private] is needed: a temporary file everybody can read that happens to be there hands its permissions to the new
    configuration, although the old one was private. *)
Theorem C41_private_refuted : exists r d0 d old f, a_saving_run (table_system live) no_glob 5 wg0 save_options conf0 true r /\
    settled d0 conf0 (Some old) /\ private old /\ after d0 (snd r) d /\ fst r = Some 0 /\ d_file d conf0 = Some f /\ Z.land (f_mode f) 4 <> 0.
Proof.
  set (old := mk_file (str "old") true 384).
  set (d0 := mk_disk (set_at (temporary conf0) (Some (mk_file [] true 420)) (set_at conf0 (Some old) (fun _ => None))) (fun _ => []) 18).
  exists (saved_run live), d0, (played (snd (saved_run live)) d0), old, (mk_file saved_example true 420). split; [left; reflexivity|].
  split; [split; [reflexivity|split; [reflexivity|intros f E; injection E as <-; reflexivity]]|]. split; [reflexivity|].
  split; [apply plays_after; reflexivity|]. split; [reflexivity|]. split; [reflexivity|]. discriminate.
Qed.
