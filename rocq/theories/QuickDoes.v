(** What pieces of the script do when they end normally, whether or not "set -e" is in force. *)
From Coq Require Import String ZArith List Bool Lia.
From Verif Require Import Base Cstr Bash Quick QuickRun QuickRunSpec.
Import ListNotations.
Open Scope Z_scope.

Definition does {A} (m : prog A) (Q : A -> history -> Prop) : Prop := forall s v s1, m s = Done v s1 -> exists h, sh_hist s1 = sh_hist s ++ h /\ Q v h.

Lemma does_ret : forall A (a : A) (Q : A -> history -> Prop), Q a [] -> does (ret a) Q.
Proof. intros A a Q H s v s1 E. injection E as <- <-. exists []. rewrite app_nil_r. auto. Qed.
Lemma does_conseq : forall A (m : prog A) (Q R : A -> history -> Prop), does m Q -> (forall a h, Q a h -> R a h) -> does m R.
Proof. intros A m Q R H HR s v s1 E. destruct (H s v s1 E) as (h & Eh & HQ). exists h. auto. Qed.
Lemma does_bind : forall A B (m : prog A) (f : A -> prog B) (Q : A -> history -> Prop) (R : B -> history -> Prop),
  does m Q -> (forall a h1, Q a h1 -> does (f a) (fun b h2 => R b (h1 ++ h2))) -> does (bind m f) R.
Proof.
  intros A B m f Q R Hm Hf s v s1 E. unfold bind in E. destruct (m s) as [a s2| | |] eqn:Em; try discriminate.
  destruct (Hm s a s2 Em) as (h1 & E1 & HQ). destruct (Hf a h1 HQ s2 v s1 E) as (h2 & E2 & HR). exists (h1 ++ h2). rewrite E2, E1, app_assoc. auto.
Qed.
Section Rules.
Variable sys : system.
Lemma run_does : forall c, does (run sys c) (fun a h => h = [(c, a)] /\ a_signal a = None).
Proof.
  intros c s v s1 E. unfold run in E. destruct (a_signal _) eqn:Es; [discriminate|]. injection E as <- <-. eexists. split; [reflexivity|]. auto.
Qed.
Lemma query_does : forall ws, does (query sys ws) (fun out h => exists a, h = [(argv ws, a)] /\ out = captured (a_output a)).
Proof. intro ws. unfold query. eapply does_bind; [apply run_does|]. cbn beta. intros a h (-> & _). apply does_ret. exists a. auto. Qed.
Lemma output_does : forall ws, does (output sys ws) (fun out h => exists a, h = [(argv ws, a)] /\ out = a_output a).
Proof. intro ws. unfold output. eapply does_bind; [apply run_does|]. cbn beta. intros a h (-> & _). apply does_ret. exists a. auto. Qed.
Lemma cond_does : forall ws, does (cond sys ws) (fun b h => exists a, h = [(argv ws, a)] /\ b = (a_status a =? 0)).
Proof. intro ws. unfold cond. eapply does_bind; [apply run_does|]. cbn beta. intros a h (-> & _). apply does_ret. exists a. auto. Qed.
Lemma step_does : forall e ws input, does (step_in sys e ws input) (fun st h => exists a, h = [(mk_cmd ws input, a)] /\ st = a_status a /\ (e = true -> st = 0)).
Proof.
  intros e ws input. unfold step_in. eapply does_bind; [apply run_does|]. cbn beta. intros a h (-> & _). intros s v s1 E.
  destruct e, (Z.eqb_spec (a_status a) 0); cbn [andb negb] in E; try discriminate; injection E as <- <-; exists []; (split; [symmetry; apply app_nil_r|]); exists a; auto.
  split; [reflexivity|]. split; [reflexivity|]. discriminate.
Qed.
End Rules.
