(** Running a bash script that keeps variables of its own: the machinery shared by the models of src/wg-quick/freebsd.bash, openbsd.bash and
    darwin.bash.  Commands, answers, histories and systems are those of QuickRun.v; [V] is the type of the script's variables.  As there, what the
    commands answer is given by a [system], so a theorem about all systems covers every behaviour of theirs, every failure and every instant a
    signal can arrive. *)
From Coq Require Import String ZArith List Bool.
From Verif Require Import Base Cstr Bash Quick QuickRun.
Import ListNotations.
Open Scope Z_scope.

Record sh (V : Type) := mk_sh { s_hist : history; s_vars : V }.
Arguments mk_sh {V}. Arguments s_hist {V}. Arguments s_vars {V}.

(** How a piece of script ends: normally with a value, by exit (also because of "set -e"), interrupted by a signal, or not at all. *)
Inductive fin (V A : Type) := Fin (a : A) (s : sh V) | Quit (st : Z) (s : sh V) | Hit (st : Z) (s : sh V) | Spin (s : sh V).
Arguments Fin {V A}. Arguments Quit {V A}. Arguments Hit {V A}. Arguments Spin {V A}.
Definition act (V A : Type) : Type := sh V -> fin V A.

Definition pure {V A} (a : A) : act V A := fun s => Fin a s.
Definition thn {V A B} (m : act V A) (f : A -> act V B) : act V B := fun s =>
  match m s with
  | Fin a s1 => f a s1
  | Quit st s1 => Quit st s1
  | Hit st s1 => Hit st s1
  | Spin s1 => Spin s1
  end.
Notation "x <~ m ;; n" := (thn m (fun x => n)) (at level 100, m at next level, right associativity).
Notation "m ;~ n" := (thn m (fun _ => n)) (at level 100, right associativity).
Definition quit {V A} (st : Z) : act V A := fun s => Quit st s.
Definition get {V A} (f : V -> act V A) : act V A := fun s => f (s_vars s) s.
Definition put {V} (f : V -> V) : act V unit := fun s => Fin tt (mk_sh (s_hist s) (f (s_vars s))).

Section Commands.
Variable V : Type.
Variable sys : system.

Definition call (c : command) : act V answer := fun s =>
  let a := sys (s_hist s) c in
  let s1 := mk_sh (s_hist s ++ [(c, a)]) (s_vars s) in
  match a_signal a with None => Fin a s1 | Some st => Hit st s1 end.
(** [$(...)]: the status is ignored.  [< <(...)]: the raw output.  A command as a condition. *)
Definition ask (ws : list (list Z)) : act V (list Z) := a <~ call (argv ws) ;; pure (captured (a_output a)).
Definition feed (ws : list (list Z)) : act V (list Z) := a <~ call (argv ws) ;; pure (a_output a).
Definition holds (ws : list (list Z)) : act V bool := a <~ call (argv ws) ;; pure (a_status a =? 0).
(** A simple command while "set -e" is in force: a failure ends the script. *)
Definition must_in (ws : list (list Z)) (input : list Z) : act V unit :=
  a <~ call (mk_cmd ws input) ;; if a_status a =? 0 then pure tt else quit (a_status a).
Definition must (ws : list (list Z)) : act V unit := must_in ws [].
(** [command || true] *)
Definition try (ws : list (list Z)) : act V unit := call (argv ws) ;~ pure tt.
Fixpoint each {A} (f : A -> act V unit) (l : list A) : act V unit :=
  match l with [] => pure tt | x :: l' => f x ;~ each f l' end.

(** trap 'CLEANUP; exit' EXIT: the status is the one before, unless the cleanup fails. *)
Definition at_exit (cleanup : act V unit) (st : Z) (s : sh V) : outcome :=
  match cleanup s with
  | Fin _ s1 => (Some st, s_hist s1)
  | Quit st1 s1 => (Some st1, s_hist s1)
  | Hit st1 s1 => (Some st1, s_hist s1)               (* a second signal: not modelled further *)
  | Spin s1 => (None, s_hist s1)
  end.
(** The part of the script that runs while [trap 'CLEANUP; exit' INT TERM EXIT] is set, and what follows.  On a signal the trap runs and then again
    because of its exit. *)
Definition region {A} (cleanup : act V unit) (body : act V A) (k : A -> sh V -> outcome) : sh V -> outcome := fun s =>
  match body s with
  | Fin a s1 => k a s1
  | Quit st s1 => at_exit cleanup st s1
  | Hit st s1 =>
      match cleanup s1 with
      | Fin _ s2 => at_exit cleanup st s2
      | Quit st1 s2 | Hit st1 s2 => at_exit cleanup st1 s2
      | Spin s2 => (None, s_hist s2)
      end
  | Spin s1 => (None, s_hist s1)
  end.
End Commands.
Arguments call {V}. Arguments ask {V}. Arguments feed {V}. Arguments holds {V}. Arguments must_in {V}. Arguments must {V}. Arguments try {V}.
Arguments each {V A}. Arguments at_exit {V}. Arguments region {V A}.
