(** What a defined run of a program of Leak.v computes, without the checks and what is seen on the way. *)
From Coq Require Import String ZArith List Bool Lia.
From Verif Require Import Base Leak.
Import ListNotations.
Open Scope Z_scope.

Section Value.
Variable sg : bool.
Variable fuel : nat.
Definition v_fits (t : ctype) (z : Z) : Z := match t with I32 | CHAR => z | _ => stored t z end.
Definition v_exact (op : binop) (a b : Z) : Z :=
  match op with
  | Add => a + b | Sub => a - b | Mul => a * b | And => Z.land a b | Or => Z.lor a b | Xor => Z.lxor a b
  | Shl => Z.shiftl a b | Shr => Z.shiftr a b | Lt => b2z (a <? b) | Ne => b2z (negb (a =? b)) | Quot => Z.quot a b
  end.
Definition lookup_ {A} (d : A) (m : env A) (x : string) : A := match get m x with Some v => v | None => d end.
Fixpoint value (e : expr) (s : state) : Z :=
  match e with
  | Lit z => z
  | Var x => lookup_ 0 (st_vars s) x
  | At t a i => loaded sg t (nth (Z.to_nat (value i s)) (lookup_ [] (st_arrays s) a) 0)
  | Bin t op e1 e2 => v_fits t (v_exact op (v_fits t (value e1 s)) (v_fits t (value e2 s)))
  | Conv t e1 => v_fits t (value e1 s)
  end.
Lemma fits_value : forall t z w, fits sg t z = Some w -> v_fits t z = w.
Proof. intros t z w H. destruct t; cbn [fits v_fits] in *; try congruence; destruct (andb _ _); congruence. Qed.
Lemma exact_value : forall t op a b r, exact t op a b = Some r -> v_exact op a b = r.
Proof. intros t op a b r H. destruct op; cbn [exact v_exact] in *; try congruence; destruct (andb _ _) || destruct (_ =? _); congruence. Qed.
Lemma eval_value : forall e s v l, eval sg e s = Some (v, l) -> value e s = v.
Proof.
  intro e. induction e as [z|x|t b e IH|t op e1 IH1 e2 IH2|t e IH]; intros s v l E; cbn [eval value] in *.
  - congruence.
  - unfold lookup_. destruct (get (st_vars s) x); congruence.
  - destruct (eval sg e s) as [[n l1]|] eqn:Ee; [|discriminate]. rewrite (IH _ _ _ Ee). unfold lookup_. destruct (get (st_arrays s) b) as [c|]; [|discriminate]. destruct (andb _ _); congruence.
  - destruct (eval sg e1 s) as [[v1 l1]|] eqn:E1; [|discriminate]. destruct (eval sg e2 s) as [[v2 l2]|] eqn:E2; [|discriminate]. rewrite (IH1 _ _ _ E1), (IH2 _ _ _ E2).
    unfold compute, operand in E. destruct (fits sg t v1) as [x|] eqn:F1; [|discriminate]. destruct (fits sg t v2) as [y|] eqn:F2; [|discriminate]. rewrite (fits_value _ _ _ F1), (fits_value _ _ _ F2).
    destruct (exact t op x y) as [r|] eqn:Ex; [|discriminate]. rewrite (exact_value _ _ _ _ _ Ex). destruct (fits sg t r) as [w|] eqn:F3; [|discriminate]. rewrite (fits_value _ _ _ F3). congruence.
  - destruct (eval sg e s) as [[n l1]|] eqn:Ee; [|discriminate]. rewrite (IH _ _ _ Ee). destruct (fits sg t n) as [w|] eqn:F; [|discriminate]. rewrite (fits_value _ _ _ F). congruence.
Qed.

Definition v_outcome : Type := state * option Z.
Fixpoint v_loop (cond : state -> Z) (body : state -> v_outcome) (n : nat) (s : state) : v_outcome :=
  match n with
  | O => (s, None)
  | S n' => if cond s =? 0 then (s, None) else match body s with (s1, Some r) => (s1, Some r) | (s1, None) => v_loop cond body n' s1 end
  end.
Fixpoint v_exec (c : stmt) (s : state) {struct c} : v_outcome :=
  match c with
  | Skip => (s, None)
  | Set_ t x e => (mk_state (put (st_vars s) x (v_fits t (value e s))) (st_arrays s), None)
  | Put t a i e => (mk_state (st_vars s) (put (st_arrays s) a (replace_at (lookup_ [] (st_arrays s) a) (Z.to_nat (value i s)) (stored t (value e s)))), None)
  | Seq c1 c2 => match v_exec c1 s with (s1, Some r) => (s1, Some r) | (s1, None) => v_exec c2 s1 end
  | If e c1 c2 => v_exec (if negb (value e s =? 0) then c1 else c2) s
  | While e c1 => v_loop (value e) (v_exec c1) fuel s
  | Strlen x a => (mk_state (put (st_vars s) x (match strlen_of (lookup_ [] (st_arrays s) a) with Some n => n | None => 0 end)) (st_arrays s), None)
  | Return e => (s, Some (value e s))
  end.
Lemma exec_value : forall c s s1 r l, exec sg fuel c s = Some (s1, r, l) -> v_exec c s = (s1, r).
Proof.
  intro c. induction c as [|t x e|t b i e|c1 IH1 c2 IH2|e c1 IH1 c2 IH2|e c1 IH1|x b|e]; intros s s1 r l E; cbn [exec v_exec] in *.
  - congruence.
  - destruct (eval sg e s) as [[v l1]|] eqn:Ee; [|discriminate]. rewrite (eval_value _ _ _ _ Ee). destruct (fits sg t v) as [w|] eqn:F; [|discriminate]. rewrite (fits_value _ _ _ F). congruence.
  - destruct (eval sg i s) as [[n l1]|] eqn:Ei; [|discriminate]. destruct (eval sg e s) as [[v l2]|] eqn:Ee; [|discriminate]. rewrite (eval_value _ _ _ _ Ei), (eval_value _ _ _ _ Ee). unfold lookup_.
    destruct (get (st_arrays s) b) as [cells|]; [|discriminate]. destruct (andb _ _); congruence.
  - destruct (exec sg fuel c1 s) as [[[s2 r2] l2]|] eqn:E1; [|discriminate]. rewrite (IH1 _ _ _ _ E1). destruct r2 as [x|]; [congruence|]. destruct (exec sg fuel c2 s2) as [[[s3 r3] l3]|] eqn:E2; [|discriminate].
    rewrite (IH2 _ _ _ _ E2). congruence.
  - destruct (eval sg e s) as [[v l1]|] eqn:Ee; [|discriminate]. rewrite (eval_value _ _ _ _ Ee). cbv zeta in E. destruct (negb (v =? 0)).
    + destruct (exec sg fuel c1 s) as [[[s2 r2] l2]|] eqn:E1; [|discriminate]. rewrite (IH1 _ _ _ _ E1). congruence.
    + destruct (exec sg fuel c2 s) as [[[s2 r2] l2]|] eqn:E1; [|discriminate]. rewrite (IH2 _ _ _ _ E1). congruence.
  - revert s l E. generalize fuel at 2 3. intro n. induction n as [|n IH]; intros s l E; cbn [loop v_loop] in *; [discriminate|]. destruct (eval sg e s) as [[v l1]|] eqn:Ee; [|discriminate].
    rewrite (eval_value _ _ _ _ Ee). destruct (v =? 0); [congruence|]. destruct (exec sg fuel c1 s) as [[[s2 r2] l2]|] eqn:E1; [|discriminate]. rewrite (IH1 _ _ _ _ E1). destruct r2 as [x|]; [congruence|].
    destruct (loop (eval sg e) (exec sg fuel c1) n s2) as [[[s3 r3] l3]|] eqn:El; [|discriminate]. apply (IH s2 l3). congruence.
  - unfold lookup_. destruct (get (st_arrays s) b) as [cells|]; [|discriminate]. destruct (strlen_of cells) as [n|]; [|discriminate]. congruence.
  - destruct (eval sg e s) as [[v l1]|] eqn:Ee; [|discriminate]. rewrite (eval_value _ _ _ _ Ee). congruence.
Qed.
End Value.
