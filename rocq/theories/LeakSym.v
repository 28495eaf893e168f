(** Running a program of Leak.v on formulas over its inputs. *)
From Coq Require Import String ZArith List Bool Lia.
From Verif Require Import Base Leak LeakValue.
Import ListNotations.
Open Scope Z_scope.

Inductive term := TC (z : Z) | TIn (n : nat) | TBin (t : ctype) (op : binop) (a b : term) | TFits (t : ctype) (a : term) | TStored (t : ctype) (a : term) | TLoaded (t : ctype) (a : term).
Section Sym.
Variable sg : bool.
Variable fuel : nat.
Variable rho : nat -> Z.
Fixpoint den (a : term) : Z :=
  match a with
  | TC z => z
  | TIn n => rho n
  | TBin t op a b => v_fits t (v_exact op (v_fits t (den a)) (v_fits t (den b)))
  | TFits t a => v_fits t (den a)
  | TStored t a => stored t (den a)
  | TLoaded t a => loaded sg t (den a)
  end.
Definition s_bin t op a b := match a, b with TC x, TC y => TC (v_fits t (v_exact op (v_fits t x) (v_fits t y))) | _, _ => TBin t op a b end.
Definition s_fits t a := match a with TC x => TC (v_fits t x) | _ => TFits t a end.
Record sstate := mk_sstate { s_vars : env term; s_arrays : env (list term) }.
Fixpoint s_eval (e : expr) (s : sstate) : option term :=
  match e with
  | Lit z => Some (TC z)
  | Var x => get (s_vars s) x
  | At t a i => match s_eval i s, get (s_arrays s) a with Some (TC n), Some c => if (Z.to_nat n <? length c)%nat then Some (TLoaded t (nth (Z.to_nat n) c (TC 0))) else None | _, _ => None end
  | Bin t op e1 e2 => match s_eval e1 s, s_eval e2 s with Some a, Some b => Some (s_bin t op a b) | _, _ => None end
  | Conv t e1 => match s_eval e1 s with Some a => Some (s_fits t a) | None => None end
  end.
Definition s_outcome : Type := option (sstate * option term).
Fixpoint s_loop (cond : sstate -> option term) (body : sstate -> s_outcome) (n : nat) (s : sstate) : s_outcome :=
  match n with
  | O => None
  | S n' =>
      match cond s with
      | Some (TC v) =>
          if v =? 0 then Some (s, None)
          else match body s with None => None | Some (s1, Some r) => Some (s1, Some r) | Some (s1, None) => s_loop cond body n' s1 end
      | _ => None
      end
  end.
Fixpoint s_exec (c : stmt) (s : sstate) {struct c} : s_outcome :=
  match c with
  | Skip => Some (s, None)
  | Set_ t x e => match s_eval e s with Some v => Some (mk_sstate (put (s_vars s) x (s_fits t v)) (s_arrays s), None) | None => None end
  | Put t a i e =>
      match s_eval i s, s_eval e s, get (s_arrays s) a with
      | Some (TC n), Some v, Some c => Some (mk_sstate (s_vars s) (put (s_arrays s) a (replace_at c (Z.to_nat n) (TStored t v))), None)
      | _, _, _ => None
      end
  | Seq c1 c2 => match s_exec c1 s with None => None | Some (s1, Some r) => Some (s1, Some r) | Some (s1, None) => s_exec c2 s1 end
  | If e c1 c2 => match s_eval e s with Some (TC v) => s_exec (if negb (v =? 0) then c1 else c2) s | _ => None end
  | While e c1 => s_loop (s_eval e) (s_exec c1) fuel s
  | Strlen x a => None
  | Return e => match s_eval e s with Some v => Some (s, Some v) | None => None end
  end.

Definition den_vars (m : env term) : env Z := map (fun p => (fst p, den (snd p))) m.
Definition den_arrays (m : env (list term)) : env (list Z) := map (fun p => (fst p, map den (snd p))) m.
Definition den_state (s : sstate) : state := mk_state (den_vars (s_vars s)) (den_arrays (s_arrays s)).
Lemma den_get : forall A B (f : A -> B) m x, get (map (fun p => (fst p, f (snd p))) m) x = match get m x with Some v => Some (f v) | None => None end.
Proof. intros A B f m x. induction m as [|[y v] m IH]; cbn [map get fst snd]; [reflexivity|]. destruct (String.eqb x y); [reflexivity|exact IH]. Qed.
Lemma den_put : forall A B (f : A -> B) m x v, put (map (fun p => (fst p, f (snd p))) m) x (f v) = map (fun p => (fst p, f (snd p))) (put m x v).
Proof. intros A B f m x v. induction m as [|[y w] m IH]; cbn [map put fst snd]; [reflexivity|]. destruct (String.eqb x y); cbn [map fst snd]; [reflexivity|]. rewrite IH. reflexivity. Qed.
Lemma map_replace : forall A B (f : A -> B) l n v, replace_at (map f l) n (f v) = map f (replace_at l n v).
Proof. intros A B f l. induction l as [|x l IH]; intros [|n] v; cbn [map replace_at]; try reflexivity. rewrite IH. reflexivity. Qed.
Lemma s_bin_den : forall t op a b, den (s_bin t op a b) = v_fits t (v_exact op (v_fits t (den a)) (v_fits t (den b))).
Proof. intros t op a b. destruct a, b; reflexivity. Qed.
Lemma s_fits_den : forall t a, den (s_fits t a) = v_fits t (den a).
Proof. intros t a. destruct a; reflexivity. Qed.
Lemma s_eval_value : forall e s a, s_eval e s = Some a -> value sg e (den_state s) = den a.
Proof.
  intro e. induction e as [z|x|t b e IH|t op e1 IH1 e2 IH2|t e IH]; intros s a E; cbn [s_eval value] in *.
  - injection E as <-. reflexivity.
  - unfold lookup_. unfold den_state, den_vars. cbn [st_vars]. rewrite den_get, E. reflexivity.
  - destruct (s_eval e s) as [i|] eqn:Ee; [|discriminate]. rewrite (IH _ _ Ee). destruct i as [n| | | | |]; try discriminate. cbn [den]. unfold lookup_, den_state, den_arrays. cbn [st_arrays]. rewrite den_get.
    destruct (get (s_arrays s) b) as [c|]; [|discriminate]. destruct (_ <? _)%nat eqn:L; [|discriminate]. apply Nat.ltb_lt in L. injection E as <-. cbn [den]. f_equal.
    rewrite (nth_indep _ 0 (den (TC 0))) by (rewrite map_length; exact L). apply map_nth.
  - destruct (s_eval e1 s) as [x|] eqn:E1; [|discriminate]. destruct (s_eval e2 s) as [y|] eqn:E2; [|discriminate]. injection E as <-. rewrite s_bin_den, (IH1 _ _ E1), (IH2 _ _ E2). reflexivity.
  - destruct (s_eval e s) as [x|] eqn:E1; [|discriminate]. injection E as <-. rewrite s_fits_den, (IH _ _ E1). reflexivity.
Qed.
Definition den_out (r : option term) : option Z := match r with Some a => Some (den a) | None => None end.
Lemma s_exec_value : forall c s s1 r, s_exec c s = Some (s1, r) -> v_exec sg fuel c (den_state s) = (den_state s1, den_out r).
Proof.
  intro c. induction c as [|t x e|t b i e|c1 IH1 c2 IH2|e c1 IH1 c2 IH2|e c1 IH1|x b|e]; intros s s1 r E; cbn [s_exec v_exec] in *.
  - injection E as <- <-. reflexivity.
  - destruct (s_eval e s) as [v|] eqn:Ee; [|discriminate]. rewrite (s_eval_value _ _ _ Ee). injection E as <- <-. cbn [den_out]. f_equal. unfold den_state. cbn [s_vars s_arrays st_vars st_arrays]. f_equal. rewrite <- s_fits_den. apply den_put.
  - destruct (s_eval i s) as [n|] eqn:Ei; [|discriminate]. rewrite (s_eval_value _ _ _ Ei). destruct n as [n| | | | |]; try discriminate. destruct (s_eval e s) as [v|] eqn:Ee; [|discriminate]. rewrite (s_eval_value _ _ _ Ee).
    destruct (get (s_arrays s) b) as [cs|] eqn:Eg; [|discriminate]. injection E as <- <-. cbn [den_out]. f_equal. unfold lookup_, den_state. cbn [s_vars s_arrays st_vars st_arrays]. f_equal. unfold den_arrays at 2. rewrite den_get, Eg.
    change (stored t (den v)) with (den (TStored t v)). cbn [den]. change (stored t (den v)) with (den (TStored t v)). rewrite map_replace. apply den_put.
  - destruct (s_exec c1 s) as [[s2 r2]|] eqn:E1; [|discriminate]. rewrite (IH1 _ _ _ E1). destruct r2 as [x|]; cbn [den_out]; [|exact (IH2 _ _ _ E)]. injection E as <- <-. reflexivity.
  - destruct (s_eval e s) as [v|] eqn:Ee; [|discriminate]. rewrite (s_eval_value _ _ _ Ee). destruct v as [v| | | | |]; try discriminate. cbn [den]. destruct (negb (v =? 0)); [exact (IH1 _ _ _ E)|exact (IH2 _ _ _ E)].
  - revert s E. generalize fuel at 1 3. intro n. induction n as [|n IH]; intros s E; cbn [s_loop v_loop] in *; [discriminate|]. destruct (s_eval e s) as [v|] eqn:Ee; [|discriminate].
    rewrite (s_eval_value _ _ _ Ee). destruct v as [v| | | | |]; try discriminate. cbn [den]. destruct (v =? 0); [injection E as <- <-; reflexivity|].
    destruct (s_exec c1 s) as [[s2 r2]|] eqn:E1; [|discriminate]. rewrite (IH1 _ _ _ E1). destruct r2 as [x|]; cbn [den_out]; [injection E as <- <-; reflexivity|]. exact (IH s2 E).
  - discriminate.
  - destruct (s_eval e s) as [v|] eqn:Ee; [|discriminate]. rewrite (s_eval_value _ _ _ Ee). injection E as <- <-. reflexivity.
Qed.
End Sym.
