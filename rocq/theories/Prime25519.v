(** 2^255 - 19 is prime (a chain of Pocklington certificates), and Fermat's little theorem. *)
From Coq Require Import ZArith List Bool Lia Znumtheory Zpow_facts Permutation.
From Verif Require Import CurveSpec.
Import ListNotations.
Open Scope Z_scope.

(** ** Fermat *)
Definition zprod (l : list Z) : Z := fold_right Z.mul 1 l.
Lemma zprod_perm : forall l l', Permutation l l' -> zprod l = zprod l'.
Proof. intros l l' H. induction H; cbn [zprod fold_right] in *; unfold zprod in *; cbn [fold_right]; try lia; try congruence. Qed.
Lemma zprod_map : forall r a l, 0 < r -> zprod (map (fun i => (a * i) mod r) l) mod r = (a ^ Z.of_nat (length l) * zprod l) mod r.
Proof.
  intros r a l Hr. induction l as [|x l IH]; [reflexivity|]. cbn [map length]. rewrite Nat2Z.inj_succ, Z.pow_succ_r by lia.
  unfold zprod in *. cbn [fold_right]. rewrite Z.mul_mod, Z.mod_mod, IH by lia. rewrite <- Z.mul_mod by lia. f_equal. ring.
Qed.
Lemma zprod_coprime : forall r l, prime r -> Forall (fun x => ~ (r | x)) l -> ~ (r | zprod l).
Proof.
  intros r l Hr H. induction H as [|x l Hx Hl IH]; unfold zprod in *; cbn [fold_right].
  - intros D. apply Z.divide_1_r in D. destruct Hr as [Hr _]. lia.
  - intro D. apply prime_mult in D; tauto.
Qed.
Lemma not_div_small : forall r x, 0 < x < r -> ~ (r | x).
Proof. intros r x Hx D. apply Z.divide_pos_le in D; lia. Qed.

Theorem fermat_little : forall r a, prime r -> ~ (r | a) -> a ^ (r - 1) mod r = 1.
Proof.
  intros r a Hr Ha. assert (R1 : 1 < r) by (destruct Hr; assumption).
  set (l := map Z.of_nat (seq 1 (Z.to_nat (r - 1)))).
  assert (In_l : forall x, In x l <-> 0 < x < r).
  { intro x. unfold l. rewrite in_map_iff. split.
    - intros (n & <- & Hn). apply in_seq in Hn. lia.
    - intro Hx. exists (Z.to_nat x). split; [lia|]. apply in_seq. lia. }
  assert (Nl : NoDup l).
  { unfold l. apply FinFun.Injective_map_NoDup; [intros x y; lia|apply seq_NoDup]. }
  assert (Ll : Z.of_nat (length l) = r - 1) by (unfold l; rewrite map_length, seq_length; lia).
  set (l' := map (fun i => (a * i) mod r) l).
  assert (Mne : forall x, 0 < x < r -> (a * x) mod r <> 0).
  { intros x Hx E. apply Z.mod_divide in E; [|lia]. apply prime_mult in E; [|assumption]. destruct E as [E|E]; [tauto|]. apply (not_div_small r x Hx E). }
  assert (P : Permutation l' l).
  { apply NoDup_Permutation_bis.
    - unfold l'. assert (G : forall m, NoDup m -> (forall x, In x m -> 0 < x < r) -> NoDup (map (fun i => (a * i) mod r) m)).
      { induction m as [|x m IH]; intros Hm Hin; [constructor|]. inversion Hm; subst. cbn [map]. constructor; [|apply IH; [assumption|intros; apply Hin; right; assumption]].
        rewrite in_map_iff. intros (y & E & Hy).
        assert (Hx : 0 < x < r) by (apply Hin; left; reflexivity). assert (Hy' : 0 < y < r) by (apply Hin; right; assumption).
        assert (D : (r | a * (y - x))).
        { apply Z.mod_divide; [lia|]. rewrite Z.mul_sub_distr_l, Zminus_mod, E, Z.sub_diag. apply Z.mod_0_l. lia. }
        apply prime_mult in D; [|assumption]. destruct D as [D|D]; [tauto|].
        assert (y = x); [|subst; tauto]. destruct (Z.lt_trichotomy y x) as [L|[L|L]]; [|assumption|].
        - apply Z.divide_opp_r in D. apply (not_div_small r (- (y - x))) in D; [tauto|lia].
        - apply (not_div_small r (y - x)) in D; [tauto|lia]. }
      apply G; [assumption|]. intros x Hx. apply In_l. assumption.
    - unfold l'. rewrite map_length. apply Nat.le_refl.
    - intros y Hy. unfold l' in Hy. apply in_map_iff in Hy as (x & <- & Hx). apply In_l in Hx. apply In_l.
      pose proof (Z.mod_pos_bound (a * x) r ltac:(lia)). specialize (Mne x Hx). lia. }
  pose proof (zprod_map r a l ltac:(lia)) as E. fold l' in E. rewrite (zprod_perm _ _ P), Ll in E.
  assert (Nd : ~ (r | zprod l)) by (apply zprod_coprime; [assumption|]; apply Forall_forall; intros x Hx; apply not_div_small, In_l, Hx).
  assert (D : (r | zprod l * (a ^ (r - 1) - 1))).
  { apply Z.mod_divide; [lia|]. replace (zprod l * (a ^ (r - 1) - 1)) with (a ^ (r - 1) * zprod l - zprod l) by ring. rewrite Zminus_mod, <- E, Z.sub_diag. apply Z.mod_0_l. lia. }
  apply prime_mult in D; [|assumption]. destruct D as [D|[k D]]; [tauto|].
  replace (a ^ (r - 1)) with (1 + k * r) by lia. rewrite Z.mod_add by lia. apply Z.mod_small. lia.
Qed.

(** ** Pocklington *)
Lemma prime_divisor : forall n, 1 < n -> exists r, prime r /\ (r | n).
Proof.
  intro n. pattern n. apply (well_founded_induction (Z.lt_wf 1)). clear n. intros n IH Hn.
  destruct (prime_dec n) as [Hp|Hp]; [exists n; split; [assumption|apply Z.divide_refl]|].
  destruct (not_prime_divide n Hn Hp) as (d & Hd & D). destruct (IH d ltac:(lia) ltac:(lia)) as (r & Hr & Dr).
  exists r. split; [assumption|]. apply Z.divide_trans with d; assumption.
Qed.
Lemma small_prime_divisor : forall n, 1 < n -> ~ prime n -> exists r, prime r /\ (r | n) /\ r * r <= n.
Proof.
  intros n Hn Hp. destruct (not_prime_divide n Hn Hp) as (d & Hd & [e E]).
  assert (He : 1 < e) by nia.
  destruct (Z_le_gt_dec d e) as [L|L].
  - destruct (prime_divisor d ltac:(lia)) as (r & Hr & Dr). exists r. split; [assumption|]. split; [apply Z.divide_trans with d; [assumption|exists e; assumption]|].
    assert (r <= d) by (apply Z.divide_pos_le; [lia|assumption]). destruct Hr as [Hr _]. nia.
  - destruct (prime_divisor e ltac:(lia)) as (r & Hr & Dr). exists r. split; [assumption|]. split; [apply Z.divide_trans with e; [assumption|exists d; lia]|].
    assert (r <= e) by (apply Z.divide_pos_le; [lia|assumption]). destruct Hr as [Hr _]. nia.
Qed.

Lemma pow_one : forall r b n, 1 < r -> 0 <= n -> b mod r = 1 -> b ^ n mod r = 1.
Proof.
  intros r b n Hr Hn Hb. revert n Hn. apply natlike_ind; [rewrite Z.pow_0_r; apply Z.mod_small; lia|].
  intros n Hn IH. rewrite Z.pow_succ_r, Z.mul_mod, Hb, IH by lia. apply Z.mod_small. lia.
Qed.
(** If a^(q m) is 1 modulo the prime r but a^m is not, the prime q divides r - 1. *)
Lemma order_div : forall r q m a, prime r -> prime q -> 0 <= m -> a ^ (q * m) mod r = 1 -> a ^ m mod r <> 1 -> (q | r - 1).
Proof.
  intros r q m a Hr Hq Hm H1 Hn. assert (R1 : 1 < r) by (destruct Hr; assumption). assert (Q1 : 1 < q) by (destruct Hq; assumption).
  destruct (Zdivide_dec q (r - 1)) as [D|D]; [assumption|]. exfalso. apply Hn.
  assert (Hm1 : 1 <= q * m).
  { destruct (Z.eq_dec m 0) as [->|]; [|nia]. exfalso. apply Hn. rewrite Z.pow_0_r. apply Z.mod_small. lia. }
  assert (Ha : ~ (r | a)).
  { intros [k ->]. revert H1. replace (q * m) with (1 + (q * m - 1)) by lia. rewrite Z.pow_add_r, Z.pow_1_r by lia.
    replace (k * r * (k * r) ^ (q * m - 1)) with (k * (k * r) ^ (q * m - 1) * r) by ring. rewrite Z.mod_mul by lia. lia. }
  pose proof (fermat_little r a Hr Ha) as F.
  apply prime_rel_prime in D; [|assumption]. apply rel_prime_bezout in D. destruct D as [u v B].
  (* make u positive *)
  set (u' := u mod (r - 1)). 
  destruct (Z.eq_dec r 2) as [->|R2].
  { assert (E : a mod 2 = 1). { pose proof (Z.mod_pos_bound a 2 ltac:(lia)). destruct (Z.eq_dec (a mod 2) 0) as [E|]; [|lia]. apply Z.mod_divide in E; [tauto|lia]. }
    apply pow_one; assumption || lia. }
  assert (Eu : u = (r - 1) * (u / (r - 1)) + u') by (apply Z.div_mod; lia).
  assert (Hu : 0 <= u' < r - 1) by (apply Z.mod_pos_bound; lia).
  assert (E : u' * q = 1 + (- v - (u / (r - 1)) * q) * (r - 1)) by nia.
  set (w := - v - u / (r - 1) * q) in *. clearbody w u'.
  assert (Hw : 0 <= w) by nia.
  assert (X : a ^ (m * (u' * q)) mod r = 1).
  { replace (m * (u' * q)) with (q * m * u') by ring. rewrite Z.pow_mul_r by lia. apply pow_one; lia. }
  rewrite E in X. replace (m * (1 + w * (r - 1))) with (m + (r - 1) * (w * m)) in X by ring.
  assert (Hwm : 0 <= w * m) by (apply Z.mul_nonneg_nonneg; assumption). assert (Hrwm : 0 <= (r - 1) * (w * m)) by (apply Z.mul_nonneg_nonneg; [lia|assumption]).
  rewrite Z.pow_add_r in X by assumption. rewrite Z.mul_mod, (Z.pow_mul_r a (r - 1)), (pow_one r (a ^ (r - 1))) in X by (assumption || lia).
  rewrite Z.mul_1_r, Z.mod_mod in X by lia. exact X.
Qed.

(** What is to be computed for a prime factor q of n - 1, with base 2. *)
Definition witness (n q : Z) : bool :=
  (Zpow_mod 2 (n - 1) n =? 1) && (Z.gcd (Zpow_mod 2 ((n - 1) / q) n - 1) n =? 1) && (q * ((n - 1) / q) =? n - 1).

Lemma witness_div : forall n q r, 1 < n -> prime q -> witness n q = true -> prime r -> (r | n) -> (q | r - 1).
Proof.
  intros n q r Hn Hq Hw Hr [k Ek]. assert (R1 : 1 < r) by (destruct Hr; assumption). assert (Q1 : 1 < q) by (destruct Hq; assumption).
  unfold witness in Hw. apply andb_true_iff in Hw as [Hw W3]. apply andb_true_iff in Hw as [W1 W2]. apply Z.eqb_eq in W1, W2, W3.
  assert (Hm : 0 <= (n - 1) / q) by (apply Z.div_pos; lia).
  rewrite Zpow_mod_correct in W1, W2 by lia.
  assert (K : forall x, x mod n mod r = x mod r). { intro x. symmetry. apply Zmod_div_mod; [lia|lia|exists k; assumption]. }
  apply (order_div r q ((n - 1) / q) 2 Hr Hq Hm).
  - rewrite W3, <- K, W1. apply Z.mod_small. lia.
  - intro E. rewrite <- K in E. assert (D : (r | Z.gcd (2 ^ ((n - 1) / q) mod n - 1) n)).
    { apply Z.gcd_greatest; [|exists k; assumption]. apply Z.mod_divide; [lia|]. rewrite Zminus_mod, E, (Z.mod_small 1) by lia. reflexivity. }
    rewrite W2 in D. apply Z.divide_1_r in D. lia.
Qed.

Lemma pocklington1 : forall n q, 1 < n -> prime q -> witness n q = true -> n < q * q -> prime n.
Proof.
  intros n q Hn Hq W L. destruct (prime_dec n) as [|Np]; [assumption|]. exfalso.
  destruct (small_prime_divisor n Hn Np) as (r & Hr & D & Hs). pose proof (witness_div n q r Hn Hq W Hr D) as Dq.
  assert (R1 : 1 < r) by (destruct Hr; assumption). apply Z.divide_pos_le in Dq; [|lia]. assert (Q1 : 1 < q) by (destruct Hq; assumption). nia.
Qed.
Lemma pocklington2 : forall n q1 q2, 1 < n -> prime q1 -> prime q2 -> q1 <> q2 -> witness n q1 = true -> witness n q2 = true -> n < (q1 * q2) * (q1 * q2) -> prime n.
Proof.
  intros n q1 q2 Hn H1 H2 Hne W1 W2 L. destruct (prime_dec n) as [|Np]; [assumption|]. exfalso.
  destruct (small_prime_divisor n Hn Np) as (r & Hr & D & Hs). pose proof (witness_div n q1 r Hn H1 W1 Hr D) as D1. pose proof (witness_div n q2 r Hn H2 W2 Hr D) as [k D2].
  assert (R1 : 1 < r) by (destruct Hr; assumption). assert (Q1 : 1 < q1) by (destruct H1; assumption). assert (Q2 : 1 < q2) by (destruct H2; assumption).
  assert (D12 : (q1 * q2 | r - 1)).
  { rewrite D2 in D1. rewrite Z.mul_comm in D1. apply Gauss in D1; [|apply prime_rel_prime; [assumption|]; intro D1'; apply Hne, prime_div_prime; assumption].
    destruct D1 as [j ->]. exists j. rewrite D2. ring. }
  apply Z.divide_pos_le in D12; [|lia]. assert (P12 : 0 < q1 * q2) by (apply Z.mul_pos_pos; lia). clear - L Hs D12 R1 P12.
  generalize dependent (q1 * q2). intros. nia.
Qed.

(** Small primes by trial division. *)
Definition trial (n : Z) : bool := forallb (fun d => negb (n mod (2 + Z.of_nat d) =? 0)) (seq 0 (Z.to_nat (n - 2))).
Lemma trial_prime : forall n, 1 < n -> trial n = true -> prime n.
Proof.
  intros n Hn H. destruct (prime_dec n) as [|Np]; [assumption|]. exfalso. destruct (not_prime_divide n Hn Np) as (d & Hd & D).
  unfold trial in H. rewrite forallb_forall in H. specialize (H (Z.to_nat (d - 2))). rewrite in_seq in H. specialize (H ltac:(lia)).
  replace (2 + Z.of_nat (Z.to_nat (d - 2))) with d in H by lia. apply Z.mod_divide in D; [|lia]. rewrite D in H. discriminate.
Qed.
Ltac small := apply trial_prime; [reflexivity|vm_compute; reflexivity].
Ltac pock1 q := apply (pocklington1 _ q); [reflexivity| |vm_compute; reflexivity|reflexivity].
Ltac pock2 q1 q2 := apply (pocklington2 _ q1 q2); [reflexivity| | |discriminate|vm_compute; reflexivity|vm_compute; reflexivity|reflexivity].

Lemma prime_430751 : prime 430751. Proof. pock1 1723. small. Qed.
Lemma prime_569003 : prime 569003. Proof. pock2 419 97; small. Qed.
Lemma prime_8574133 : prime 8574133. Proof. pock2 991 103; small. Qed.
Lemma prime_2773320623 : prime 2773320623. Proof. pock1 569003. exact prime_569003. Qed.
Lemma prime_72106336199 : prime 72106336199. Proof. pock1 2773320623. exact prime_2773320623. Qed.
Lemma prime_1919519569386763 : prime 1919519569386763. Proof. pock2 8574133 127; [exact prime_8574133|small]. Qed.
Lemma prime_31757755568855353 : prime 31757755568855353. Proof. pock2 430751 4153; [exact prime_430751|small]. Qed.
Lemma prime_c : prime 75445702479781427272750846543864801.
Proof. pock2 1919519569386763 72106336199; [exact prime_1919519569386763|exact prime_72106336199]. Qed.
Lemma prime_b : prime 74058212732561358302231226437062788676166966415465897661863160754340907.
Proof. pock2 75445702479781427272750846543864801 31757755568855353; [exact prime_c|exact prime_31757755568855353]. Qed.
Theorem prime_p25519 : prime p25519.
Proof.
  change p25519 with 57896044618658097711785492504343953926634992332820282019728792003956564819949.
  pock1 74058212732561358302231226437062788676166966415465897661863160754340907. exact prime_b.
Qed.
