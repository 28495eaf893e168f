(** Putting the parts of peers together (C22). *)
From Coq Require Import ZArith List Bool Lia.
From Verif Require Import Base Types Encoding EncodingSpec HexProofs NlSpec NlGetSpec Nl NlSet NlGet NlProofs NlSetProofs4 NlGetProofs NlRun NlGetProofs2 NlGetProofs3.
Import ListNotations.
Open Scope Z_scope.

Definition nonempty_b {A} (l : list A) : bool := match l with [] => false | _ => true end.

Lemma coalesce_unfold : forall p last q l,
  coalesce p last (q :: l) =
      if negb (beq (p_pub p) (p_pub q)) then
        match coalesce q (nonempty_b (p_aips q)) l with Some r => Some (p :: r) | None => None end
      else
        match p_aips p with
        | [] => coalesce (set_aips (p_aips q) p) (nonempty_b (p_aips q)) l
        | _ => if last then coalesce (set_aips (p_aips p ++ p_aips q) p) (nonempty_b (p_aips q)) l
               else None
        end.
Proof. reflexivity. Qed.

Lemma set_aips_same : forall p, set_aips (p_aips p) p = p.
Proof. intros []. reflexivity. Qed.
Lemma set_aips_aips : forall a p, p_aips (set_aips a p) = a.
Proof. intros a []. reflexivity. Qed.
Lemma set_aips_pub : forall a p, p_pub (set_aips a p) = p_pub p.
Proof. intros a []. reflexivity. Qed.
Lemma set_aips_twice : forall a b p, set_aips a (set_aips b p) = set_aips a p.
Proof. intros a b []. reflexivity. Qed.

Lemma coalesce_rest : forall rest T p last, Forall (fun c => sc_pub c = p_pub p /\ sc_aips c <> []) rest ->
  (p_aips p <> [] -> last = true) ->
  exists last', coalesce p last (map got rest ++ T) = coalesce (set_aips (p_aips p ++ flat_map sc_aips rest) p) last' T
    /\ (p_aips p ++ flat_map sc_aips rest <> [] -> last' = true).
Proof.
  induction rest as [|c rest IH]; intros T p last H Hl.
  { exists last. cbn [map flat_map app]. rewrite app_nil_r, set_aips_same. split; [reflexivity|exact Hl]. }
  inversion H as [|x y [Hp Ha] Hr]; subst. cbn [map app flat_map]. rewrite coalesce_unfold.
  replace (p_pub (got c)) with (p_pub p) by (symmetry; exact Hp). rewrite beq_refl. cbn [negb].
  change (p_aips (got c)) with (sc_aips c).
  assert (En : nonempty_b (sc_aips c) = true) by (destruct (sc_aips c); [congruence|reflexivity]). rewrite En.
  destruct (IH T (set_aips (p_aips p ++ sc_aips c) p) true) as (last' & E & Hl').
  { rewrite set_aips_pub. exact Hr. }
  { auto. }
  rewrite set_aips_aips, set_aips_twice in *. rewrite <- app_assoc in *. exists last'. split; [|exact Hl'].
  destruct (p_aips p) as [|a l] eqn:Ea; [exact E|]. rewrite (Hl ltac:(discriminate)). exact E.
Qed.

Lemma coalesce_end : forall p last T, (T = [] \/ exists q T', T = q :: T' /\ p_pub p <> p_pub q) ->
  coalesce p last T = match coalesce_peers T with Some r => Some (p :: r) | None => None end.
Proof.
  intros p last T [-> | (q & T' & -> & Hn)]; [reflexivity|]. rewrite coalesce_unfold. apply beq_neq in Hn. rewrite Hn. cbn [negb coalesce_peers].
  reflexivity.
Qed.

Lemma stated1 : forall A (o : option A) v dflt, stated [o] v dflt -> some_or o dflt = v.
Proof.
  intros A o v dflt [H1 H2]. inversion H1 as [|x y [->| ->] _]; subst; [|reflexivity].
  destruct H2 as [[E|[]]|[E _]]; [discriminate|]. cbn. congruence.
Qed.

Definition peer_flags (p : peer) : Prop :=
  p_remove p = false /\ p_replace_aips p = false /\ p_has_pub p = true /\ p_has_ka p = false /\ (p_has_psk p = true <-> p_psk p <> zero_key).

Lemma part_head : forall p s rest, parts_of p (s :: rest) -> peer_flags p -> wf_key (p_psk p) ->
  set_aips (sc_aips s ++ flat_map sc_aips rest) (got s) = p /\ p_pub (got s) = p_pub p
  /\ Forall (fun c => sc_pub c = p_pub p /\ sc_aips c <> []) rest.
Proof.
  intros p s rest (s' & rest' & E & Hpub & Hpsk & Hep & Hhs & Hrx & Htx & Hka & Hr & Ha) (F1 & F2 & F3 & F4 & F5) Hk. injection E as <- <-.
  split; [|split; [exact Hpub|exact Hr]]. rewrite <- Ha. unfold set_aips, got. peer_proj.
  pose proof (stated1 _ _ _ _ Hpsk) as Epsk. rewrite (stated1 _ _ _ _ Hrx), (stated1 _ _ _ _ Htx), (stated1 _ _ _ _ Hka), (stated1 _ _ _ _ Hhs), Epsk.
  assert (Eep : some_or (sc_ep s) EpNone = p_endpoint p) by (destruct (p_endpoint p); rewrite Hep; reflexivity).
  rewrite Eep, Hpub. cbn [fst snd].
  assert (Eh : match sc_psk s with Some k => negb (key_is_zero k) | None => false end = p_has_psk p).
  { assert (Kz : forall k, k = p_psk p -> negb (key_is_zero k) = p_has_psk p).
    { intros k ->. pose proof (key_is_zero_correct (p_psk p) Hk) as Z0. fold zero_key in Z0.
      destruct (key_is_zero (p_psk p)) eqn:Ez, (p_has_psk p) eqn:Eh; cbn [negb]; try reflexivity; exfalso.
      - apply (proj1 F5 eq_refl). apply Z0. reflexivity.
      - assert (p_psk p <> zero_key) by (intro E; apply Z0 in E; congruence). apply F5 in H. congruence. }
    destruct (sc_psk s) as [k|]; [apply Kz; exact Epsk|]. cbn [some_or] in Epsk.
    destruct (p_has_psk p) eqn:Eh; [|reflexivity]. exfalso. apply (proj1 F5 eq_refl). congruence. }
  rewrite Eh. destruct p; cbn in *; subst; reflexivity.
Qed.

Lemma coalesce_parts : forall peers parts, Forall2 parts_of peers parts -> Forall peer_flags peers -> Forall (fun p => wf_key (p_psk p)) peers ->
  NoDup (map p_pub peers) -> coalesce_peers (map got (concat parts)) = Some peers.
Proof.
  induction 1 as [|p l peers parts Hp Hps IH]; intros Hf Hk Hn; [reflexivity|].
  inversion Hf; subst. inversion Hk; subst. inversion Hn as [|x y Hx Hy]; subst.
  pose proof Hp as (s & rest & -> & _). destruct (part_head p s rest Hp) as (E1 & E2 & Hr); try assumption.
  cbn [concat app map coalesce_peers]. fold (nonempty_b (p_aips (got s))). rewrite map_app.
  destruct (coalesce_rest rest (map got (concat parts)) (got s) (nonempty_b (p_aips (got s)))) as (last' & E & _).
  { rewrite E2. exact Hr. }
  { destruct (p_aips (got s)); [congruence|reflexivity]. }
  change (match p_aips (got s) with [] => false | _ :: _ => true end) with (nonempty_b (p_aips (got s))).
  rewrite E. change (p_aips (got s)) with (sc_aips s). rewrite E1.
  rewrite coalesce_end.
  - rewrite IH by assumption. reflexivity.
  - inversion Hps as [|q l' peers' parts' Hq Hqs]; subst; [left; reflexivity|]. right.
    destruct Hq as (s' & rest' & -> & Hpub & _). exists (got s'), (map got (rest' ++ concat parts')). split; [reflexivity|].
    change (p_pub (got s')) with (sc_pub s'). rewrite Hpub. intro Ec. apply Hx. left. symmetry. exact Ec.
Qed.

(** Fields collected over the messages. *)
Definition collect {A} (os : list (option A)) (x : A) : A := fold_left (fun a o => some_or o a) os x.
Definition collect_b {A} (os : list (option A)) (x : bool) : bool := fold_left (fun a o => match o with Some _ => true | None => a end) os x.

Lemma add_dumps_fields : forall qs d, add_dumps qs d =
  mk_device (collect (map du_name qs) (d_name d)) (collect (map du_ifindex qs) (d_ifindex d)) (d_replace_peers d)
    (collect_b (map du_priv qs) (d_has_priv d)) (collect_b (map du_pub qs) (d_has_pub d)) (d_has_port d) (d_has_fwmark d)
    (collect (map du_pub qs) (d_pub d)) (collect (map du_priv qs) (d_priv d)) (collect (map du_fwmark qs) (d_fwmark d)) (collect (map du_port qs) (d_port d))
    (d_peers d ++ map got (flat_map du_sections qs)).
Proof.
  induction qs as [|q qs IH]; intro d.
  - cbn. rewrite app_nil_r. destruct d; reflexivity.
  - cbn [add_dumps]. rewrite IH. unfold add_dump, collect, collect_b. dev_proj. cbn [map fold_left flat_map].
    rewrite map_app, app_assoc. reflexivity.
Qed.

Lemma collect_fixed : forall A (v : A) os, Forall (fun o => o = None \/ o = Some v) os -> collect os v = v.
Proof.
  unfold collect. intros A v os H. induction H as [|o os Ho Hos IH]; [reflexivity|]. cbn [fold_left]. destruct Ho as [-> | ->]; exact IH.
Qed.
Lemma collect_stated : forall A os (v dflt : A), stated os v dflt -> collect os dflt = v.
Proof.
  intros A os v dflt [H1 [H2|[-> H2]]].
  - generalize dflt. clear dflt. induction H1 as [|o os Ho Hos IH]; [contradiction|]. intro dflt. cbn [collect fold_left]. fold (collect os).
    destruct H2 as [E|Hin].
    + subst o. cbn [some_or]. apply (collect_fixed A v os Hos).
    + apply (IH Hin).
  - apply collect_fixed, H1.
Qed.
Lemma collect_b_in : forall A os, collect_b os false = true <-> exists v : A, In (Some v) os.
Proof.
  intros A os. unfold collect_b.
  assert (G : forall b, fold_left (fun (a : bool) (o : option A) => match o with Some _ => true | None => a end) os b = true <-> b = true \/ exists v : A, In (Some v) os).
  { induction os as [|o os IH]; intro b; cbn [fold_left].
    - split; [auto|]. intros [H|(v & [])]. exact H.
    - rewrite IH. destruct o as [x|].
      + split; [intros _; right; exists x; left; reflexivity|auto].
      + split; (intros [H|(v & H)]; [left; exact H|right]); [exists v; right; exact H|]. destruct H as [H|H]; [discriminate|exists v; exact H]. }
  rewrite G. split; [intros [H|H]; [discriminate|exact H]|auto].
Qed.

Lemma dump_device : forall d qs, dump_of d qs -> as_read d -> Forall (fun p => wf_key (p_psk p)) (d_peers d) ->
  coalesce_peers (d_peers (add_dumps qs device0)) = Some (d_peers d) /\ set_peers (d_peers d) (add_dumps qs device0) = d.
Proof.
  intros d qs (S1 & S2 & S3 & S4 & S5 & S6 & P1 & P2 & Hn & parts & Ep & Hp) (R1 & R2 & R3 & R4) Hk.
  rewrite add_dumps_fields. unfold set_peers, device0. dev_proj. cbn [app].
  rewrite (collect_stated _ _ _ _ S1), (collect_stated _ _ _ _ S2), (collect_stated _ _ _ _ S3), (collect_stated _ _ _ _ S4), (collect_stated _ _ _ _ S5), (collect_stated _ _ _ _ S6).
  rewrite Ep. split.
  - apply coalesce_parts; assumption.
  - assert (Q : forall A (os : list (option A)) v dflt b, stated os v dflt -> (b = true <-> In (Some v) os) -> collect_b os false = b).
    { intros A os v dflt b [F _] Hb. destruct (collect_b os false) eqn:E.
      - apply collect_b_in in E as (x & Hx). symmetry. apply Hb. rewrite Forall_forall in F. destruct (F _ Hx) as [Ef|Ef]; [discriminate|]. rewrite <- Ef. exact Hx.
      - destruct b; [|reflexivity]. exfalso. assert (collect_b os false = true) by (apply collect_b_in; exists v; apply Hb; reflexivity). congruence. }
    rewrite (Q _ _ _ _ _ S3 P1), (Q _ _ _ _ _ S4 P2). destruct d; cbn in *; subst; reflexivity.
Qed.
