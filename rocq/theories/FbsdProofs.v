(** The lists given to and taken from the FreeBSD kernel. *)
From Coq Require Import String ZArith List Bool Lia.
From Verif Require Import Base Types Encoding NlSpec NlProofs NlSet Fields Ipc ObsdSpec FbsdSpec Obsd Fbsd.
Import ListNotations.
Open Scope Z_scope.

(** ** Lists being built *)
Definition bad (ok : nat -> bool) : Prop := exists i, ok i = false.
Definition good (ok : nat -> bool) (o : nvobj) (items : nvl) : Prop := (nv_err o = 0 /\ nv_items o = items) \/ (nv_err o = ENOMEM /\ bad ok).

Lemma create_good : forall ok n, match nv_create ok n with (Some o, _) => good ok o [] | (None, _) => bad ok end.
Proof. intros ok n. unfold nv_create. destruct (ok n) eqn:E; [left; split; reflexivity|exists n; exact E]. Qed.

Definition filled (v : nval) : Prop := match v with NBin [] => False | NArr [] => False | _ => True end.
Lemma add_good : forall ok n o items name v o' n', good ok o items -> ~ In name (names items) -> filled v -> nv_add ok n o name v = (o', n') -> good ok o' (items ++ [(name, v)]).
Proof.
  intros ok n o items name v o' n' H Hn Hv E. unfold nv_add in E. destruct H as [[E0 Ei]|[E0 B]].
  - rewrite E0, Ei in E. change (negb (0 =? 0)) with false in E. cbv iota in E.
    destruct (existsb (String.eqb name) (names items)) eqn:X.
    { apply existsb_exists in X. destruct X as (y & Hy & Ey). apply String.eqb_eq in Ey. subst. contradiction. }
    destruct v as [x|x|[|x b]|[|x l]]; try contradiction;
      (destruct (ok n) eqn:O; cbn [negb] in E; injection E as <- <-; [left; split; reflexivity|right; split; [reflexivity|exists n; exact O]]).
  - rewrite E0 in E. change (negb (ENOMEM =? 0)) with true in E. cbv iota in E. injection E as <- <-. right. split; assumption.
Qed.
Definition item (b : bool) (name : string) (v : nval) : nvl := if b then [(name, v)] else [].
Lemma add_if_good : forall b ok n o items name v o' n', good ok o items -> ~ In name (names items) -> (b = true -> filled v) -> nv_add_if b ok n o name v = (o', n') -> good ok o' (items ++ item b name v).
Proof.
  intros [|] ok n o items name v o' n' H Hn Hv E; cbn [nv_add_if item] in *; [exact (add_good _ _ _ _ _ _ _ _ H Hn (Hv eq_refl) E)|].
  injection E as <- <-. rewrite app_nil_r. exact H.
Qed.
Lemma array_good : forall ok n o items name os ls o' n', good ok o items -> ~ In name (names items) -> Forall2 (good ok) os ls -> ls <> [] -> nv_add_array ok n o name os = (o', n') -> good ok o' (items ++ [(name, NArr ls)]).
Proof.
  intros ok n o items name os ls o' n' H Hn Hs Hne E. unfold nv_add_array in E. destruct (Z.eqb_spec (nv_err o) 0) as [E0|E0]; cbn [negb] in E; cycle 1.
  { destruct H as [[X _]|[X B]]; [congruence|]. injection E as <- <-. right. split; assumption. }
  destruct (find (fun x => negb (nv_err x =? 0)) os) as [x|] eqn:F.
  - apply find_some in F. destruct F as [Hin Hx]. injection E as <- <-. right. cbn [nv_err].
    clear - Hs Hin Hx. induction Hs as [|y l os ls Hy Hs IH]; [destruct Hin|]. destruct Hin as [->|Hin]; [|apply IH, Hin]. destruct Hy as [[Y _]|Y]; [rewrite Y in Hx; discriminate|exact Y].
  - assert (M : map nv_items os = ls).
    { clear - Hs F. induction Hs as [|y l os ls Hy Hs IH]; [reflexivity|]. cbn [find] in F. destruct Hy as [[Y1 Y2]|[Y1 _]]; rewrite Y1 in F; cbn in F; [|discriminate]. cbn [map]. f_equal; [exact Y2|apply IH, F]. }
    rewrite M in E. 
    refine (add_good _ _ _ _ _ _ _ _ H Hn _ E). destruct ls; [congruence|exact I].
Qed.

(** ** The lists for a device *)
Definition aip_items (a : allowedip) : nvl :=
  [("cidr"%string, NNum (a_cidr a))] ++ item (a_family a =? AF_INET) "ipv4" (NBin (a_ip a)) ++ item (a_family a =? AF_INET6) "ipv6" (NBin (a_ip a)).
Definition sa_of (e : endpoint) : list Z := let sa := fbsd_sockaddr e in firstn (Z.to_nat (nth 0 sa 0)) sa.
Definition has_ep (e : endpoint) : bool := match e with EpNone => false | _ => true end.
Definition peer_items (p : peer) : nvl :=
  [("public-key"%string, NBin (p_pub p))] ++ item (p_has_psk p) "preshared-key" (NBin (p_psk p)) ++ item (p_has_ka p) "persistent-keepalive-interval" (NNum (p_ka p))
  ++ item (has_ep (p_endpoint p)) "endpoint" (NBin (sa_of (p_endpoint p))) ++ item (p_replace_aips p) "replace-allowedips" (NBool true) ++ item (p_remove p) "remove" (NBool true)
  ++ item (negb (length (p_aips p) =? 0)%nat) "allowed-ips" (NArr (map aip_items (p_aips p))).
Definition device_items (d : device) : nvl :=
  item (d_has_priv d) "private-key" (NBin (d_priv d)) ++ item (d_has_port d) "listen-port" (NNum (d_port d)) ++ item (d_has_fwmark d) "user-cookie" (NNum (d_fwmark d))
  ++ item (d_replace_peers d) "replace-peers" (NBool true) ++ item (negb (length (d_peers d) =? 0)%nat) "peers" (NArr (map peer_items (d_peers d))).

Lemma filled_bytes : forall b, b <> [] -> filled (NBin b).
Proof. intros [|x b] H; [congruence|exact I]. Qed.
Lemma filled_len : forall b n, length b = S n -> filled (NBin b).
Proof. intros [|x b] n H; [discriminate|exact I]. Qed.

Ltac names_of_items := unfold names, item; repeat match goal with |- context [if ?b then _ else _] => destruct b end; cbn; intuition discriminate.

Lemma aips_good : forall ok l n, Forall wf_aip l -> match put_aips ok n l with (Some os, _) => Forall2 (good ok) os (map aip_items l) | (None, _) => bad ok end.
Proof.
  intros ok l. induction l as [|a l IH]; intros n Hw; cbn [put_aips]; [apply Forall2_nil|]. inversion Hw as [|? ? Ha Hl]; subst.
  pose proof (create_good ok n) as C. destruct (nv_create ok n) as [[o|] n1]; [|exact C].
  destruct (nv_add ok n1 o "cidr" (NNum (a_cidr a))) as [o1 n2] eqn:E1. pose proof E1 as G1. eapply add_good in G1; [|exact C|exact (fun H => match H with end)|exact I]. cbn [app] in G1.
  assert (Hf : filled (NBin (a_ip a))) by (destruct Ha as [(_ & L & _)|(_ & L & _)]; exact (filled_len _ _ L)).
  destruct (if a_family a =? AF_INET then nv_add ok n2 o1 "ipv4" (NBin (a_ip a)) else if a_family a =? AF_INET6 then nv_add ok n2 o1 "ipv6" (NBin (a_ip a)) else (o1, n2)) as [o2 n3] eqn:E2.
  assert (G2 : good ok o2 (aip_items a)).
  { unfold aip_items. destruct Ha as [(F & _)|(F & _)]; rewrite F in *.
    - change (AF_INET =? AF_INET) with true in *. change (AF_INET =? AF_INET6) with false. cbv iota in E2. refine (add_good _ _ _ _ _ _ _ _ G1 _ Hf E2). cbn. intuition discriminate.
    - change (AF_INET6 =? AF_INET) with false in *. change (AF_INET6 =? AF_INET6) with true in *. cbv iota in E2. refine (add_good _ _ _ _ _ _ _ _ G1 _ Hf E2). cbn. intuition discriminate. }
  specialize (IH n3 Hl). destruct (put_aips ok n3 l) as [[os|] n4]; [|exact IH]. cbn [map]. apply Forall2_cons; assumption.
Qed.

Lemma sa_family : forall e, ((nth 1 (fbsd_sockaddr e) 0 =? AF_INET) || (nth 1 (fbsd_sockaddr e) 0 =? FBSD_INET6)) = has_ep e.
Proof. intros [|a p|a p f s]; reflexivity. Qed.
Lemma sa_filled : forall e, has_ep e = true -> filled (NBin (sa_of e)).
Proof. intros [|a p|a p f s] H; [discriminate| |]; exact I. Qed.

Lemma peer_good : forall ok p n, wf_peer p -> match put_peer ok n p with (Some o, _) => good ok o (peer_items p) | (None, _) => bad ok end.
Proof.
  intros ok p n ((Lp & _) & (Lk & _) & _ & _ & Ha & _). unfold put_peer.
  pose proof (create_good ok n) as C. destruct (nv_create ok n) as [[o|] n1]; [|exact C].
  destruct (if (length (p_aips p) =? 0)%nat then (true, n1) else (ok n1, S n1)) as [room n2] eqn:ER. destruct room; cbn [negb]; cycle 1.
  { destruct (length (p_aips p) =? 0)%nat; [discriminate|]. exists n1. congruence. }
  clear ER. rewrite (sa_family (p_endpoint p)). fold (sa_of (p_endpoint p)).
  destruct (nv_add ok n2 o "public-key" (NBin (p_pub p))) as [o1 m1] eqn:E1. pose proof (add_good _ _ _ _ _ _ _ _ C (fun H => match H with end) (filled_len _ _ Lp) E1) as G1. cbn [app] in G1.
  destruct (nv_add_if (p_has_psk p) ok m1 o1 "preshared-key" (NBin (p_psk p))) as [o2 m2] eqn:E2. eapply add_if_good in E2; [|exact G1|names_of_items|intros _; exact (filled_len _ _ Lk)].
  destruct (nv_add_if (p_has_ka p) ok m2 o2 "persistent-keepalive-interval" (NNum (p_ka p))) as [o3 m3] eqn:E3. eapply add_if_good in E3; [|exact E2|names_of_items|intros _; exact I].
  destruct (nv_add_if (has_ep (p_endpoint p)) ok m3 o3 "endpoint" (NBin (sa_of (p_endpoint p)))) as [o4 m4] eqn:E4. eapply add_if_good in E4; [|exact E3|names_of_items|apply sa_filled].
  destruct (nv_add_if (p_replace_aips p) ok m4 o4 "replace-allowedips" (NBool true)) as [o5 m5] eqn:E5. eapply add_if_good in E5; [|exact E4|names_of_items|intros _; exact I].
  destruct (nv_add_if (p_remove p) ok m5 o5 "remove" (NBool true)) as [o6 m6] eqn:E6. eapply add_if_good in E6; [|exact E5|names_of_items|intros _; exact I].
  pose proof (aips_good ok (p_aips p) m6 Ha) as A. destruct (put_aips ok m6 (p_aips p)) as [[os|] m7]; [|exact A].
  assert (EL : length os = length (p_aips p)) by (rewrite <- (map_length aip_items); clear - A; induction A; cbn; congruence).
  rewrite EL. unfold peer_items. destruct (length (p_aips p) =? 0)%nat eqn:E0.
  - cbn [negb item]. rewrite !app_nil_r. rewrite <- !app_assoc in E6. exact E6.
  - destruct (nv_add_array ok m7 o6 "allowed-ips" os) as [o7 m8] eqn:E7. eapply array_good in E7; [|exact E6|names_of_items|exact A|].
    + rewrite <- !app_assoc in E7. exact E7.
    + destruct (p_aips p); [discriminate|discriminate].
Qed.
Lemma peers_good : forall ok l n, Forall wf_peer l -> match put_peers ok n l with (Some os, _) => Forall2 (good ok) os (map peer_items l) | (None, _) => bad ok end.
Proof.
  intros ok l. induction l as [|p l IH]; intros n Hw; cbn [put_peers]; [apply Forall2_nil|]. inversion Hw as [|? ? Hp Hl]; subst.
  pose proof (peer_good ok p n Hp) as G. destruct (put_peer ok n p) as [[o|] n1]; [|exact G].
  specialize (IH n1 Hl). destruct (put_peers ok n1 l) as [[os|] n2]; [|exact IH]. cbn [map]. apply Forall2_cons; assumption.
Qed.

Lemma put_device_spec : forall ok d, wf_device d -> put_device ok d = inr (device_items d) \/ (put_device ok d = inl ENOMEM /\ bad ok).
Proof.
  intros ok d (_ & (Lk & _) & _ & _ & Hp). unfold put_device.
  pose proof (create_good ok 0) as C. destruct (nv_create ok 0) as [[o|] n1]; [|right; split; [reflexivity|exact C]].
  destruct (if (length (d_peers d) =? 0)%nat then (true, n1) else (ok n1, S n1)) as [room n2] eqn:ER. destruct room; cbn [negb]; cycle 1.
  { destruct (length (d_peers d) =? 0)%nat; [discriminate|]. right. split; [reflexivity|]. exists n1. congruence. }
  clear ER.
  destruct (nv_add_if (d_has_priv d) ok n2 o "private-key" (NBin (d_priv d))) as [o1 m1] eqn:E1. eapply add_if_good in E1; [|exact C|exact (fun H => match H with end)|intros _; exact (filled_len _ _ Lk)]. cbn [app] in E1.
  destruct (nv_add_if (d_has_port d) ok m1 o1 "listen-port" (NNum (d_port d))) as [o2 m2] eqn:E2. eapply add_if_good in E2; [|exact E1|names_of_items|intros _; exact I].
  destruct (nv_add_if (d_has_fwmark d) ok m2 o2 "user-cookie" (NNum (d_fwmark d))) as [o3 m3] eqn:E3. eapply add_if_good in E3; [|exact E2|names_of_items|intros _; exact I].
  destruct (nv_add_if (d_replace_peers d) ok m3 o3 "replace-peers" (NBool true)) as [o4 m4] eqn:E4. eapply add_if_good in E4; [|exact E3|names_of_items|intros _; exact I].
  pose proof (peers_good ok (d_peers d) m4 Hp) as A. destruct (put_peers ok m4 (d_peers d)) as [[os|] m5]; [|right; split; [reflexivity|exact A]].
  assert (EL : length os = length (d_peers d)) by (rewrite <- (map_length peer_items); clear - A; induction A; cbn; congruence).
  rewrite EL. destruct (if (length (d_peers d) =? 0)%nat then (o4, m5) else nv_add_array ok m5 o4 "peers" os) as [o5 m6] eqn:E5.
  assert (G : good ok o5 (device_items d)).
  { unfold device_items. destruct (length (d_peers d) =? 0)%nat eqn:E0.
    - injection E5 as <- <-. cbn [negb item]. rewrite !app_nil_r. rewrite <- !app_assoc in E4. exact E4.
    - eapply array_good in E5; [|exact E4|names_of_items|exact A|].
      + rewrite <- !app_assoc in E5. exact E5.
      + destruct (d_peers d); [discriminate|discriminate]. }
  destruct G as [[G1 G2]|[G1 G2]]; rewrite G1.
  - change (negb (0 =? 0)) with false. cbv iota. destruct (ok m6) eqn:O; cbn [negb]; [left; rewrite G2; reflexivity|right; split; [reflexivity|exists m6; exact O]].
  - right. split; [reflexivity|exact G2].
Qed.

(** ** What the lists ask for *)
Lemma under_nil : forall n, under [] n None.
Proof. intros n []. Qed.

Lemma aip_asks : forall a, wf_aip a -> nv_aip (aip_items a) a.
Proof.
  intros [f ip c] H. unfold nv_aip, aip_items, well_named, under, names in *. cbn [a_family a_ip a_cidr] in *. unfold wf_aip in H. cbn [a_family a_ip a_cidr] in H.
  destruct H as [(-> & L & B & Hc)|(-> & L & B & Hc)].
  - change (AF_INET =? AF_INET) with true. change (AF_INET =? AF_INET6) with false. cbn [item app map fst opt].
    split; [repeat constructor; cbn; intuition discriminate|]. split; [left; reflexivity|]. split; [right; left; reflexivity|]. split; [cbn; intuition discriminate|].
    left. split; [reflexivity|]. split; [split; [unfold len; rewrite L; reflexivity|exact B]|exact Hc].
  - change (AF_INET6 =? AF_INET) with false. change (AF_INET6 =? AF_INET6) with true. cbn [item app map fst opt].
    split; [repeat constructor; cbn; intuition discriminate|]. split; [left; reflexivity|]. split; [cbn; intuition discriminate|]. split; [right; left; reflexivity|].
    right. split; [reflexivity|]. split; [split; [unfold len; rewrite L; reflexivity|exact B]|exact Hc].
Qed.

Lemma names_item : forall n b m v l, n <> m -> ~ In n (names l) -> ~ In n (names (item b m v ++ l)).
Proof. intros n b m v l H H' Hin. unfold names in *. rewrite map_app, in_app_iff in Hin. destruct Hin as [Hin|Hin]; [destruct b; [destruct Hin as [E|[]]; cbn in E; congruence|destruct Hin]|exact (H' Hin)]. Qed.
Lemma under_skip : forall n b m v l o, n <> m -> under l n o -> under (item b m v ++ l) n o.
Proof. intros n b m v l [x|] H H'; cbn [under] in *; [apply in_or_app; right; exact H'|apply names_item; assumption]. Qed.
Lemma under_here : forall n b v l, ~ In n (names l) -> under (item b n v ++ l) n (opt b v).
Proof. intros n [|] v l H; cbn; [left; reflexivity|exact H]. Qed.
Lemma well_named_item : forall n b v l, ~ In n (names l) -> well_named l -> well_named (item b n v ++ l).
Proof. intros n [|] v l H H'; cbn; [apply NoDup_cons; assumption|exact H']. Qed.
Lemma only_item : forall n b v l ns, In n ns -> only l ns -> only (item b n v ++ l) ns.
Proof. intros n [|] v l ns H H'; [|exact H']. intros x [E|Hx]; [cbn in E; subst; exact H|exact (H' x Hx)]. Qed.

Ltac notin := repeat (apply names_item; [discriminate|]); exact (fun H => match H with end).
Ltac find_item := repeat (apply under_skip; [discriminate|]); first [apply under_here; notin | exact (under_nil _)].
Ltac wn := repeat (apply well_named_item; [notin|]); apply NoDup_nil.
Ltac on := repeat (apply only_item; [cbn; tauto|]); intros x [].

Lemma under_eq : forall l n o o', under l n o -> o = o' -> under l n o'.
Proof. intros; subst; assumption. Qed.
Lemma opt_map : forall A (f : A -> nval) b x, opt b (f x) = option_map f (opt b x).
Proof. intros A f [|] x; reflexivity. Qed.

Lemma be16_val : forall p, 0 <= p < 65536 -> exists a b, be16 p = [a; b] /\ 256 * a + b = p.
Proof.
  intros p H. exists (p / 256), (p mod 256). split; [reflexivity|]. pose proof (Z.div_mod p 256 ltac:(lia)). lia.
Qed.
Lemma sa_asks : forall e, wf_endpoint e -> has_ep e = true -> sa_says (sa_of e) = Some e.
Proof.
  intros [|a p|a p f s] H He; [discriminate| |]; unfold sa_of, fbsd_sockaddr.
  - destruct H as (L & B & Hp). destruct (be16_val p Hp) as (x & y & -> & E).
    destruct a as [|a0 [|a1 [|a2 [|a3 [|]]]]]; try discriminate. cbn [app nth repeat]. change (Z.to_nat 16) with 16%nat. cbn [firstn]. unfold sa_says.
    change (16 =? 16) with true. change (AF_INET =? 2) with true. cbn [andb]. change (len _ =? 16) with true. cbv iota. cbn [firstn]. rewrite E. reflexivity.
  - destruct H as (L & B & Hp & Hf & Hs). destruct (be16_val p Hp) as (x & y & -> & E).
    set (Fl := le 4 f). set (Sc := le 4 s). assert (LF : length Fl = 4%nat) by reflexivity. assert (LS : length Sc = 4%nat) by reflexivity.
    assert (T : firstn (Z.to_nat (nth 0 ([28; FBSD_INET6] ++ [x; y] ++ Fl ++ a ++ Sc) 0)) ([28; FBSD_INET6] ++ [x; y] ++ Fl ++ a ++ Sc) = [28; FBSD_INET6] ++ [x; y] ++ Fl ++ a ++ Sc).
    { apply firstn_all2. rewrite !app_length, L, LF, LS. cbn. lia. }
    rewrite T. change ([28; FBSD_INET6] ++ [x; y] ++ Fl ++ a ++ Sc) with (28 :: FBSD_INET6 :: x :: y :: Fl ++ a ++ Sc). unfold sa_says.
    change (28 =? 16) with false. change (28 =? 28) with true. change (FBSD_INET6 =? 28) with true. cbn [andb].
    assert (LL : len (28 :: FBSD_INET6 :: x :: y :: Fl ++ a ++ Sc) = 28). { unfold len. cbn [length]. rewrite !app_length, L, LF, LS. reflexivity. }
    rewrite LL. change (28 =? 28) with true. cbv iota. rewrite E.
    assert (A1 : firstn 4 (Fl ++ a ++ Sc) = Fl) by (rewrite <- LF; apply firstn_app_exact).
    assert (A2 : skipn 4 (Fl ++ a ++ Sc) = a ++ Sc) by (rewrite <- LF; apply skipn_app_exact).
    assert (A3 : skipn 20 (Fl ++ a ++ Sc) = Sc). { replace 20%nat with (length (Fl ++ a)) by (rewrite app_length, LF, L; reflexivity). rewrite app_assoc. apply skipn_app_exact. }
    rewrite A1, A2, A3. assert (A4 : firstn 16 (a ++ Sc) = a) by (rewrite <- L; apply firstn_app_exact). rewrite A4. assert (A5 : firstn 4 Sc = Sc) by (apply firstn_all2; lia). rewrite A5.
    unfold Fl, Sc. rewrite !le_val_le_id; [reflexivity|exact Hs|exact Hf].
Qed.

Lemma array_items : forall A (f : A -> nvl) (rel : nvl -> A -> Prop) xs l n, Forall (fun x => rel (f x) x) xs -> under l n (opt (negb (length xs =? 0)%nat) (NArr (map f xs))) -> array l n rel xs.
Proof.
  intros A f rel [|x xs] l n H Hu; [exact Hu|]. exists (map f (x :: xs)). split; [exact Hu|]. clear Hu. induction H as [|y ys Hy Hs IH]; [apply Forall2_nil|apply Forall2_cons; assumption].
Qed.

Lemma array_map : forall A B (g : A -> B) (rel : nvl -> B -> Prop) xs l n, array l n (fun x y => rel x (g y)) xs -> array l n rel (map g xs).
Proof.
  intros A B g rel [|x xs] l n H; [exact H|]. destruct H as (ls & Hu & H). exists ls. split; [exact Hu|]. clear - H. induction H; cbn; constructor; assumption.
Qed.

Lemma peer_asks : forall p, wf_peer p -> asks_peer (peer_items p) (rq_peer_of p).
Proof.
  intros p (Wp & Wk & We & Wa & Ha & _). unfold peer_items. change [("public-key"%string, NBin (p_pub p))] with (item true "public-key" (NBin (p_pub p))).
  rewrite <- (app_nil_r (item (negb _) "allowed-ips" _)).
  unfold asks_peer, rq_peer_of. cbn [rp_pub rp_remove rp_replace rp_psk rp_endpoint rp_ka rp_aips].
  split; [wn|]. split; [on|]. split; [change (Some (NBin (p_pub p))) with (opt true (NBin (p_pub p))); find_item|]. split; [rewrite <- opt_map; find_item|]. split; [rewrite <- opt_map; find_item|].
  split.
  { destruct (p_endpoint p) as [|a q|a q f s] eqn:Ee.
    - change (@None nval) with (opt (has_ep EpNone) (NBin (sa_of EpNone))). find_item.
    - exists (sa_of (Ep4 a q)). split; [change (Some (NBin (sa_of (Ep4 a q)))) with (opt (has_ep (Ep4 a q)) (NBin (sa_of (Ep4 a q)))); find_item|apply sa_asks; [exact We|reflexivity]].
    - exists (sa_of (Ep6 a q f s)). split; [change (Some (NBin (sa_of (Ep6 a q f s)))) with (opt (has_ep (Ep6 a q f s)) (NBin (sa_of (Ep6 a q f s)))); find_item|apply sa_asks; [exact We|reflexivity]]. }
  split; [find_item|]. split; [find_item|].
  apply (array_items _ aip_items); [|find_item]. apply Forall_impl with (2 := Ha). exact aip_asks.
Qed.
Lemma device_asks : forall d, wf_device d -> asks (d_name d) (device_items d) (request_of d).
Proof.
  intros d (_ & Wk & Wm & Wp & Hp). unfold device_items. rewrite <- (app_nil_r (item (negb _) "peers" _)).
  unfold asks, request_of. cbn [rq_name rq_priv rq_port rq_fwmark rq_replace rq_peers].
  split; [reflexivity|]. split; [wn|]. split; [on|]. split; [rewrite <- opt_map; find_item|]. split; [rewrite <- opt_map; find_item|]. split; [rewrite <- opt_map; find_item|]. split; [find_item|].
  apply array_map. apply (array_items _ peer_items); [|find_item]. apply Forall_impl with (2 := Hp). exact peer_asks.
Qed.

(** ** Looking up *)
Lemma pick_none : forall A (f : nval -> option A) n l, ~ In n (names l) -> pick f n l = None.
Proof.
  intros A f n l. induction l as [|[m v] l IH]; intro H; [reflexivity|]. cbn [pick]. destruct (String.eqb_spec m n) as [->|]; [exfalso; apply H; left; reflexivity|].
  apply IH. intro X. apply H. right. exact X.
Qed.
Lemma pick_some : forall A (f : nval -> option A) n l v, well_named l -> In (n, v) l -> pick f n l = f v.
Proof.
  intros A f n l v. induction l as [|[m w] l IH]; intros Hw Hin; [destruct Hin|]. unfold well_named in *. cbn [names map fst] in Hw. inversion Hw as [|? ? Hm Hl]; subst. cbn [pick].
  destruct Hin as [E|Hin].
  - injection E as -> ->. rewrite String.eqb_refl. destruct (f v); [reflexivity|]. change ((fix go (l0 : nvl) : option A := match l0 with [] => None | (n0, v0) :: l' => if (n0 =? n)%string then match f v0 with Some x => Some x | None => go l' end else go l' end) l) with (pick f n l).
    apply pick_none, Hm.
  - destruct (String.eqb_spec m n) as [->|]; [|apply IH; assumption]. exfalso. apply Hm. change n with (fst (n, v)). apply in_map, Hin.
Qed.
Lemma under_fun : forall l n o o', well_named l -> under l n o -> under l n o' -> o = o'.
Proof.
  intros l n o o' Hw H H'. 
  assert (X : forall o, under l n o -> pick (fun v => Some v) n l = o).
  { intros [v|] U; [exact (pick_some _ _ _ _ _ Hw U)|exact (pick_none _ _ _ _ U)]. }
  rewrite <- (X o H), <- (X o' H'). reflexivity.
Qed.
Definition view {A} (f : nval -> option A) (o : option nval) : option A := match o with Some v => f v | None => None end.
Lemma pick_under : forall A (f : nval -> option A) n l o, well_named l -> under l n o -> pick f n l = view f o.
Proof. intros A f n l [v|] Hw H; [exact (pick_some _ _ _ _ _ Hw H)|exact (pick_none _ _ _ _ H)]. Qed.
