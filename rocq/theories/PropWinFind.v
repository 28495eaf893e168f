(** C58: finding interfaces on Windows. *)
From Coq Require Import String ZArith List Bool Lia.
From Verif Require Import Base Types Encoding NlSpec NlProofs IpcProofs Ipc Show Fields Obsd Win WinFindSpec WinFind.
Import ListNotations.
Open Scope Z_scope.

(** ** The hash table is a finite map *)
Definition lookup {V} (t : table V) (key : list Z) : option V := match hashtable_find_entry t key with Some p => entry_value t p | None => None end.
Inductive history {V} (null : V) : table V -> (list Z -> option V) -> Prop :=
| h_empty : history null table0 (fun _ => None)
| h_insert : forall t m key mem r t', history null t m -> hashtable_find_or_insert_entry null t key mem = (r, t') ->
    history null t' (match r with None => m | Some _ => match m key with Some _ => m | None => upd m key null end end)
| h_store : forall t m key mem p t' v, history null t m -> hashtable_find_or_insert_entry null t key mem = (Some p, t') -> history null (set_value t' p v) (upd m key v).

Lemma beq_refl : forall k, beq k k = true. Proof. intro k. apply beq_eq. reflexivity. Qed.
Lemma beq_sym : forall k k', beq k k' = beq k' k.
Proof. intros. destruct (beq k k') eqn:E; [apply beq_eq in E; subst; symmetry; apply beq_refl|]. destruct (beq k' k) eqn:E'; [apply beq_eq in E'; subst; rewrite beq_refl in E; discriminate|reflexivity]. Qed.

Fixpoint assoc {V} (l : list (list Z * V)) (key : list Z) : option V := match l with [] => None | e :: l' => if beq (fst e) key then Some (snd e) else assoc l' key end.
Lemma chain_find_spec : forall V (l : list (list Z * V)) key i,
  match chain_find l key i with
  | None => assoc l key = None
  | Some j => exists k e, j = (i + k)%nat /\ nth_error l k = Some e /\ fst e = key /\ assoc l key = Some (snd e)
      /\ (forall v key', assoc (firstn k l ++ (key, v) :: skipn (S k) l) key' = if beq key' key then Some v else assoc l key')
  end.
Proof.
  induction l as [|e l IH]; intros key i; cbn [chain_find assoc]; [reflexivity|]. destruct (beq (fst e) key) eqn:E.
  - apply beq_eq in E. exists 0%nat, e. split; [lia|]. split; [reflexivity|]. split; [exact E|]. split; [reflexivity|]. intros v key'. cbn [firstn skipn app assoc fst snd]. rewrite E, (beq_sym key' key).
    destruct (beq key key'); reflexivity.
  - specialize (IH key (S i)). destruct (chain_find l key (S i)) as [j|]; [|exact IH]. destruct IH as (k & e' & -> & H1 & H2 & H3 & H4). exists (S k), e'. split; [lia|]. split; [exact H1|]. split; [exact H2|].
    split; [exact H3|]. intros v key'. cbn [firstn app assoc]. change (skipn (S (S k)) (e :: l)) with (skipn (S k) l). rewrite H4. destruct (beq (fst e) key') eqn:E'; [|reflexivity].
    destruct (beq key' key) eqn:E2; [|reflexivity]. apply beq_eq in E', E2. subst. rewrite E2, beq_refl in E. discriminate.
Qed.
Lemma lookup_assoc : forall V (t : table V) key, lookup t key = assoc (t (hashtable_bucket key)) key.
Proof.
  intros V t key. unfold lookup, hashtable_find_entry. cbv zeta. pose proof (chain_find_spec V (t (hashtable_bucket key)) key 0) as H. destruct (chain_find _ key 0) as [j|]; [|symmetry; exact H].
  destruct H as (k & e & -> & H1 & _ & H3 & _). unfold entry_value. cbn [fst snd Nat.add]. rewrite H1, H3. reflexivity.
Qed.
Lemma assoc_app : forall V (l l' : list (list Z * V)) key, assoc (l ++ l') key = match assoc l key with Some v => Some v | None => assoc l' key end.
Proof. induction l as [|e l IH]; intros l' key; [reflexivity|]. cbn [app assoc]. destruct (beq (fst e) key); [reflexivity|apply IH]. Qed.

Lemma insert_lookup : forall V (null : V) t key mem r t', hashtable_find_or_insert_entry null t key mem = (r, t') ->
  (forall k, lookup t' k = match r with None => lookup t k | Some _ => if beq k key then Some (match lookup t key with Some v => v | None => null end) else lookup t k end)
  /\ (r = None -> mem = false /\ lookup t key = None)
  /\ (forall p v, r = Some p -> forall k, lookup (set_value t' p v) k = if beq k key then Some v else lookup t k).
Proof.
  intros V null t key mem r t' H. unfold hashtable_find_or_insert_entry in H. cbv zeta in H. pose proof (chain_find_spec V (t (hashtable_bucket key)) key 0) as C. rewrite <- lookup_assoc in C.
  destruct (chain_find _ key 0) as [j|].
  - destruct C as (k & e & -> & H1 & H2 & H3 & H4). injection H as <- <-. split; [|split; [discriminate|]].
    + intro x. destruct (beq x key) eqn:E; [|reflexivity]. apply beq_eq in E. subst x. rewrite H3. reflexivity.
    + intros p v Ep x. injection Ep as <-. rewrite (lookup_assoc _ (set_value _ _ _)). unfold set_value. cbn [fst snd Nat.add]. destruct (Z.eqb_spec (hashtable_bucket x) (hashtable_bucket key)) as [Eb|Nb].
      * rewrite Eb, H1, H2, H4. destruct (beq x key); [reflexivity|]. rewrite lookup_assoc, Eb. reflexivity.
      * destruct (beq x key) eqn:E; [apply beq_eq in E; subst; contradiction|]. rewrite lookup_assoc. reflexivity.
  - destruct mem; injection H as <- <-; [|split; [reflexivity|split; [intros _; split; [reflexivity|exact C]|discriminate]]].
    split; [|split; [discriminate|]].
    + intro x. rewrite (lookup_assoc _ (fun c => _)). destruct (Z.eqb_spec (hashtable_bucket x) (hashtable_bucket key)) as [Eb|Nb].
      * rewrite assoc_app. cbn [assoc fst snd]. rewrite <- Eb, <- lookup_assoc. rewrite (beq_sym x key). destruct (beq key x) eqn:E; [apply beq_eq in E; subst; rewrite C; reflexivity|]. destruct (lookup t x); reflexivity.
      * destruct (beq x key) eqn:E; [apply beq_eq in E; subst; contradiction|]. rewrite lookup_assoc. reflexivity.
    + intros p v Ep x. injection Ep as <-. rewrite (lookup_assoc _ (set_value _ _ _)). unfold set_value. cbn [fst snd]. destruct (Z.eqb_spec (hashtable_bucket x) (hashtable_bucket key)) as [Eb|Nb].
      * rewrite nth_error_app2 by lia. rewrite Nat.sub_diag. cbn [nth_error fst]. rewrite firstn_app, Nat.sub_diag, firstn_all. cbn [firstn]. rewrite app_nil_r.
        rewrite skipn_all2 by (rewrite app_length; cbn [length]; lia). rewrite assoc_app. cbn [assoc fst snd]. rewrite <- Eb, <- lookup_assoc, (beq_sym x key).
        destruct (beq key x) eqn:E; [apply beq_eq in E; subst; rewrite C; reflexivity|]. destruct (lookup t x); reflexivity.
      * destruct (beq x key) eqn:E; [apply beq_eq in E; subst; contradiction|]. rewrite lookup_assoc. reflexivity.
Qed.

(** Whatever keys are inserted, whatever values stored, whichever allocations fail, and whatever the hash function does with the keys: looking a key up finds it exactly if it has
    been inserted, with the value stored last. *)
Theorem C58_table : forall V (null : V) t m, history null t m -> forall key, lookup t key = m key.
Proof.
  induction 1 as [|t m key mem r t' H IH E|t m key mem p t' v H IH E]; intro k; [reflexivity| |].
  - destruct (insert_lookup _ _ _ _ _ _ _ E) as (A & _ & _). rewrite A. destruct r as [p|]; [|apply IH]. rewrite (IH key). unfold upd. destruct (beq k key) eqn:Ek.
    + apply beq_eq in Ek. subst k. destruct (m key) eqn:Em; [symmetry; exact Em|rewrite beq_refl; reflexivity].
    + rewrite IH. destruct (m key); [reflexivity|]. rewrite Ek. reflexivity.
  - destruct (insert_lookup _ _ _ _ _ _ _ E) as (_ & _ & A). rewrite (A p v eq_refl). unfold upd. destruct (beq k key); [reflexivity|apply IH].
Qed.

(** The table has 1024 chains: the hash of every key is the index of one of them. *)
Theorem C58_bucket : forall key, 0 <= hashtable_bucket key < 1024.
Proof. intro key. unfold hashtable_bucket. change 1023 with (Z.ones 10). rewrite Z.land_ones by lia. apply (Z.mod_pos_bound _ (2 ^ 10)). reflexivity. Qed.

(** ** The devices of the kernel *)
Lemma until_nul_app : forall w R, ~ In 0 w -> until_nul (w ++ 0 :: R) = w.
Proof. induction w as [|c w IH]; intros R H; [reflexivity|]. cbn [app until_nul]. destruct (Z.eqb_spec c 0) as [->|]; [exfalso; apply H; left; reflexivity|]. f_equal. apply IH. intro X. apply H. right. exact X. Qed.
Lemma device_name_spec : forall utf8 junk d, proper d -> device_name utf8 junk d = Some (match dev_name utf8 d with Some n => Name n | None => Skip end).
Proof.
  intros utf8 junk d Hp. unfold device_name, dev_name, proper in *. destruct (v_enum d); [|reflexivity]. cbn [negb andb]. destruct (v_prop d) as [u|]; [|destruct (v_conv d); reflexivity].
  destruct Hp as (w & -> & H0 & Hl). rewrite removelast_last.
  assert (A : exists R, adapter_name (w ++ [0]) junk = w ++ 0 :: R).
  { unfold adapter_name. rewrite <- app_assoc. cbn [app]. set (J := map junk (zrange 0 128)). rewrite firstn_app. rewrite (firstn_all2 w) by (unfold len in Hl; lia).
    exists (firstn (126 - length w) J ++ [48]). rewrite <- app_assoc. f_equal. replace (127 - length w)%nat with (S (126 - length w)) by (unfold len in Hl; lia). reflexivity. }
  destruct A as (R & ->). destruct w as [|c w].
  - cbn. destruct (v_conv d); reflexivity.
  - cbn [app nth]. destruct (Z.eqb_spec c 0) as [->|Nc]; [exfalso; apply H0; left; reflexivity|]. change (c :: w ++ 0 :: R) with ((c :: w) ++ 0 :: R).
    replace (existsb (Z.eqb 0) ((c :: w) ++ 0 :: R)) with true.
    2: { symmetry. apply existsb_exists. exists 0. split; [|reflexivity]. apply in_or_app. right. left. reflexivity. }
    rewrite (until_nul_app (c :: w) R H0). cbn [negb]. destruct (utf8 (c :: w)); destruct (v_conv d); reflexivity.
Qed.
Lemma dev_name_ok : forall utf8 d n, utf8_ok utf8 -> proper d -> dev_name utf8 d = Some n -> n <> [] /\ ~ In 0 n /\ len n < 2 ^ 62.
Proof.
  intros utf8 d n Hu Hp H. unfold dev_name, proper in *. destruct (v_enum d && v_conv d); [|discriminate]. destruct (v_prop d) as [u|]; [|discriminate]. destruct Hp as (w & -> & H0 & _). rewrite removelast_last in H.
  destruct w as [|c w]; [discriminate|]. apply (Hu (c :: w) n H0); [discriminate|exact H].
Qed.
Lemma add_fails : forall hp l s r l', string_list_add hp l s = Some (r, l') -> r <> 0 -> exists a n, hp a n = None.
Proof.
  intros hp l s r l' H Hr. unfold string_list_add in H. destruct (_ =? 1); [injection H as <- <-; contradiction|]. destruct (_ <=? _).
  - cbv zeta in H. match type of H with context [hp ?a ?n] => destruct (hp a n) eqn:E; [|exists a, n; exact E] end.
    destruct (store _ _ _); [|discriminate]. destruct (store _ _ _); [|discriminate]. injection H as <- <-. contradiction.
  - destruct (store _ _ _); [|discriminate]. destruct (store _ _ _); [|discriminate]. injection H as <- <-. contradiction.
Qed.

(** The listing succeeds; it gives exactly the names of the running devices, in order, unless an allocation has failed; no access outside of the buffers. *)
Lemma klist_spec : forall utf8 junk hp devs, utf8_ok utf8 -> heap_ok hp -> Forall proper devs -> forall l t before, holds l before ->
  exists l' t' names, klist utf8 junk hp devs l t = Some (l', t') /\ holds l' names /\ (names = before ++ running_names utf8 devs \/ exists a n, hp a n = None).
Proof.
  intros utf8 junk hp devs Hu Hh. induction 1 as [|d devs Hd Hs IH]; intros l t before Hl.
  { exists l, t, before. split; [reflexivity|]. split; [exact Hl|]. left. rewrite app_nil_r. reflexivity. }
  cbn [klist running_names flat_map]. rewrite (device_name_spec utf8 junk d Hd). destruct (dev_name utf8 d) as [n|] eqn:En; [|apply IH, Hl].
  destruct (dev_name_ok _ _ _ Hu Hd En) as (N1 & N2 & N3).
  destruct (v_running d).
  - destruct (add_holds hp l before n Hh Hl N2 N3) as (r & l1 & E & [[-> H1]|[-> ->]]); rewrite E; cbn [fst snd];
      match goal with |- context [hashtable_find_or_insert_entry ?a ?b ?c ?e] => destruct (hashtable_find_or_insert_entry a b c e) as [p t1] end;
      match goal with |- context [klist _ _ _ devs ?l0 ?t0] => destruct (IH l0 t0 _ ltac:(eassumption)) as (l' & t' & names & Ek & Hk & Hn) end; exists l', t', names; (split; [exact Ek|split; [exact Hk|]]).
    + destruct Hn as [-> |Hn]; [left|right; exact Hn]. destruct n; [contradiction|]. rewrite <- app_assoc. reflexivity.
    + right. exact (add_fails _ _ _ _ _ E ltac:(discriminate)).
  - match goal with |- context [hashtable_find_or_insert_entry ?a ?b ?c ?e] => destruct (hashtable_find_or_insert_entry a b c e) as [p t1] end. apply IH, Hl.
Qed.
Theorem C58_kernel_listing : forall utf8 junk hp devs cached t, utf8_ok utf8 -> heap_ok hp -> Forall proper devs ->
  exists l t', kernel_get_wireguard_interfaces utf8 junk hp (Some devs) slist0 cached t = Some (0, l, true, t')
    /\ (names_of (match sl_block l with [] => [0] | b => b end) = running_names utf8 devs \/ exists a n, hp a n = None).
Proof.
  intros utf8 junk hp devs cached t Hu Hh Hd. destruct (klist_spec utf8 junk hp devs Hu Hh Hd slist0 t [] holds0) as (l & t' & names & E & H & Hn). exists l, t'.
  unfold kernel_get_wireguard_interfaces. rewrite E. split; [reflexivity|]. destruct Hn as [-> |Hn]; [left|right; exact Hn]. apply holds_names, H.
Qed.
Theorem C58_kernel_listing_error : forall utf8 junk hp l cached t, kernel_get_wireguard_interfaces utf8 junk hp None l cached t = Some (- EACCES, l, cached, t).
Proof. reflexivity. Qed.

(** The cache: an ID found under a name is that of a device which had this name in a listing; a name that is not found belongs to no device listed (unless memory ran out). *)
Theorem C58_cache : forall utf8 junk hp devs l cached t r l' c' t' (known : list Z -> list Z -> Prop), Forall proper devs ->
  kernel_get_wireguard_interfaces utf8 junk hp (Some devs) l cached t = Some (r, l', c', t') ->
  (forall key id, lookup t key = Some (Some id) -> known key id) ->
  (forall d key id, In d devs -> dev_name utf8 d = Some key -> v_id d = IdIs id -> known key id) ->
  (forall key id, lookup t' key = Some (Some id) -> known key id)
  /\ (forall key, lookup t' key = Some None -> lookup t key = Some None \/ exists d, In d devs /\ dev_name utf8 d = Some key /\ forall id, v_id d <> IdIs id)
  /\ (forall key, lookup t' key = None -> lookup t key = None /\ forall d, In d devs -> dev_name utf8 d = Some key -> v_entry d = false).
Proof.
  intros utf8 junk hp devs l cached t r l' c' t' known Hd H. unfold kernel_get_wireguard_interfaces in H. destruct (klist utf8 junk hp devs l t) as [[l1 t1]|] eqn:E; [|discriminate].
  injection H as <- <- <- <-. revert l t E. induction Hd as [|d devs Hd Hs IH]; intros l t E Ht Hk.
  { cbn [klist] in E. injection E as <- <-. split; [exact Ht|]. split; [intros key Hkey; left; exact Hkey|]. intros key Hkey. split; [exact Hkey|]. intros d []. }
  cbn [klist] in E. rewrite (device_name_spec utf8 junk d Hd) in E. destruct (dev_name utf8 d) as [n|] eqn:En.
  2: { destruct (IH l t E Ht (fun d' key id Hin => Hk d' key id (or_intror Hin))) as (A & B & C). split; [exact A|]. split.
       - intros key Hkey. destruct (B key Hkey) as [|(d' & H1 & H2)]; [left; assumption|right; exists d'; split; [right; exact H1|exact H2]].
       - intros key Hkey. destruct (C key Hkey) as [C1 C2]. split; [exact C1|]. intros d' [<- |Hin] Hn; [congruence|exact (C2 d' Hin Hn)]. }
  destruct (if v_running d then string_list_add hp l n else Some (0, l)) as [[r0 l0]|]; [|discriminate]. cbn [fst snd] in E.
  destruct (hashtable_find_or_insert_entry None t n (v_entry d)) as [p t2] eqn:Ei. destruct (insert_lookup _ _ _ _ _ _ _ Ei) as (I1 & I2 & I3).
  match type of E with klist _ _ _ _ _ ?T = _ => set (t3 := T) in * end.
  assert (L3 : forall k, k <> n -> lookup t3 k = lookup t k).
  { intros k Nk. assert (Bk : beq k n = false) by (destruct (beq k n) eqn:X; [apply beq_eq in X; contradiction|reflexivity]). unfold t3. destruct p as [p|].
    - destruct (v_id d); [|rewrite (I3 p _ eq_refl k), Bk; reflexivity ..]. rewrite I1, Bk. reflexivity.
    - rewrite I1. reflexivity. }
  assert (Ln : match p with
               | None => v_entry d = false /\ lookup t n = None /\ lookup t3 n = None
               | Some _ => lookup t3 n = Some (match v_id d with IdNone => match lookup t n with Some v => v | None => None end | IdNull => None | IdIs id => Some id end) end).
  { unfold t3. destruct p as [p|].
    - destruct (v_id d); [|rewrite (I3 p _ eq_refl n), beq_refl; reflexivity ..]. rewrite I1, beq_refl. reflexivity.
    - destruct (I2 eq_refl) as [V N]. split; [exact V|]. split; [exact N|]. rewrite I1. exact N. }
  assert (D : forall k, k = n \/ k <> n) by (intro k; destruct (beq k n) eqn:X; [left; apply beq_eq, X|right; intro Y; subst; rewrite beq_refl in X; discriminate]).
  destruct (IH l0 t3 E) as (A & B & C).
  - intros key id Hkey. destruct (D key) as [-> |Nk]; [|apply Ht; rewrite <- (L3 key Nk); exact Hkey]. destruct p as [p|]; [|destruct Ln as (_ & _ & Ln); congruence].
    rewrite Ln in Hkey. destruct (v_id d) as [| |id'] eqn:Ev.
    + destruct (lookup t n) as [v|] eqn:El; [|discriminate]. apply Ht. congruence.
    + discriminate.
    + injection Hkey as ->. exact (Hk d n id (or_introl eq_refl) En Ev).
  - intros d' key id Hin. apply Hk. right. exact Hin.
  - split; [exact A|]. split.
    + intros key Hkey. destruct (B key Hkey) as [B1|(d' & H1 & H2)]; [|right; exists d'; split; [right; exact H1|exact H2]]. destruct (D key) as [-> |Nk]; [|left; rewrite <- (L3 key Nk); exact B1].
      destruct p as [p|]; [|destruct Ln as (_ & _ & Ln); congruence]. rewrite Ln in B1. right. exists d. split; [left; reflexivity|]. split; [exact En|]. intros id Hid. rewrite Hid in B1. discriminate.
    + intros key Hkey. destruct (C key Hkey) as [C1 C2]. destruct (D key) as [-> |Nk].
      * destruct p as [p|]; [congruence|]. destruct Ln as (V & N & _). split; [exact N|]. intros d' [<- |Hin] Hn; [exact V|exact (C2 d' Hin Hn)].
      * split; [rewrite <- (L3 key Nk); exact C1|]. intros d' [<- |Hin] Hn; [congruence|exact (C2 d' Hin Hn)].
Qed.

(** Opening: through the cache, the interface of the device whose ID is stored under the name; otherwise that of the first device with exactly this name that has one. *)
Lemma ksearch_spec : forall utf8 junk ifs iface devs, Forall proper devs ->
  exists r, ksearch utf8 junk ifs iface devs = Some r
    /\ match r with
       | Some p => exists before d after, devs = before ++ d :: after /\ leads utf8 ifs iface d p /\ forall d' p', In d' before -> ~ leads utf8 ifs iface d' p'
       | None => forall d p, In d devs -> ~ leads utf8 ifs iface d p
       end.
Proof.
  intros utf8 junk ifs iface devs. induction 1 as [|d devs Hd Hs IH]; [exists None; split; [reflexivity|intros d p []]|].
  cbn [ksearch]. rewrite (device_name_spec utf8 junk d Hd).
  assert (G : (forall p, ~ leads utf8 ifs iface d p) -> exists r, ksearch utf8 junk ifs iface devs = Some r
    /\ match r with
       | Some p => exists before x after, d :: devs = before ++ x :: after /\ leads utf8 ifs iface x p /\ forall d' p', In d' before -> ~ leads utf8 ifs iface d' p'
       | None => forall x p, In x (d :: devs) -> ~ leads utf8 ifs iface x p
       end).
  { intro N. destruct IH as (r & E & H). exists r. split; [exact E|]. destruct r as [p|].
    - destruct H as (before & x & after & -> & H1 & H2). exists (d :: before), x, after. split; [reflexivity|]. split; [exact H1|]. intros d' p' [<- |Hin]; [apply N|apply H2, Hin].
    - intros x p [<- |Hin]; [apply N|apply H, Hin]. }
  destruct (dev_name utf8 d) as [n|] eqn:En; [|apply G; intros p (L & _); congruence].
  destruct (beq n iface) eqn:Eb; cbn [negb]; [|apply G; intros p (L & _); assert (n = iface) by congruence; subst; rewrite beq_refl in Eb; discriminate].
  apply beq_eq in Eb. subst n. destruct (v_id d) as [| |id] eqn:Ev; [apply G; intros p (_ & _ & i & L & _); congruence ..|].
  destruct (ifs (Some id)) as [[|c p]|] eqn:Ei.
  - apply G. intros p (_ & L & i & L1 & L2). assert (i = id) by congruence. subst. congruence.
  - exists (Some (c :: p)). split; [reflexivity|]. exists [], d, devs. split; [reflexivity|]. split; [|intros d' p' []]. split; [exact En|]. split; [discriminate|]. exists id. split; assumption.
  - apply G. intros p (_ & L & i & L1 & L2). assert (i = id) by congruence. subst. congruence.
Qed.
Theorem C58_open : forall H utf8 junk cached t devs ifs (open : list Z -> option H) errno iface, Forall proper devs ->
  let answer := kernel_interface_handle utf8 junk cached t (Some devs) ifs open errno iface in
  (forall id, cached = true -> lookup t iface = Some (Some id) ->
     answer = Some (match ifs (Some id) with Some (c :: p) => match open (c :: p) with Some h => inl h | None => inr EACCES end | _ => inr EACCES end))
  /\ (cached = false \/ lookup t iface = None ->
     (exists before d after p, devs = before ++ d :: after /\ leads utf8 ifs iface d p /\ (forall d' p', In d' before -> ~ leads utf8 ifs iface d' p')
        /\ answer = Some (match open p with Some h => inl h | None => inr EACCES end))
     \/ ((forall d p, In d devs -> ~ leads utf8 ifs iface d p) /\ answer = Some (inr ENOENT))).
Proof.
  intros H utf8 junk cached t devs ifs open errno iface Hd answer. split.
  - intros id -> L. unfold answer, kernel_interface_handle. unfold lookup in L. destruct (hashtable_find_entry t iface) as [p|]; [|discriminate]. rewrite L.
    destruct (ifs (Some id)) as [[|c q]|]; reflexivity.
  - intro Hc. assert (E : (if cached then hashtable_find_entry t iface else None) = None).
    { destruct cached; [|reflexivity]. destruct Hc as [Hc|Hc]; [discriminate|]. unfold lookup in Hc. destruct (hashtable_find_entry t iface) as [p|] eqn:Ef; [|reflexivity]. exfalso.
      unfold hashtable_find_entry in Ef. cbv zeta in Ef. pose proof (chain_find_spec _ (t (hashtable_bucket iface)) iface 0) as C. destruct (chain_find _ iface 0) as [j|]; [|discriminate].
      injection Ef as <-. destruct C as (k & e & -> & C1 & _). unfold entry_value in Hc. cbn [fst snd Nat.add] in Hc. rewrite C1 in Hc. discriminate. }
    unfold answer, kernel_interface_handle. rewrite E. destruct (ksearch_spec utf8 junk ifs iface devs Hd) as (r & -> & Hr). destruct r as [p|].
    + left. destruct Hr as (before & d & after & H1 & H2 & H3). exists before, d, after, p. split; [exact H1|]. split; [exact H2|]. split; [exact H3|]. destruct (open p); reflexivity.
    + right. split; [exact Hr|reflexivity].
Qed.

(** An entry without an ID (there was no memory for it, say): the ID passed on is null, which stands for all devices; the first network interface of any of them is opened. *)
Theorem C58_null_id_refuted : forall H utf8 junk t devs ifs (open : list Z -> option H) errno iface c p h, lookup t iface = Some None -> ifs None = Some (c :: p) -> open (c :: p) = Some h ->
  kernel_interface_handle utf8 junk true t devs ifs open errno iface = Some (inl h).
Proof.
  intros H utf8 junk t devs ifs open errno iface c p h L Hi Ho. unfold kernel_interface_handle. unfold lookup in L. destruct (hashtable_find_entry t iface) as [q|]; [|discriminate]. rewrite L, Hi, Ho. reflexivity.
Qed.
(** The list of devices cannot be had: errno is what it was. *)
Theorem C58_errno_refuted : forall H utf8 junk t ifs (open : list Z -> option H) iface, kernel_interface_handle utf8 junk false t None ifs open 0 iface = Some (inr 0).
Proof. reflexivity. Qed.
(** A name of 127 units: its terminator is overwritten with L'0', the digit; the end of the buffer is not seen. *)
Theorem C58_long_name_refuted : forall utf8 junk d w, v_enum d = true -> v_prop d = Some (w ++ [0]) -> len w = 127 -> ~ In 0 w -> device_name utf8 junk d = None.
Proof.
  intros utf8 junk d w He Hp Hl H0. unfold device_name. rewrite He, Hp. cbn [negb].
  assert (A : adapter_name (w ++ [0]) junk = w ++ [48]).
  { unfold adapter_name. rewrite <- app_assoc. rewrite firstn_app. rewrite (firstn_all2 w) by (unfold len in Hl; lia). replace (127 - length w)%nat with 0%nat by (unfold len in Hl; lia). cbn [firstn]. rewrite app_nil_r. reflexivity. }
  rewrite A. destruct w as [|c w]; [discriminate|]. cbn [app nth]. destruct (Z.eqb_spec c 0) as [->|Nc]; [exfalso; apply H0; left; reflexivity|]. cbv zeta.
  replace (existsb (Z.eqb 0) (c :: w ++ [48])) with false; [reflexivity|]. symmetry. apply not_true_iff_false. intro X. apply existsb_exists in X. destruct X as (z & Hz & Ez). apply Z.eqb_eq in Ez. subst z.
  apply H0. change (c :: w ++ [48]) with ((c :: w) ++ [48]) in Hz. apply in_app_or in Hz. destruct Hz as [Hz|[Hz|[]]]; [exact Hz|discriminate].
Qed.
(** Memory runs out while the list of names is made: the listing succeeds without them. *)
Theorem C58_listing_memory_refuted : forall utf8 junk devs cached t, utf8_ok utf8 -> Forall proper devs ->
  exists t', kernel_get_wireguard_interfaces utf8 junk (fun _ _ => None) (Some devs) slist0 cached t = Some (0, slist0, true, t').
Proof.
  intros utf8 junk devs cached t Hu Hd. unfold kernel_get_wireguard_interfaces. assert (G : exists t', klist utf8 junk (fun _ _ => None) devs slist0 t = Some (slist0, t')); [|destruct G as (t' & ->); exists t'; reflexivity].
  revert t. induction Hd as [|d devs Hp Hs IH]; intro t; [eexists; reflexivity|]. cbn [klist]. rewrite (device_name_spec utf8 junk d Hp). destruct (dev_name utf8 d) as [n|] eqn:En; [|apply IH].
  destruct (dev_name_ok _ _ _ Hu Hp En) as (N1 & N2 & N3).
  assert (A : string_list_add (fun _ _ => None) slist0 n = Some (- ENOMEM, slist0)).
  { destruct (add_holds (fun _ _ => None) slist0 [] n) as (r & l' & E & [[-> Hl]|[-> ->]]); [intros ? ? ? X; discriminate|exact holds0|exact N2|exact N3| |exact E].
    exfalso. unfold string_list_add in E. cbn [slist0 sl_cap sl_len sl_block] in E. pose proof (len_nonneg n). change (2 ^ 62) with 4611686018427387904 in N3.
    assert (U : u64 (len n + 1) = len n + 1) by (unfold u64; apply Z.mod_small; change (2 ^ 64) with 18446744073709551616; lia). rewrite U in E.
    destruct (Z.eqb_spec (len n + 1) 1) as [X|X]; [destruct n; [contradiction|unfold len in X; cbn [length] in X; lia]|]. change (u64 (0 - 0)) with 0 in E. destruct (Z.leb_spec 0 (len n + 1)); [|lia]. discriminate. }
  destruct (v_running d); [rewrite A|]; cbn [fst snd]; match goal with |- context [hashtable_find_or_insert_entry ?a ?b ?c ?e] => destruct (hashtable_find_or_insert_entry a b c e) end; apply IH.
Qed.

(** ** The userspace implementation: pipes *)

(** A file is handed out only for the pipe of exactly this name, and only if that is owned by the system; in all other cases the pipe is closed again, and there is an errno.
    ([cut]: the 259 bytes that fit.) *)
Definition cut (s : list Z) : list Z := firstn 259 s.
Theorem C58_pipe : forall sid pipe fd file iface r name h, win_interface_file sid pipe fd file iface = (r, name, h) ->
  (r = inl tt -> name = Some (cut (pipe_dir ++ pipe_prefix ++ iface)) /\ pipe (cut (pipe_dir ++ pipe_prefix ++ iface)) = Some (Some local_system) /\ h = 1%nat)
  /\ (r <> inl tt -> file = None -> h = 0%nat)
  /\ (forall n, name = Some n -> n = cut (pipe_dir ++ pipe_prefix ++ iface))
  /\ (len iface <= 209 -> cut (pipe_dir ++ pipe_prefix ++ iface) = pipe_dir ++ pipe_prefix ++ iface).
Proof.
  intros sid pipe fd file iface r name h H. assert (L : len iface <= 209 -> cut (pipe_dir ++ pipe_prefix ++ iface) = pipe_dir ++ pipe_prefix ++ iface).
  { intro L. apply firstn_all2. rewrite !app_length. change (length pipe_dir) with 9%nat. change (length pipe_prefix) with 41%nat. unfold len in L. lia. }
  unfold win_interface_file in H. fold (cut (pipe_dir ++ pipe_prefix ++ iface)) in H. set (f := cut (pipe_dir ++ pipe_prefix ++ iface)) in *. cbv zeta in H.
  destruct sid; cbn [negb] in H; [|injection H as <- <- <-; repeat split; try discriminate; exact L].
  destruct (pipe f) as [[owner|]|] eqn:Ep; [|injection H as <- <- <-; repeat split; try discriminate; try exact L; intros n En; congruence ..].
  destruct (beq local_system owner) eqn:Eo; cbn [negb] in H; [|injection H as <- <- <-; repeat split; try discriminate; try exact L; intros n En; congruence].
  apply beq_eq in Eo. subst owner.
  destruct fd as [e|]; [injection H as <- <- <-; repeat split; try discriminate; try exact L; intros n En; congruence|].
  destruct file as [e|]; injection H as <- <- <-; repeat split; try discriminate; try exact L; try (intros n En; congruence).
Qed.
(** When _fdopen() fails, the pipe stays open. *)
Theorem C58_pipe_closed_refuted : forall pipe iface e, pipe (cut (pipe_dir ++ pipe_prefix ++ iface)) = Some (Some local_system) ->
  win_interface_file true pipe None (Some e) iface = (inr e, Some (cut (pipe_dir ++ pipe_prefix ++ iface)), 1%nat).
Proof. intros pipe iface e H. unfold win_interface_file. cbn [negb]. fold (cut (pipe_dir ++ pipe_prefix ++ iface)). cbv zeta. rewrite H. reflexivity. Qed.
(** Names that differ beyond what fits open the same pipe. *)
Theorem C58_pipe_name_refuted : forall sid pipe fd file x y z, len x = 209 -> win_interface_file sid pipe fd file (x ++ y) = win_interface_file sid pipe fd file (x ++ z).
Proof.
  intros sid pipe fd file x y z L. unfold win_interface_file. assert (E : forall y, firstn 259 (pipe_dir ++ pipe_prefix ++ x ++ y) = pipe_dir ++ pipe_prefix ++ x).
  { intro w. replace (pipe_dir ++ pipe_prefix ++ x ++ w) with ((pipe_dir ++ pipe_prefix ++ x) ++ w) by (rewrite <- !app_assoc; reflexivity).
    assert (Ll : length (pipe_dir ++ pipe_prefix ++ x) = 259%nat) by (rewrite !app_length; change (length pipe_dir) with 9%nat; change (length pipe_prefix) with 41%nat; unfold len in L; lia).
    rewrite <- Ll. rewrite firstn_app, Nat.sub_diag, firstn_all. cbn [firstn]. apply app_nil_r. }
  rewrite !E. reflexivity.
Qed.

(** Whether there is an interface: exactly if there is a pipe of that name (before the first listing), or there was one in the listing. *)
Theorem C58_has_interface : forall ns t iface, len iface <= 218 -> (win_has_interface false t (Some ns) iface = true <-> In (pipe_prefix ++ iface) ns)
  /\ (forall pipes, win_has_interface true t pipes iface = true <-> lookup t iface <> None).
Proof.
  intros ns t iface L. split.
  - unfold win_has_interface. rewrite firstn_all2 by (rewrite app_length; change (length pipe_prefix) with 41%nat; unfold len in L; lia). rewrite existsb_exists. split.
    + intros (x & Hx & E). apply beq_eq in E. subst. exact Hx.
    + intro H. exists (pipe_prefix ++ iface). split; [exact H|apply beq_refl].
  - intro pipes. unfold win_has_interface. rewrite lookup_assoc. unfold hashtable_find_entry. cbv zeta. pose proof (chain_find_spec _ (t (hashtable_bucket iface)) iface 0) as C.
    destruct (chain_find _ iface 0) as [j|].
    + destruct C as (k & e & _ & _ & _ & -> & _). split; [discriminate|reflexivity].
    + rewrite C. split; [discriminate|congruence].
Qed.
(** If the pipes cannot be listed, every interface exists: "return -EIO" from a function that returns bool. *)
Theorem C58_has_interface_refuted : forall t iface, win_has_interface false t None iface = true.
Proof. reflexivity. Qed.

Definition after_prefix (ns : list (list Z)) : list (list Z) := flat_map (fun n => if beq (firstn (length pipe_prefix) n) pipe_prefix then [skipn (length pipe_prefix) n] else []) ns.
(** The listing gives the names of all pipes with the prefix, without it, and remembers exactly them; or -ENOMEM. *)
Theorem C58_pipe_listing : forall hp mem ns cached t, heap_ok hp -> Forall (fun n => ~ In 0 n /\ len n < 2 ^ 62) ns ->
  (exists r l t' c, win_get_interfaces hp mem (Some ns) slist0 cached t = Some (r, l, t', c)
    /\ ((r = 0 /\ c = true /\ names_of (match sl_block l with [] => [0] | b => b end) = filter (fun n => negb (beq n [])) (after_prefix ns)
         /\ forall key, lookup t' key <> None <-> lookup t key <> None \/ In key (after_prefix ns))
        \/ r = - ENOMEM))
  /\ forall l, win_get_interfaces hp mem None l cached t = Some (- EIO, l, t, cached).
Proof.
  intros hp mem ns cached t Hh Hns. split; [|reflexivity].
  assert (G : forall l t before, holds l before -> exists r l' t' c, wlist hp mem ns l t 0 = Some (r, l', t', c)
    /\ ((r = 0 /\ c = true /\ holds l' (before ++ filter (fun n => negb (beq n [])) (after_prefix ns)) /\ forall key, lookup t' key <> None <-> lookup t key <> None \/ In key (after_prefix ns)) \/ r = - ENOMEM)).
  { induction Hns as [|n ns [H0 Hl] Hs IH]; intros l t0 before Hb.
    - exists 0, l, t0, true. split; [reflexivity|]. left. split; [reflexivity|]. split; [reflexivity|]. split; [rewrite app_nil_r; exact Hb|]. intro key. split; [intro X; left; exact X|intros [X|[]]; exact X].
    - cbn [wlist after_prefix flat_map]. destruct (beq (firstn (length pipe_prefix) n) pipe_prefix); cbn [negb]; [|exact (IH l t0 before Hb)].
      set (s := skipn (length pipe_prefix) n). assert (S0 : ~ In 0 s) by (intro X; apply H0; rewrite <- (firstn_skipn (length pipe_prefix) n); apply in_or_app; right; exact X).
      assert (Sl : len s < 2 ^ 62) by (unfold s, len in *; rewrite skipn_length; lia).
      destruct (add_holds hp l before s Hh Hb S0 Sl) as (r & l1 & -> & [[-> H1]|[-> ->]]).
      2: { exists (- ENOMEM), l, t0, false. split; [reflexivity|right; reflexivity]. }
      change (0 <? 0) with false. cbv iota. destruct (hashtable_find_or_insert_entry tt t0 s (mem s)) as [[p|] t1] eqn:Ei.
      2: { exists (- ENOMEM), l1, t1, false. split; [reflexivity|right; reflexivity]. }
      destruct (insert_lookup _ _ _ _ _ _ _ Ei) as (I1 & _ & _). destruct (IH l1 t1 _ H1) as (r & l2 & t2 & c & E & Hr). exists r, l2, t2, c. split; [exact E|].
      destruct Hr as [(-> & -> & A & B)| ->]; [left|right; reflexivity]. split; [reflexivity|]. split; [reflexivity|]. split.
      + cbn [app filter]. rewrite <- app_assoc in A. destruct s as [|x s']; [exact A|]. cbn [beq negb app] in A |- *. exact A.
      + intro key. rewrite B. rewrite I1. cbn [app In]. destruct (beq key s) eqn:Ek.
        * apply beq_eq in Ek. subst key. split; [intros _; right; left; reflexivity|intros _; left; discriminate].
        * assert (s <> key) by (intro X; subst; rewrite beq_refl in Ek; discriminate). tauto. }
  destruct (G slist0 t [] holds0) as (r & l & t' & c & E & Hr). unfold win_get_interfaces. rewrite E. exists r, l, t', (c || cached). split; [reflexivity|].
  destruct Hr as [(-> & -> & A & B)| ->]; [left|right; reflexivity]. split; [reflexivity|]. split; [reflexivity|]. split; [apply holds_names, A|exact B].
Qed.

(** * Concrete cases: ASCII names; three devices, the first of another kind, the third not running; two pipes. *)
Definition ascii_utf8 (w : list Z) : option (list Z) := if forallb (fun c => (0 <? c) && (c <? 128)) w && (len w <=? 1000) then Some w else None.
Example C58_ex_utf8 : utf8_ok ascii_utf8.
Proof.
  intros w n H0 Hw H. unfold ascii_utf8 in H. destruct (forallb _ w && (len w <=? 1000)) eqn:E; [|discriminate]. injection H as <-. apply andb_prop in E. destruct E as [_ E]. apply Z.leb_le in E.
  split; [exact Hw|]. split; [exact H0|]. change (2 ^ 62) with 4611686018427387904. lia.
Qed.
Definition ex_devs : list wdev :=
  [mk_wdev true None true true true (IdIs [1]); mk_wdev true (Some (str "wg0" ++ [0])) true true true (IdIs [2]); mk_wdev true (Some (str "office" ++ [0])) true false true (IdIs [3])].
Definition ex_heap : heap := fun _ n => if n <? 1000 then Some (fun _ => 7) else None.
Definition ex_ifs (id : option (list Z)) : option (list Z) := match id with Some [2] => Some (str "path2") | Some [3] => Some (str "path3") | None => Some (str "path1") | _ => Some [] end.
Example C58_ex_devices : Forall proper ex_devs /\ heap_ok ex_heap /\ running_names ascii_utf8 ex_devs = [str "wg0"]
  /\ (exists l t, kernel_get_wireguard_interfaces ascii_utf8 (fun _ => 0) ex_heap (Some ex_devs) slist0 false table0 = Some (0, l, true, t)
      /\ lookup t (str "office") = Some (Some [3])
      /\ kernel_interface_handle ascii_utf8 (fun _ => 0) true t None ex_ifs Some 0 (str "office") = Some (inl (str "path3"))).
Proof.
  split. { repeat apply Forall_cons; try apply Forall_nil; [exact I|exists (str "wg0")|exists (str "office")]; (split; [reflexivity|split; [cbn; lia|vm_compute; discriminate]]). }
  split. { intros l n junk E. unfold ex_heap in E. destruct (Z.ltb_spec n 1000); [|discriminate]. change (2 ^ 63) with 9223372036854775808. lia. }
  split; [reflexivity|]. eexists _, _. split; [vm_compute; reflexivity|]. split; vm_compute; reflexivity.
Qed.
Example C58_ex_search : kernel_interface_handle ascii_utf8 (fun _ => 0) false table0 (Some ex_devs) ex_ifs Some 0 (str "wg0") = Some (inl (str "path2")).
Proof. vm_compute. reflexivity. Qed.
Example C58_ex_null : exists l t, kernel_get_wireguard_interfaces ascii_utf8 (fun _ => 0) ex_heap (Some [mk_wdev true (Some (str "wg0" ++ [0])) true true true IdNull]) slist0 false table0 = Some (0, l, true, t)
  /\ lookup t (str "wg0") = Some None.
Proof. eexists _, _. split; vm_compute; reflexivity. Qed.
Example C58_ex_pipes : exists l t, win_get_interfaces ex_heap (fun _ => true) (Some [str "lsass"; pipe_prefix ++ str "home"]) slist0 false table0 = Some (0, l, t, true)
  /\ lookup t (str "home") = Some tt /\ after_prefix [str "lsass"; pipe_prefix ++ str "home"] = [str "home"].
Proof. eexists _, _. split; [vm_compute; reflexivity|]. split; vm_compute; reflexivity. Qed.

Print Assumptions C58_table.
Print Assumptions C58_bucket.
Print Assumptions C58_kernel_listing.
Print Assumptions C58_kernel_listing_error.
Print Assumptions C58_cache.
Print Assumptions C58_open.
Print Assumptions C58_null_id_refuted.
Print Assumptions C58_errno_refuted.
Print Assumptions C58_long_name_refuted.
Print Assumptions C58_listing_memory_refuted.
Print Assumptions C58_pipe.
Print Assumptions C58_pipe_closed_refuted.
Print Assumptions C58_pipe_name_refuted.
Print Assumptions C58_has_interface.
Print Assumptions C58_has_interface_refuted.
Print Assumptions C58_pipe_listing.
