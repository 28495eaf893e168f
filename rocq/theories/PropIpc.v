(** C38: listing interfaces.  C44: the sockets of userspace implementations. *)
From Coq Require Import String ZArith List Bool Lia.
From Verif Require Import Base Types Encoding Config NlSpec NlProofs NlGetSpec Nl NlSet NlSetProofs4 NlGet NlGetProofs NlRun NlGetProofs3 PropNetlinkGet Show Ipc IpcSpec IpcProofs IpcProofs2 IpcProofs3.
Import ListNotations.
Open Scope Z_scope.

(** ** C38: the packed buffer *)

(** Appending names one after another, until one append fails. *)
Fixpoint add_all (hp : heap) (l : slist) (names : list (list Z)) : option (Z * slist) :=
  match names with
  | [] => Some (0, l)
  | n :: rest => match string_list_add hp l n with
                 | Some (0, l') => add_all hp l' rest
                 | r => r
                 end
  end.
Definition nonempty (n : list Z) : bool := match n with [] => false | _ => true end.

(** Whatever the names and whatever realloc leaves in new memory: no access outside the block, and reading the block back (as "wg show"
    does) gives exactly the names, in order (empty ones are not listed); if memory runs out, the names added before are still there. *)
Theorem C38_packed_names : forall hp names, heap_ok hp -> Forall (fun n => ~ In 0 n /\ len n < 2 ^ 62) names ->
  exists r l, add_all hp slist0 names = Some (r, l)
    /\ (r = 0 \/ r = - ENOMEM)
    /\ (r = 0 -> names_of (match sl_block l with [] => [0] | b => b end) = filter nonempty names)
    /\ exists k, names_of (match sl_block l with [] => [0] | b => b end) = filter nonempty (firstn k names).
Proof.
  intros hp names Hh H.
  assert (G : forall names l before, Forall (fun n => ~ In 0 n /\ len n < 2 ^ 62) names -> holds l before ->
    exists r l', add_all hp l names = Some (r, l') /\ (r = 0 \/ r = - ENOMEM) /\ (r = 0 -> holds l' (before ++ filter nonempty names))
      /\ exists k, holds l' (before ++ filter nonempty (firstn k names))).
  { clear - Hh. induction names as [|n names IH]; intros l before H Hl.
    - exists 0, l. cbn [filter]. rewrite app_nil_r. split; [reflexivity|]. split; [left; reflexivity|]. split; [intros _; exact Hl|]. exists 0%nat.
      cbn [firstn filter]. rewrite app_nil_r. exact Hl.
    - inversion H as [|x y [Hz Hn] Hrest]; subst. cbn [add_all].
      destruct (add_holds hp l before n Hh Hl Hz Hn) as (r & l1 & -> & [[-> H1]|[-> ->]]).
      + assert (Ef : match n with [] => [] | _ :: _ => [n] end = filter nonempty [n]) by (destruct n; reflexivity). rewrite Ef in H1.
        destruct (IH l1 _ Hrest H1) as (r & l2 & E & Hr & H2 & k & H3). exists r, l2. split; [exact E|]. split; [exact Hr|].
        change (n :: names) with ([n] ++ names). rewrite filter_app. split.
        * intro E0. rewrite app_assoc. apply H2, E0.
        * exists (S k). cbn [app firstn]. change (n :: firstn k names) with ([n] ++ firstn k names). rewrite filter_app, app_assoc. exact H3.
      + change (- ENOMEM) with (-12). exists (-12), l. split; [reflexivity|]. split; [right; reflexivity|]. split; [discriminate|].
        exists 0%nat. cbn [firstn filter]. rewrite app_nil_r. exact Hl. }
  destruct (G names slist0 [] H holds0) as (r & l & E & Hr & H1 & k & H2). cbn [app] in *.
  exists r, l. split; [exact E|]. split; [exact Hr|]. split; [intro E0; apply holds_names, H1, E0|]. exists k. apply holds_names, H2.
Qed.

(** ** C38: the whole listing *)

(** A dump of any number of links, in any number of datagrams of any sizes, up to its end or to the message that reports an interruption,
    and any directory: unless memory runs out, the result holds exactly the names of the WireGuard links seen, in the kernel's order,
    followed by the names of the userspace interfaces that answer. *)
Theorem C38_listing : forall hp o dir seq portid errno buf gs ms ks fin more ents h us h',
  heap_ok hp -> Forall is_byte buf -> len buf < 2 ^ 30 -> (4 | len buf) ->
  concat gs = ms ++ fin :: more -> Forall (fun g => g <> [] /\ len (concat g) <= len buf) gs ->
  Forall (link_message seq portid) ms -> Forall2 listed ms ks ->
  (dump_done seq portid fin \/ dump_interrupted seq portid fin) -> Forall well_formed (fin :: more) ->
  announced o dir ents h us h' -> Forall entry_ok ents ->
  exists r e h2, ipc_list_devices hp o dir (KDump seq portid errno buf (map (fun g => Dgram (concat g)) gs)) (inl ents) h = Some (r, e, h2)
    /\ ((exists block, r = Some block /\ e = 0 /\ h2 = h' /\ names_of block = concat ks ++ us) \/ (r = None /\ e = ENOMEM)).
Proof.
  intros hp o dir seq portid errno buf gs ms ks fin more ents h us h' Hh Hb Hl H4 Ec Hgs Hms Hks Hfin Hwf Han Hents.
  assert (Ek : ks = map names_in ms).
  { clear - Hks. induction Hks as [|m k ms ks Hk Hks IH]; [reflexivity|]. cbn [map]. rewrite IH. f_equal. eapply listed_fun; [exact Hk|apply names_in_listed]. }
  assert (Hokl : Forall okl (fin :: more)).
  { eapply Forall_impl; [|exact Hwf]. intros m (Hm & Hi) Ht. destruct (msg_fields m Hm) as (Et & _ & _ & _ & El). rewrite Et in Ht. rewrite El. apply Hi, Ht. }
  assert (Hmm : Forall message more).
  { inversion Hwf as [|x y _ Hw]; subst. eapply Forall_impl; [|exact Hw]. intros m Hm. apply Hm. }
  unfold ipc_list_devices, kernel_get_interfaces.
  destruct (list_links hp seq portid Hh gs ms fin more Hms Hfin Hokl Hmm Ec) with (buf := buf) (e := errno) (l := slist0) (names := @nil (list Z)) as (r & l' & -> & Hr); try assumption.
  { eapply Forall_impl; [|exact Hgs]. intros g Hg. apply Hg. }
  { apply holds0. }
  { eapply Forall_impl; [|exact Hgs]. intros g Hg. apply Hg. }
  destruct Hr as [[-> Hr]| ->].
  - cbn [Z.ltb Z.compare]. cbn [userspace_get_interfaces].
    destruct (entries_holds hp o dir ents h us h' Hh Han Hents l' _ Hr) as (r & l2 & h2 & -> & [(-> & -> & H2)| ->]).
    + cbn [Z.eqb]. eexists _, _, _. split; [reflexivity|]. left. eexists. split; [reflexivity|]. split; [reflexivity|]. split; [reflexivity|].
      rewrite (holds_names l2 _ H2). rewrite Ek. reflexivity.
    + change (- ENOMEM =? 0) with false. cbv iota. eexists _, _, _. split; [reflexivity|]. right. split; reflexivity.
  - change (- ENOMEM <? 0) with true. cbv iota. change (- ENOMEM =? 0) with false. cbv iota. eexists _, _, _. split; [reflexivity|]. right. split; reflexivity.
Qed.

(** A failure to ask the kernel, or to read the directory (other than its absence), is reported as such: no partial list. *)
Theorem C38_errors : forall hp o dir d h e, 0 < e ->
  ipc_list_devices hp o dir (KFail e) d h = Some (None, e, h)
  /\ (forall seq portid errno buf rs, ipc_list_devices hp o dir (KDump seq portid errno buf (RecvErr e :: rs)) d h = Some (None, e, h))
  /\ (forall k l, e <> ENOENT -> kernel_get_interfaces hp k slist0 = Some (0, l) -> ipc_list_devices hp o dir k (inr e) h = Some (None, e, h))
  /\ (forall k l, e = ENOENT -> kernel_get_interfaces hp k slist0 = Some (0, l) -> exists b, ipc_list_devices hp o dir k (inr e) h = Some (Some b, 0, h)).
Proof.
  intros hp o dir d h e He.
  assert (N : (- e <? 0) = true) by (apply Z.ltb_lt; lia). assert (N2 : (- e =? 0) = false) by (apply Z.eqb_neq; lia).
  unfold ipc_list_devices. repeat split.
  - cbn [kernel_get_interfaces]. rewrite N, N2, Z.opp_involutive. reflexivity.
  - intros. cbn [kernel_get_interfaces list_loop snd]. rewrite N, N2, Z.opp_involutive. reflexivity.
  - intros k l Hne ->. cbn [Z.ltb Z.compare userspace_get_interfaces]. apply Z.eqb_neq in Hne. rewrite Hne, N2, Z.opp_involutive. reflexivity.
  - intros k l -> ->. cbn [Z.ltb Z.compare userspace_get_interfaces]. change (ENOENT =? ENOENT) with true. cbv iota. cbn [Z.eqb]. eexists. reflexivity.
Qed.

(** The list is what "wg show interfaces" prints: the names in one line, and nothing when there is none. *)
Theorem C38_show_interfaces : forall E W (ld : W -> option (list Z) * W) B w w1 block a0, ld w = (Some block, w1) ->
  show_main E W ld B [a0; str "interfaces"] w = (Exit 0 (print_names (names_of block)), w1).
Proof. intros E W ld B w w1 block a0 H. unfold show_main. cbn [length Nat.ltb Nat.leb]. change (beq (str "interfaces") (str "all")) with false. rewrite H. reflexivity. Qed.

(** ** C44: sockets *)

(** A path directly in the directory [dir] (which ends in a slash). *)
Definition directly_in (dir p : list Z) : Prop :=
  exists f, p = dir ++ f /\ f <> [] /\ ~ In 47 f /\ f <> str "." /\ f <> str "..".
Definition path_of (ev : event) : option (list Z) :=
  match ev with EvStat p _ | EvConnect p _ | EvUnlink p _ => Some p | _ => None end.
(** Sockets opened and closed. *)
Definition opened (l : list event) : nat := length (filter (fun e => match e with EvSocket None => true | _ => false end) l).
Definition closed (l : list event) : nat := length (filter (fun e => match e with EvClose => true | _ => false end) l).

Lemma sock_path_in : forall dir iface, len dir <= 100 -> ~ In 47 iface -> directly_in dir (sock_path dir iface).
Proof.
  intros dir iface Hd Hi. unfold sock_path. rewrite firstn_app. unfold len in Hd. rewrite firstn_all2 by lia.
  set (n := (107 - length dir)%nat). assert (Hn : (7 <= n)%nat) by lia. exists (firstn n (iface ++ SOCK_SUFFIX)). split; [reflexivity|].
  assert (L : (5 <= length (firstn n (iface ++ SOCK_SUFFIX)))%nat).
  { rewrite firstn_length, app_length. change (length SOCK_SUFFIX) with 5%nat. lia. }
  split; [intro H; rewrite H in L; cbn in L; lia|]. split.
  - intro H. apply in_firstn, in_app_or in H as [H|H]; [exact (Hi H)|]. vm_compute in H. intuition discriminate.
  - split; intro H; rewrite H in L; cbn in L; lia.
Qed.

Lemma has_slash_spec : forall s, has_slash s = true <-> In 47 s.
Proof.
  intro s. unfold has_slash. rewrite existsb_exists. split.
  - intros (x & H & E). apply Z.eqb_eq in E. subst. exact H.
  - intro H. exists 47. split; [exact H|reflexivity].
Qed.

(** Whatever the interface is called and however the system answers: all paths used lie directly in the runtime directory and belong to that
    interface; nothing is removed but a socket which has just refused a connection; no descriptor is leaked: a socket stays open only
    when it is handed to the caller. *)
Theorem C44_socket_files : forall o dir iface h, len dir <= 100 ->
  (forall r h', interface_file o dir iface h = (r, h') ->
     exists new, h' = h ++ new
       /\ (In 47 iface -> new = [] /\ r = inr EINVAL)
       /\ Forall (fun ev => forall p, path_of ev = Some p -> p = sock_path dir iface /\ directly_in dir p) new
       /\ (forall p u, In (EvUnlink p u) new -> In (EvStat p IsSocket) new /\ In (EvConnect p (Some ECONNREFUSED)) new)
       /\ opened new = (closed new + match r with inl _ => 1 | inr _ => 0 end)%nat)
  /\ (forall b h', has_interface o dir iface h = (b, h') ->
     exists new, h' = h ++ new
       /\ (In 47 iface -> new = [] /\ b = false)
       /\ Forall (fun ev => forall p, path_of ev = Some p -> p = sock_path dir iface /\ directly_in dir p) new
       /\ (forall p u, In (EvUnlink p u) new -> In (EvStat p IsSocket) new /\ In (EvConnect p (Some ECONNREFUSED)) new /\ b = false)
       /\ opened new = closed new).
Proof.
  intros o dir iface h Hd.
  assert (Hp : ~ In 47 iface -> directly_in dir (sock_path dir iface)) by (apply sock_path_in; exact Hd).
  assert (Fin : forall new, ~ In 47 iface -> Forall (fun ev => forall p, path_of ev = Some p -> p = sock_path dir iface) new ->
     Forall (fun ev => forall p, path_of ev = Some p -> p = sock_path dir iface /\ directly_in dir p) new).
  { intros new Hi H. eapply Forall_impl; [|exact H]. intros ev Hev p E. specialize (Hev p E). split; [exact Hev|]. subst p. apply Hp, Hi. }
  split.
  - intros r h' E. unfold interface_file in E. destruct (has_slash iface) eqn:Es.
    { injection E as <- <-. exists []. rewrite app_nil_r. apply has_slash_spec in Es. repeat split; try constructor. all: intros; contradiction. }
    assert (Hi : ~ In 47 iface) by (intro H; apply has_slash_spec in H; congruence).
    cbv zeta in E. set (p := sock_path dir iface) in *.
    assert (EvOk : forall new r0, r = r0 -> h' = h ++ new -> Forall (fun ev => forall q, path_of ev = Some q -> q = p) new ->
      (forall q u, In (EvUnlink q u) new -> In (EvStat q IsSocket) new /\ In (EvConnect q (Some ECONNREFUSED)) new) ->
      opened new = (closed new + match r0 with inl _ => 1 | inr _ => 0 end)%nat ->
      exists new, h' = h ++ new
       /\ (In 47 iface -> new = [] /\ r = inr EINVAL)
       /\ Forall (fun ev => forall q, path_of ev = Some q -> q = p /\ directly_in dir q) new
       /\ (forall q u, In (EvUnlink q u) new -> In (EvStat q IsSocket) new /\ In (EvConnect q (Some ECONNREFUSED)) new)
       /\ opened new = (closed new + match r with inl _ => 1 | inr _ => 0 end)%nat).
    { intros new r0 -> -> H1 H2 H3. exists new. split; [reflexivity|]. split; [intro; contradiction|]. split; [apply Fin; assumption|]. split; assumption. }
    destruct (os_stat o h p) as [e| |].
    { injection E as <- <-. eapply EvOk; [reflexivity|reflexivity| | |reflexivity].
      - repeat constructor. cbn [path_of]. intros q Eq. congruence.
      - intros q u [H|[]]. discriminate. }
    2: { injection E as <- <-. eapply EvOk; [reflexivity|reflexivity| | |reflexivity].
      - repeat constructor. cbn [path_of]. intros q Eq. congruence.
      - intros q u [H|[]]. discriminate. }
    set (h1 := h ++ [EvStat p IsSocket]) in *. destruct (os_socket o h1) as [e|].
    { injection E as <- <-. eapply (EvOk [EvStat p IsSocket; EvSocket (Some e)]); [reflexivity| | | |reflexivity].
      - unfold h1. rewrite <- !app_assoc. reflexivity.
      - repeat constructor; cbn [path_of]; intros q Eq; congruence.
      - intros q u [H|[H|[]]]; discriminate. }
    set (h2 := h1 ++ [EvSocket None]) in *. destruct (os_connect o h2 p) as [e|].
    + destruct (Z.eqb_spec e ECONNREFUSED) as [He|Hne].
      * rewrite He in E. set (h3 := h2 ++ [EvConnect p (Some ECONNREFUSED)]) in *. injection E as <- <-.
        eapply (EvOk [EvStat p IsSocket; EvSocket None; EvConnect p (Some ECONNREFUSED); EvUnlink p (os_unlink o h3 p); EvClose]); [reflexivity| | | |reflexivity].
        -- unfold h3, h2, h1. rewrite <- !app_assoc. reflexivity.
        -- repeat constructor; cbn [path_of]; intros q Eq; congruence.
        -- intros q u [H|[H|[H|[H|[H|[]]]]]]; try discriminate. injection H as <- _. split; cbn [In]; auto.
      * injection E as <- <-. eapply (EvOk [EvStat p IsSocket; EvSocket None; EvConnect p (Some e); EvClose]); [reflexivity| | | |reflexivity].
        -- unfold h2, h1. rewrite <- !app_assoc. reflexivity.
        -- repeat constructor; cbn [path_of]; intros q Eq; congruence.
        -- intros q u [H|[H|[H|[H|[]]]]]; discriminate.
    + set (h3 := h2 ++ [EvConnect p None]) in *. destruct (os_fdopen o h3) as [e|]; injection E as <- <-.
      * eapply (EvOk [EvStat p IsSocket; EvSocket None; EvConnect p None; EvFdopen (Some e); EvClose]); [reflexivity| | | |reflexivity].
        -- unfold h3, h2, h1. rewrite <- !app_assoc. reflexivity.
        -- repeat constructor; cbn [path_of]; intros q Eq; congruence.
        -- intros q u [H|[H|[H|[H|[H|[]]]]]]; discriminate.
      * eapply (EvOk [EvStat p IsSocket; EvSocket None; EvConnect p None; EvFdopen None]); [reflexivity| | | |reflexivity].
        -- unfold h3, h2, h1. rewrite <- !app_assoc. reflexivity.
        -- repeat constructor; cbn [path_of]; intros q Eq; congruence.
        -- intros q u [H|[H|[H|[H|[]]]]]; discriminate.
  - intros r h' E. unfold has_interface in E. destruct (has_slash iface) eqn:Es.
    { injection E as <- <-. exists []. rewrite app_nil_r. apply has_slash_spec in Es. repeat split; try constructor. all: intros; contradiction. }
    assert (Hi : ~ In 47 iface) by (intro H; apply has_slash_spec in H; congruence).
    cbv zeta in E. set (p := sock_path dir iface) in *.
    assert (EvOk : forall new r0, r = r0 -> h' = h ++ new -> Forall (fun ev => forall q, path_of ev = Some q -> q = p) new ->
      (forall q u, In (EvUnlink q u) new -> In (EvStat q IsSocket) new /\ In (EvConnect q (Some ECONNREFUSED)) new /\ r0 = false) ->
      opened new = closed new ->
      exists new, h' = h ++ new
       /\ (In 47 iface -> new = [] /\ r = false)
       /\ Forall (fun ev => forall q, path_of ev = Some q -> q = p /\ directly_in dir q) new
       /\ (forall q u, In (EvUnlink q u) new -> In (EvStat q IsSocket) new /\ In (EvConnect q (Some ECONNREFUSED)) new /\ r = false)
       /\ opened new = closed new).
    { intros new r0 -> -> H1 H2 H3. exists new. split; [reflexivity|]. split; [intro; contradiction|]. split; [apply Fin; assumption|]. split; assumption. }
    destruct (os_stat o h p) as [e| |].
    { injection E as <- <-. eapply EvOk; [reflexivity|reflexivity| | |reflexivity].
      - repeat constructor. cbn [path_of]. intros q Eq. congruence.
      - intros q u [H|[]]. discriminate. }
    2: { injection E as <- <-. eapply EvOk; [reflexivity|reflexivity| | |reflexivity].
      - repeat constructor. cbn [path_of]. intros q Eq. congruence.
      - intros q u [H|[]]. discriminate. }
    set (h1 := h ++ [EvStat p IsSocket]) in *. destruct (os_socket o h1) as [e|].
    { injection E as <- <-. eapply (EvOk [EvStat p IsSocket; EvSocket (Some e)]); [reflexivity| | | |reflexivity].
      - unfold h1. rewrite <- !app_assoc. reflexivity.
      - repeat constructor; cbn [path_of]; intros q Eq; congruence.
      - intros q u [H|[H|[]]]; discriminate. }
    set (h2 := h1 ++ [EvSocket None]) in *. destruct (os_connect o h2 p) as [e|].
    + destruct (Z.eqb_spec e ECONNREFUSED) as [He|Hne].
      * rewrite He in E. injection E as <- <-.
        eapply (EvOk [EvStat p IsSocket; EvSocket None; EvConnect p (Some ECONNREFUSED); EvClose; EvUnlink p _]); [reflexivity| | | |reflexivity].
        -- unfold h2, h1. rewrite <- !app_assoc. reflexivity.
        -- repeat constructor; cbn [path_of]; intros q Eq; congruence.
        -- intros q u [H|[H|[H|[H|[H|[]]]]]]; try discriminate. injection H as <- _. split; [|split]; cbn [In]; auto.
      * injection E as <- <-. eapply (EvOk [EvStat p IsSocket; EvSocket None; EvConnect p (Some e); EvClose]); [reflexivity| | | |reflexivity].
        -- unfold h2, h1. rewrite <- !app_assoc. reflexivity.
        -- repeat constructor; cbn [path_of]; intros q Eq; congruence.
        -- intros q u [H|[H|[H|[H|[]]]]]; discriminate.
    + injection E as <- <-. eapply (EvOk [EvStat p IsSocket; EvSocket None; EvConnect p None; EvClose]); [reflexivity| | | |reflexivity].
      -- unfold h2, h1. rewrite <- !app_assoc. reflexivity.
      -- repeat constructor; cbn [path_of]; intros q Eq; congruence.
      -- intros q u [H|[H|[H|[H|[]]]]]; discriminate.
Qed.

(** When an interface counts as a userspace one: its socket exists and does not refuse connections. *)
Theorem C44_dispatch : forall o dir iface h, ~ In 47 iface ->
  fst (has_interface o dir iface h) = true <->
  exists s c, os_stat o h (sock_path dir iface) = IsSocket
    /\ s = [EvStat (sock_path dir iface) IsSocket] /\ os_socket o (h ++ s) = None
    /\ c = s ++ [EvSocket None] /\ os_connect o (h ++ c) (sock_path dir iface) <> Some ECONNREFUSED.
Proof.
  intros o dir iface h Hi. unfold has_interface. replace (has_slash iface) with false.
  2: { symmetry. destruct (has_slash iface) eqn:E; [apply has_slash_spec in E; contradiction|reflexivity]. }
  cbv zeta. set (p := sock_path dir iface). split.
  - destruct (os_stat o h p) as [e| |] eqn:E1; try discriminate. destruct (os_socket o (h ++ [EvStat p IsSocket])) as [e|] eqn:E2; [discriminate|].
    intro H. exists [EvStat p IsSocket], [EvStat p IsSocket; EvSocket None]. repeat split; try assumption.
    rewrite <- app_assoc in H. cbn [app] in H. intro E3. rewrite E3 in H. cbn in H. discriminate.
  - intros (s & c & E1 & -> & E2 & -> & E3). rewrite E1, E2. rewrite <- app_assoc. cbn [app] in *.
    destruct (os_connect o (h ++ [EvStat p IsSocket; EvSocket None]) p) as [e|]; [|reflexivity].
    destruct (Z.eqb_spec e ECONNREFUSED) as [->|]; [congruence|reflexivity].
Qed.

(** Reading and changing an interface goes to the userspace implementation exactly then, and to the kernel otherwise. *)
Definition answers (o : os) (dir iface : list Z) (h : list event) : Prop :=
  let p := sock_path dir iface in
  os_stat o h p = IsSocket /\ os_socket o (h ++ [EvStat p IsSocket]) = None /\ os_connect o (h ++ [EvStat p IsSocket; EvSocket None]) p <> Some ECONNREFUSED.
Theorem C44_served : forall R o dir iface h (userspace kernel : list event -> R), exists h1,
  (~ In 47 iface /\ answers o dir iface h -> dispatch o dir iface h userspace kernel = userspace h1)
  /\ (In 47 iface \/ ~ answers o dir iface h -> dispatch o dir iface h userspace kernel = kernel h1).
Proof.
  intros R o dir iface h U K. exists (snd (has_interface o dir iface h)). unfold dispatch.
  destruct (has_interface o dir iface h) as [yes h1] eqn:E. cbn [snd].
  assert (S : In 47 iface -> yes = false).
  { intro Hi. unfold has_interface in E. replace (has_slash iface) with true in E by (symmetry; apply has_slash_spec; exact Hi). injection E as <- _. reflexivity. }
  assert (A : ~ In 47 iface -> (yes = true <-> answers o dir iface h)).
  { intro Hi. pose proof (C44_dispatch o dir iface h Hi) as D. rewrite E in D. cbn [fst] in D. rewrite D. unfold answers. cbv zeta. split.
    - intros (s & c & E1 & -> & E2 & -> & E3). rewrite <- ?app_assoc in *. cbn [app] in *. auto.
    - intros (E1 & E2 & E3). exists [EvStat (sock_path dir iface) IsSocket], [EvStat (sock_path dir iface) IsSocket; EvSocket None]. auto 6. }
  split.
  - intros [Hi Ha]. apply A in Ha; [|exact Hi]. rewrite Ha. reflexivity.
  - intros H. destruct yes; [|reflexivity]. exfalso. destruct H as [Hi|Hn]; [discriminate (S Hi)|].
    apply Hn, A; [|reflexivity]. intro Hi. discriminate (S Hi).
Qed.

(** Not every pair of names has sockets of its own: beyond 107 bytes of path the rest of the name, and the suffix, are dropped. *)
Theorem C44_long_names_share_a_socket_refuted : exists dir a b, dir = str "/var/run/wireguard/" /\ a <> b /\ ~ In 47 a /\ ~ In 47 b /\ sock_path dir a = sock_path dir b.
Proof.
  exists (str "/var/run/wireguard/"), (repeat 97 88 ++ str "b"), (repeat 97 88 ++ str "c"). repeat split.
  - vm_compute. discriminate.
  - vm_compute. intuition discriminate.
  - vm_compute. intuition discriminate.
Qed.
(** Up to 83 bytes they are different. *)
Theorem C44_distinct_sockets : forall dir a b, len dir + len a <= 102 -> len dir + len b <= 102 -> sock_path dir a = sock_path dir b -> a = b.
Proof.
  intros dir a b Ha Hb H. unfold sock_path in H. unfold len in *. rewrite !firstn_all2 in H by (rewrite !app_length; change (length SOCK_SUFFIX) with 5%nat; lia).
  apply app_inv_head, app_inv_tail in H. exact H.
Qed.

(** * A concrete listing: two WireGuard links and an ordinary one in two datagrams, the end of the dump; a directory with a live socket, a dead
    one and another file. *)
Definition xlink (kind : string) (name : string) : list Z :=
  xmsg 16 2 5 (repeat 0 16 ++ enc 3 (str name ++ [0]) ++ enc 4 (le 4 1500) ++ enc 18 (enc 1 (str kind ++ [0]))).
Definition l1 : list Z := xlink "wireguard" "wg0".
Definition l2 : list Z := xlink "bridge" "br0".
Definition l3 : list Z := xlink "wireguard" "a-long-name-15".
Definition ldone : list Z := xmsg 3 2 5 (le 4 0).
Definition ldir : list Z := str "/var/run/wireguard/".
Definition los : os := mk_os (fun _ p => if beq p (str "/var/run/wireguard/file.sock") then IsOther else IsSocket) (fun _ => None)
  (fun _ p => if beq p (str "/var/run/wireguard/dead.sock") then Some ECONNREFUSED else None) (fun _ _ => None) (fun _ => None).
Definition lents : list (list Z) := [str "."; str ".."; str "dead.sock"; str "file.sock"; str "tun7.sock"; str ".sock"].
Definition lheap : heap := fun l n => if n <? 2 ^ 63 then Some (fun i => i mod 251) else None.

Lemma link_ok : forall m, answer 5 77 m -> 16 <= msg_type m -> 32 <= len m ->
  forallb (fun a => (negb (fst a =? 3) || existsb (Z.eqb 0) (snd a)) && (negb (fst a =? 18) || forallb (fun k => negb (fst k =? 1) || existsb (Z.eqb 0) (snd k)) (attrs (snd a)))) (link_attrs m) = true ->
  link_message 5 77 m.
Proof.
  intros m H1 H2 H3 H4. repeat split; try assumption; try apply H1. unfold strings_end. rewrite forallb_forall in H4. apply Forall_forall. intros a Ha.
  apply H4 in Ha. apply andb_true_iff in Ha as [Ha1 Ha2]. split; intro E; rewrite E in *; cbn [Z.eqb Pos.eqb negb orb] in *.
  - apply existsb_exists in Ha1 as (x & Hx & Ex). apply Z.eqb_eq in Ex. subst x. exact Hx.
  - rewrite forallb_forall in Ha2. apply Forall_forall. intros k Hk Ek. apply Ha2 in Hk. rewrite Ek in Hk. cbn [Z.eqb Pos.eqb negb orb] in Hk.
    apply existsb_exists in Hk as (x & Hx & Ex). apply Z.eqb_eq in Ex. subst x. exact Hx.
Qed.
Ltac ans m := split; [split; [bytes|split; [split; vm_compute; congruence|split; [exists (len m / 4); vm_compute; reflexivity|vm_compute; reflexivity]]]|
  split; [left; vm_compute; reflexivity|split; [left; vm_compute; reflexivity|vm_compute; reflexivity]]].
Example C38_example_hypotheses :
  heap_ok lheap /\ Forall (link_message 5 77) [l1; l2; l3] /\ Forall2 listed [l1; l2; l3] [[str "wg0"]; []; [str "a-long-name-15"]]
  /\ dump_done 5 77 ldone /\ Forall well_formed [ldone] /\ Forall entry_ok lents
  /\ exists h', announced los ldir lents [] [str "tun7"] h'.
Proof.
  split; [|split; [|split; [|split; [|split; [|split]]]]].
  - intros l n junk H. unfold lheap in H. destruct (Z.ltb_spec n (2 ^ 63)); [assumption|discriminate].
  - apply Forall_cons; [|apply Forall_cons; [|apply Forall_cons; [|constructor]]]; (apply link_ok; [|vm_compute; congruence|vm_compute; congruence|vm_compute; reflexivity]).
    + ans l1.
    + ans l2.
    + ans l3.
  - apply Forall2_cons; [|apply Forall2_cons; [|apply Forall2_cons; [|constructor]]].
    + replace [str "wg0"] with (names_in l1) by (vm_compute; reflexivity). apply names_in_listed.
    + replace (@nil (list Z)) with (names_in l2) by (vm_compute; reflexivity). apply names_in_listed.
    + replace [str "a-long-name-15"] with (names_in l3) by (vm_compute; reflexivity). apply names_in_listed.
  - split; [ans ldone|vm_compute; reflexivity].
  - apply Forall_cons; [|constructor]. split; [split; [bytes|split; [split; vm_compute; congruence|split; [exists 5; vm_compute; reflexivity|vm_compute; reflexivity]]]|].
    intro H. vm_compute in H. congruence.
  - repeat (apply Forall_cons; [split; [vm_compute; intuition discriminate|vm_compute; reflexivity]|]). constructor.
  - unfold lents. eexists.
    apply an_other. { intros n Hn E. apply (f_equal (@length Z)) in E. rewrite app_length in E. change (length (str ".sock")) with 5%nat in E. change (length (str ".")) with 1%nat in E. lia. }
    apply an_other. { intros n Hn E. apply (f_equal (@length Z)) in E. rewrite app_length in E. change (length (str ".sock")) with 5%nat in E. change (length (str "..")) with 2%nat in E. lia. }
    eapply (an_dead los ldir (str "dead")); [discriminate|vm_compute; reflexivity|].
    eapply (an_dead los ldir (str "file")); [discriminate|vm_compute; reflexivity|].
    eapply (an_live los ldir (str "tun7")); [discriminate|vm_compute; reflexivity|].
    apply an_other. { intros n Hn E. apply (f_equal (@length Z)) in E. rewrite app_length in E. change (length (str ".sock")) with 5%nat in E. destruct n; [congruence|]. cbn [length] in E. lia. }
    constructor.
Qed.
Example C38_example_run :
  match ipc_list_devices lheap los ldir (KDump 5 77 0 (repeat 7 1024) [Dgram (l1 ++ l2); Dgram (l3 ++ ldone)]) (inl lents) [] with
  | Some (Some b, e, _) => names_of b = [str "wg0"; str "a-long-name-15"; str "tun7"] /\ e = 0
  | _ => False
  end.
Proof. vm_compute. split; reflexivity. Qed.
