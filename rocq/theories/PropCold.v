(** C55: reading and updating an interface from the first system call on. *)
From Coq Require Import ZArith List Bool Lia.
From Verif Require Import Base Types Encoding NlSpec NlGetSpec KernelSpec Nl NlSet NlGet NlProofs NlSetProofs NlSetProofs2 NlSetProofs3 NlSetProofs4 NlGetProofs NlRun NlGetProofs2 NlGetProofs3 NlOpen NlOpenSpec NlOpenProofs
  PropNetlink PropNetlinkGet PropOpen NlCold.
Import ListNotations.
Open Scope Z_scope.

(** The request to read an interface: sent to the family [id], REQUEST | ACK | DUMP, command 0 in version 1, the interface's name with its NUL. *)
Definition read_interface_request (id seq : Z) (iface m : list Z) : Prop :=
  Forall is_byte m /\ le_val (firstn 4 m) = len m /\ msg_type m = id /\ msg_flags m = 773 /\ msg_seq m = seq /\ msg_port m = 0
  /\ firstn 4 (skipn 16 m) = [0; 1; 0; 0] /\ attrs (skipn 20 m) = [(2, iface ++ [0])].

Definition pass_ok (p : pass) : Prop :=
  errno_pos (ps_os p) /\ forall m, match ps_peer p m with inl e => 0 < e | inr rs => Forall (fun r => match r with RecvErr e => 0 < e | _ => True end) rs end.

Lemma held_app : forall a b h h', held a h = Some h' -> held (a ++ b) h = held b h'.
Proof.
  induction a as [|e a IH]; intros b h h' H; [injection H as <-; reflexivity|]. cbn [app held] in *. destruct e as [r|r|fd|fd m].
  - apply IH, H.
  - destruct (drop r h); [apply IH, H|discriminate].
  - destruct (existsb (same (RFd fd)) h); [apply IH, H|discriminate].
  - destruct (existsb (same (RFd fd)) h); [apply IH, H|discriminate].
Qed.
Lemma held_handle : forall fd l x, held l [] = Some [RFd fd; RSock; RBuf; RHandle] ->
  held (l ++ [EUse fd] ++ x) [] = held (l ++ x) [] /\ (forall m, held (l ++ [ESent fd m; EUse fd] ++ x) [] = held (l ++ x) []).
Proof.
  intros fd l x H. rewrite !(held_app _ _ _ _ H). split; [|intro m; rewrite (held_app _ _ _ _ H)]; cbn; rewrite !Z.eqb_refl; reflexivity.
Qed.

(** However a read ends: every socket opened on the way was closed once and all that belongs to it freed once; the result is 0 exactly when a device is
    handed out, and that is the only one allocated. *)
Theorem C55_get_nothing_leaks : forall cmax iface ps ret od live log, Forall pass_ok ps -> cold_get cmax iface ps = Some (ret, od, live, log) ->
  held log [] = Some [] /\ live = (match od with Some _ => 1 | None => 0 end) /\ (ret = 0 <-> od <> None).
Proof.
  intros cmax iface ps ret od live log Hps H. unfold cold_get in H. destruct (16 <=? len iface).
  { injection H as <- <- <- <-. repeat split; try congruence; discriminate. }
  assert (G : forall ps live0 log0, Forall pass_ok ps -> live0 = 0 -> held log0 [] = Some [] -> cold_get_loop cmax iface ps live0 log0 = Some (ret, od, live, log) ->
    held log [] = Some [] /\ live = (match od with Some _ => 1 | None => 0 end) /\ (ret = 0 <-> od <> None)).
  2: { exact (G ps 0 [] Hps eq_refl eq_refl H). }
  clear. induction ps as [|p ps IH]; intros live0 log0 Hps Hl0 Hh H; [discriminate|]. inversion Hps as [|? ? (P1 & P2) Hps']; subst. cbn [cold_get_loop] in H.
  destruct (ps_calloc p); cbn [negb] in H.
  2: { injection H as <- <- <- <-. repeat split; try congruence; try discriminate. }
  destruct (mnlg_socket_open cmax (ps_os p) WG_GENL_NAME 1) as [[[[h|] errno] l]|] eqn:Eo; [| |discriminate]; pose proof (C54_nothing_leaks _ _ _ _ _ _ _ P1 Eo) as O; cbn beta iota in O.
  2: { destruct O as [O1 O2]. injection H as <- <- <- <-. rewrite (held_app _ _ _ _ Hh). repeat split; try congruence; try lia. }
  destruct O as (_ & _ & O2 & O3). destruct (get_msg h (u32 (ps_now p)) iface) as [msg|]; [|discriminate].
  assert (C : forall x, held ((log0 ++ l ++ x) ++ mnlg_socket_close h) [] = held ((l ++ x) ++ mnlg_socket_close h) []).
  { intro x. rewrite <- app_assoc. apply (held_app _ _ _ _ Hh). }
  destruct (held_handle (h_fd h) l (mnlg_socket_close h) O2) as [K1 K2].
  specialize (P2 msg). destruct (ps_peer p msg) as [e|rs].
  - assert (N : held ((log0 ++ l) ++ [EUse (h_fd h)] ++ mnlg_socket_close h) [] = Some []).
    { rewrite <- app_assoc. rewrite (held_app _ _ _ _ Hh). rewrite K1. exact O3. }
    rewrite app_assoc in N. destruct (Z.eqb_spec (- e) 0); [lia|]. destruct (- e =? - EINTR).
    + apply (IH _ _ Hps') in H; [exact H|lia|exact N].
    + injection H as <- <- <- <-. split; [exact N|]. repeat split; try congruence; try lia.
  - assert (N : held (((log0 ++ l) ++ [ESent (h_fd h) msg; EUse (h_fd h)]) ++ mnlg_socket_close h) [] = Some []).
    { rewrite <- !app_assoc. rewrite (held_app _ _ _ _ Hh). rewrite K2. exact O3. }
    match type of H with match (match ?x with Some _ => _ | None => None end) with Some _ => _ | None => _ end = _ => destruct x as [[[[r [e d]] b'] rs']|]; [|discriminate] end.
    destruct (r <? 0).
    + set (x := if e =? 0 then - EINVAL else - e) in *.
      destruct (Z.eqb_spec x 0) as [Ex|Ex].
      { exfalso. unfold x, EINVAL in Ex. destruct (Z.eqb_spec e 0); lia. }
      destruct (x =? - EINTR).
      * apply (IH _ _ Hps') in H; [exact H|lia|exact N].
      * injection H as <- <- <- <-. split; [exact N|]. repeat split; try congruence; try lia.
    + destruct (coalesce_peers (d_peers d)); [|discriminate]. cbn [Z.eqb] in H. injection H as <- <- <- <-. split; [exact N|]. repeat split; congruence.
Qed.

(** A pass seen as an attempt of C22 and C23. *)
Definition acts_as (cmax : Z) (iface : list Z) (p : pass) (a : attempt) : Prop :=
  ps_calloc p = true /\
  match mnlg_socket_open cmax (ps_os p) WG_GENL_NAME 1 with
  | None => False
  | Some (None, e, _) => a = OpenFails e
  | Some (Some h, _, _) =>
      exists msg, get_msg h (u32 (ps_now p)) iface = Some msg /\
      match ps_peer p msg with
      | inl e => a = SendFails e
      | inr rs => a = Replies (u32 (ps_now p)) (h_portid h) (overwrite (h_buf h) msg) (h_queue h ++ rs)
      end
  end.
(** The result is that of the attempts: everything C22 and C23 say about them holds of the whole call. *)
Theorem C55_get_is_its_attempts : forall cmax iface ps atts, Forall2 (acts_as cmax iface) ps atts ->
  match cold_get cmax iface ps, kernel_get_device iface atts with
  | Some (ret, od, live, _), Some (ret', od', live', _) => ret = ret' /\ od = od' /\ live = live'
  | None, None => True
  | _, _ => False
  end.
Proof.
  intros cmax iface ps atts H. unfold cold_get, kernel_get_device. destruct (16 <=? len iface); [auto|].
  assert (G : forall live s log, match cold_get_loop cmax iface ps live log, get_loop atts live s with
    | Some (ret, od, live, _), Some (ret', od', live', _) => ret = ret' /\ od = od' /\ live = live'
    | None, None => True
    | _, _ => False
    end); [|apply G].
  induction H as [|p a ps atts (Hc & Ha) H IH]; intros live s log; [exact I|]. cbn [cold_get_loop get_loop]. rewrite Hc. cbn [negb].
  destruct (mnlg_socket_open cmax (ps_os p) WG_GENL_NAME 1) as [[[[h|] e] l]|]; [|subst a; auto|contradiction].
  destruct Ha as (msg & -> & Ha). destruct (ps_peer p msg) as [e1|rs]; subst a.
  - destruct (- e1 =? 0); [auto|]. destruct (- e1 =? - EINTR); [apply IH|auto].
  - destruct (recv_run _ _ _ _ (h_queue h ++ rs) (0, device0)) as [[[[r [e1 d]] b'] rs']|]; [|exact I].
    destruct (r <? 0).
    + destruct ((if e1 =? 0 then - EINVAL else - e1) =? 0); [auto|]. destruct ((if e1 =? 0 then - EINVAL else - e1) =? - EINTR); [apply IH|auto].
    + destruct (coalesce_peers (d_peers d)); [|exact I]. cbn [Z.eqb]. auto.
Qed.

(** The request is built, is what it should be, and fits. *)
Lemma get_msg_built : forall h seq iface, h_version h = 1 -> 0 <= h_id h < 65536 -> 0 <= seq < 2 ^ 32 -> Forall is_byte iface ->
  len (h_buf h) <= 8192 -> up4 (len iface + 1) + 24 <= len (h_buf h) ->
  exists m, get_msg h seq iface = Some m /\ read_interface_request (h_id h) seq iface m /\ len m <= len (h_buf h).
Proof.
  intros h seq name Hv Hid Hs Hn HB Hfit. unfold get_msg. set (B := len (h_buf h)) in *. clearbody B. rewrite Hv. generalize (h_id h) Hid. clear h Hv Hid. intros id Hid.
  pose proof (up4_range (len name + 1)). pose proof (len_nonneg name).
  rewrite msg_prepare_ok by lia. set (h := le 4 20 ++ le 2 id ++ le 2 773 ++ le 4 seq ++ le 4 0 ++ [0; 1; 0; 0]).
  assert (Lh : len h = 20) by (unfold h; autorewrite with len; reflexivity).
  rewrite attr_put_strz_ok by lia. set (x := enc 2 (name ++ [0])).
  assert (Lx : len x = 4 + up4 (len name + 1)) by (unfold x; rewrite len_enc; autorewrite with len; reflexivity).
  assert (Ef : finish (h ++ x) = le 4 (20 + len x) ++ le 2 id ++ le 2 773 ++ le 4 seq ++ le 4 0 ++ [0; 1; 0; 0] ++ x).
  { unfold finish. rewrite len_app, Lh. unfold h. rewrite <- !app_assoc. reflexivity. }
  rewrite Ef. eexists. split; [reflexivity|].
  assert (Lf : len (le 4 (20 + len x) ++ le 2 id ++ le 2 773 ++ le 4 seq ++ le 4 0 ++ [0; 1; 0; 0] ++ x) = 20 + len x) by (autorewrite with len; lia).
  split; [|rewrite Lf; lia]. unfold read_interface_request. rewrite Lf. repeat apply conj.
  - repeat (apply Forall_app; split); try apply le_bytes; try exact Hn; try (repeat constructor; lia).
    apply Forall_forall. intros y Hy. apply repeat_spec in Hy. subst. unfold is_byte. lia.
  - change 4%nat with (length (le 4 (20 + len x))) at 1. rewrite firstn_app_exact. apply le_val_le_id. change (256 ^ Z.of_nat 4) with 4294967296. lia.
  - unfold msg_type. change (le_val (le 2 id) = id). apply le_val_le_id. exact Hid.
  - reflexivity.
  - unfold msg_seq. change (le_val (le 4 seq) = seq). apply le_val_le_id. exact Hs.
  - reflexivity.
  - reflexivity.
  - change (attrs x = [(2, name ++ [0])]). unfold x. rewrite attrs_enc1 by (autorewrite with len; lia). reflexivity.
Qed.

(** The system lets the program open its socket, and the kernel, asked for "wireguard", says that its number is [id]. *)
Definition wireguard_is (cmax : Z) (o : os) (fd portid : Z) (buf : list Z) (id : Z) : Prop :=
  opens o fd portid buf /\ buffer_fits buf WG_GENL_NAME /\ 272 <= len buf
  /\ exists gs ans okm, kernel_says o WG_GENL_NAME buf gs [] /\ concat gs = [ans; okm]
       /\ family_answer cmax (os_now o mod 2 ^ 32) portid id ans /\ verdict_message (os_now o mod 2 ^ 32) portid 0 okm.

Lemma wireguard_name_bytes : Forall is_byte WG_GENL_NAME.
Proof. unfold WG_GENL_NAME. repeat (apply Forall_cons; [unfold is_byte; lia|]). apply Forall_nil. Qed.

Lemma wireguard_opens : forall cmax o fd portid buf id, 1 <= cmax -> wireguard_is cmax o fd portid buf id -> errno_pos o ->
  exists h log m1, mnlg_socket_open cmax o WG_GENL_NAME 1 = Some (Some h, 0, log) /\ h_id h = id /\ h_version h = 1 /\ h_portid h = portid /\ h_fd h = fd
    /\ h_queue h = [] /\ len (h_buf h) = len buf /\ Forall is_byte (h_buf h)
    /\ held log [] = Some [RFd (h_fd h); RSock; RBuf; RHandle] /\ held (log ++ mnlg_socket_close h) [] = Some []
    /\ sends log = [m1] /\ lookup_request (os_now o mod 2 ^ 32) WG_GENL_NAME m1.
Proof.
  intros cmax o fd portid buf id Hc (Ho & Hb & Hl & gs & ans & okm & Hk & Ec & Ha & Hv) He.
  destruct (C54_family_found cmax o WG_GENL_NAME 1 fd portid buf gs ans okm [] [] id Hc Ho Hb wireguard_name_bytes Hk Ec Ha Hv) as (h & log & E & H1 & H2 & H3 & H4 & H5 & H6 & H7).
  pose proof (C54_nothing_leaks _ _ _ _ _ _ _ He E) as (_ & _ & N1 & N2).
  assert (Hs : buffer_small o).
  { unfold buffer_small. destruct Ho as (_ & -> & _). apply Hb. }
  pose proof (C54_one_request _ _ _ _ _ _ _ Hs wireguard_name_bytes E) as R. destruct (sends log) as [|m1 [|]] eqn:Es; [discriminate| |contradiction].
  exists h, log, m1. repeat (split; [first [assumption | (apply H5; reflexivity)]|]). apply R.
Qed.

Lemma sends_app : forall a b, sends (a ++ b) = sends a ++ sends b.
Proof. intros. unfold sends. apply flat_map_app. Qed.

(** Reading an interface, all of it: when the kernel knows the family and answers the request to read the interface (and only that one is assumed to be
    answered so) with a description of [d] in any number of messages and datagrams, the call returns [d]; it has sent two messages: the lookup of the
    family, and the request to read that interface, addressed to the number the lookup gave; and it has closed its socket. *)
Theorem C55_get_end_to_end : forall cmax iface p rest fd portid buf id gs ms qs dn d,
  1 <= cmax -> Forall is_byte iface -> len iface < 16 -> 0 <= id < 65536 ->
  ps_calloc p = true -> errno_pos (ps_os p) -> wireguard_is cmax (ps_os p) fd portid buf id ->
  let seq := ps_now p mod 2 ^ 32 in
  (forall m, read_interface_request id seq iface m -> ps_peer p m = inr (datagrams gs)) ->
  Forall (fun g => g <> [] /\ len (concat g) <= len buf) gs ->
  concat gs = ms ++ [dn] -> Forall2 (data_message seq portid) ms qs -> done_message seq portid dn -> dump_of d qs -> as_read d -> wf_device d ->
  exists m1 m2 log, cold_get cmax iface (p :: rest) = Some (0, Some d, 1, log)
    /\ sends log = [m1; m2] /\ lookup_request (os_now (ps_os p) mod 2 ^ 32) WG_GENL_NAME m1 /\ read_interface_request id seq iface m2
    /\ held log [] = Some [].
Proof.
  intros cmax iface p rest fd portid buf id gs ms qs dn d Hc Hi Hl Hid Hca He Hw seq Hk Hg Ec Hd Hdn Hdo Hr Hwf.
  destruct (wireguard_opens _ _ _ _ _ _ Hc Hw He) as (h & log & m1 & E & H1 & H2 & H3 & H4 & H5 & H6 & H7 & N1 & N2 & S1 & S2).
  destruct Hw as (Ho & (Hb & H4b & Hl8 & Hfit) & Hl2 & _).
  pose proof (up4_range (len iface + 1)) as U. pose proof (len_nonneg iface) as Ln.
  assert (Hq : 0 <= seq < 2 ^ 32) by (apply Z.mod_pos_bound; lia).
  destruct (get_msg_built h seq iface H2 ltac:(rewrite H1; exact Hid) Hq Hi ltac:(rewrite H6; exact Hl8) ltac:(rewrite H6; lia)) as (m2 & G1 & G2 & G3).
  rewrite H1 in G2.
  pose proof (overwrite_len (h_buf h) m2 G3) as LO.
  assert (P : kernel_get_device iface [Replies seq portid (overwrite (h_buf h) m2) (datagrams gs)] = Some (0, Some d, 1, 0)).
  { apply (C22_dump_reassembled iface seq portid _ gs ms qs dn d []); try assumption.
    split; [apply bytes_overwrite; [exact H7|apply G2]|]. rewrite LO, H6. split; [change (2 ^ 30) with 1073741824; lia|]. split; [exact H4b|exact Hg]. }
  exists m1, m2, ((log ++ [ESent (h_fd h) m2; EUse (h_fd h)]) ++ mnlg_socket_close h).
  split; [|split; [|split; [|split]]]; try assumption.
  - unfold cold_get. destruct (Z.leb_spec 16 (len iface)); [lia|]. cbn [cold_get_loop]. rewrite Hca, E. cbn [negb].
    fold seq. change (u32 (ps_now p)) with seq. rewrite G1, (Hk m2 G2), H5, H3. change ([] ++ datagrams gs) with (datagrams gs).
    unfold kernel_get_device in P. destruct (Z.leb_spec 16 (len iface)); [lia|]. cbn [get_loop] in P.
    destruct (recv_run seq portid (Some read_device_cb) (overwrite (h_buf h) m2) (datagrams gs) (0, device0)) as [[[[r [e d1]] b'] rs']|]; [|discriminate].
    destruct (r <? 0) eqn:Er.
    + exfalso. destruct ((if e =? 0 then - EINVAL else - e) =? 0) eqn:Z0; [|destruct (_ =? - EINTR) in P; discriminate].
      apply Z.eqb_eq in Z0. unfold EINVAL in Z0. destruct (Z.eqb_spec e 0); lia.
    + destruct (coalesce_peers (d_peers d1)); [|discriminate]. cbn [Z.eqb] in P |- *. injection P as <-. reflexivity.
  - rewrite !sends_app, S1. unfold mnlg_socket_close, mnl_socket_close. reflexivity.
  - destruct (held_handle (h_fd h) log (mnlg_socket_close h) N1) as [_ K]. rewrite <- app_assoc. rewrite K. exact N2.
Qed.

(** Updating an interface: when the socket cannot be opened the interface is not touched, nothing of the update is sent, and the result says why. *)
Theorem C55_set_not_opened : forall K cmax o (kern : K -> list Z -> sent K) now d k errno l, errno_pos o ->
  mnlg_socket_open cmax o WG_GENL_NAME 1 = Some (None, errno, l) ->
  cold_set cmax o kern now d k = Some (- errno, k, [], l) /\ - errno < 0 /\ held l [] = Some [].
Proof.
  intros K cmax o kern now d k errno l He E. unfold cold_set. rewrite E. destruct (C54_nothing_leaks _ _ _ _ _ _ _ He E) as [A B]. split; [reflexivity|]. split; [lia|exact B].
Qed.
(** However an update ends, the socket was closed once and all that belongs to it freed once. *)
Theorem C55_set_nothing_leaks : forall K cmax o (kern : K -> list Z -> sent K) now d k ret k' msgs l, errno_pos o ->
  cold_set cmax o kern now d k = Some (ret, k', msgs, l) -> held l [] = Some [].
Proof.
  intros K cmax o kern now d k ret k' msgs l He H. unfold cold_set in H.
  destruct (mnlg_socket_open cmax o WG_GENL_NAME 1) as [[[[h|] errno] l0]|] eqn:E; [| |discriminate]; pose proof (C54_nothing_leaks _ _ _ _ _ _ _ He E) as N; cbn beta iota in N.
  - destruct (set_loop _ _ _ _ _ _ _ _ _ _ _ _ _) as [[[r1 k1] m1]|] in H; [|discriminate]. injection H as <- <- <- <-.
    destruct N as (_ & _ & N1 & N2). destruct (held_handle (h_fd h) l0 (mnlg_socket_close h) N1) as [Kh _]. cbn [app] in Kh |- *. rewrite Kh. exact N2.
  - injection H as <- <- <- <-. apply N.
Qed.
(** All of it: the kernel knows the family, and the interface takes requests addressed to the family; then the interface has had exactly the update
    applied, and every message was a "set device" request addressed to the number the lookup gave. *)
Theorem C55_set_end_to_end : forall cmax o fd portid buf id pubkey quote flags now d s,
  1 <= cmax -> 0 <= id < 65536 -> errno_pos o -> wireguard_is cmax o fd portid buf id ->
  wf_device d -> wf_name (d_name d) -> (forall i, 0 <= now i < 2 ^ 32) -> fair (interface pubkey) portid quote flags ->
  exists msgs l m1, cold_set cmax o (answers (interface pubkey) portid quote flags) now d s = Some (0, apply_request pubkey s (request_of d), msgs, l)
    /\ Forall (set_header id now) msgs /\ msgs <> [] /\ sends l = [m1] /\ lookup_request (os_now o mod 2 ^ 32) WG_GENL_NAME m1 /\ held l [] = Some [].
Proof.
  intros cmax o fd portid buf id pubkey quote flags now d s Hc Hid He Hw Hd Hn Hnow Hf.
  destruct (wireguard_opens _ _ _ _ _ _ Hc Hw He) as (h & log & m1 & E & H1 & H2 & H3 & H4 & H5 & H6 & H7 & N1 & N2 & S1 & S2).
  destruct Hw as (Ho & (Hb & H4b & Hl8 & Hfit) & Hl2 & _).
  assert (HB : 272 <= len (h_buf h) <= 8192) by (rewrite H6; lia).
  destruct (C19_fragmentation_invisible (len (h_buf h)) id now d pubkey portid quote flags (h_buf h) s HB Hd Hn Hnow Hf) as (msgs & qs & A1 & A2 & (q0 & later & Eq & _) & _).
  exists msgs, (log ++ [EUse (h_fd h)] ++ mnlg_socket_close h), m1.
  split; [|split; [|split; [|split; [|split]]]].
  - unfold cold_set. rewrite E. rewrite H1, H3, H5. unfold kernel_set_device in A1. rewrite A1. reflexivity.
  - exact (C18_requests_addressed _ _ _ _ _ _ _ _ _ _ _ _ _ _ HB Hd Hn Hid Hnow Hf A1).
  - intros ->. subst qs. discriminate.
  - rewrite !sends_app, S1. reflexivity.
  - exact S2.
  - destruct (held_handle (h_fd h) log (mnlg_socket_close h) N1) as [Kh _]. rewrite Kh. exact N2.
Qed.

(** * A concrete system: port 77, the family's number 30; the kernel answers a lookup (type 16) with it and a request to that number with the dump of C22's
    example; anything else is refused. *)
Definition yanswer : list Z := xmsg 16 0 1700000000 ([1; 2; 0; 0] ++ enc 2 (WG_GENL_NAME ++ [0]) ++ enc 1 (le 2 30) ++ enc 3 (le 4 1) ++ enc 4 (le 4 0) ++ enc 5 (le 4 8)).
Definition yack : list Z := xmsg 2 256 1700000000 (le 4 0 ++ repeat 0 16).
Definition ypeer (m : list Z) : Z + list recv :=
  if msg_type m =? 16 then inr [Dgram (yanswer ++ yack)] else if msg_type m =? 30 then inr (datagrams [[xm1; xm2]; [xdone]]) else inl 22.
Definition yos : os := mk_os true (Some (repeat 7 4096)) true (inl 3) None (inl (12, 16, 77)) 1700000000 ypeer (Some 4).
Lemma yos_errno : errno_pos yos.
Proof. repeat split; cbn; try lia. intro m. unfold ypeer. destruct (msg_type m =? 16); [repeat constructor|]. destruct (msg_type m =? 30); [repeat constructor|lia]. Qed.
Lemma ymessages : message yanswer /\ message yack.
Proof. repeat split; try xmessage; try (apply all_bytes; vm_compute; reflexivity); try (vm_compute; congruence); match goal with |- (4 | len ?m) => exists (len m / 4); vm_compute; reflexivity end. Qed.
Lemma yos_wireguard : wireguard_is 10 yos 3 77 (repeat 7 4096) 30.
Proof.
  destruct ymessages as (M1 & M2). split; [repeat split|]. split.
  { unfold buffer_fits. rewrite len_repeat. split; [apply Forall_forall; intros x Hx; apply repeat_spec in Hx; subst; unfold is_byte; lia|].
    split; [exists 1024; reflexivity|]. split; [lia|vm_compute; congruence]. }
  split; [rewrite len_repeat; lia|]. exists [[yanswer; yack]], yanswer, yack.
  assert (A : forall m, message m -> msg_seq m = 1700000000 -> msg_port m = 77 -> Z.testbit (msg_flags m) 4 = false -> answer (os_now yos mod 2 ^ 32) 77 m).
  { intros m A1 A2 A3 A4. split; [exact A1|]. split; [left; exact A2|]. split; [left; exact A3|exact A4]. }
  split; [split; [|split]|split; [reflexivity|split]].
  - intros m (_ & _ & T & _). cbn [yos os_peer]. unfold ypeer. rewrite T. cbn [Z.eqb Pos.eqb concat map app]. rewrite app_nil_r. reflexivity.
  - apply Forall_cons; [exact M1|apply Forall_cons; [exact M2|apply Forall_nil]].
  - rewrite len_repeat. repeat apply Forall_cons; try apply Forall_nil; (split; [discriminate|vm_compute; congruence]).
  - split; [apply A; try exact M1; vm_compute; reflexivity|]. split; [vm_compute; congruence|]. split; [vm_compute; congruence|].
    exists [(2, WG_GENL_NAME ++ [0])], [30; 0], [(3, le 4 1); (4, le 4 0); (5, le 4 8)].
    split; [vm_compute; reflexivity|]. split; [vm_compute; repeat constructor; cbn; intuition congruence|]. split; [repeat constructor; cbn; lia|]. split; reflexivity.
  - split; [apply A; try exact M2; vm_compute; reflexivity|]. split; [vm_compute; reflexivity|]. split; [vm_compute; congruence|vm_compute; reflexivity].
Qed.
Example C55_example_get : exists m1 m2 log, cold_get 10 [119; 103; 48] [mk_pass true yos 5 ypeer] = Some (0, Some xdev, 1, log)
  /\ sends log = [m1; m2] /\ attrs (skipn 20 m2) = [(2, [119; 103; 48; 0])] /\ held log [] = Some [].
Proof.
  destruct (C55_get_end_to_end 10 [119; 103; 48] (mk_pass true yos 5 ypeer) [] 3 77 (repeat 7 4096) 30 [[xm1; xm2]; [xdone]] [xm1; xm2] [xq1; xq2] xdone xdev) as (m1 & m2 & log & E & S & R1 & R2 & Hh);
    cycle 6.
  - exact yos_wireguard.
  - intros m (_ & _ & T & _). cbn [ps_peer]. unfold ypeer. rewrite T. reflexivity.
  - rewrite len_repeat. repeat apply Forall_cons; try apply Forall_nil; (split; [discriminate|vm_compute; congruence]).
  - reflexivity.
  - apply Forall2_cons; [apply xdata1|]. apply Forall2_cons; [apply xdata2|apply Forall2_nil].
  - split; [split; [|split; [left; vm_compute; reflexivity|split; [left; vm_compute; reflexivity|vm_compute; reflexivity]]]|].
    + split; [bytes|]. split; [split; vm_compute; congruence|]. split; [exists 5; vm_compute; reflexivity|vm_compute; reflexivity].
    + repeat split; vm_compute; reflexivity.
  - repeat split; try (repeat constructor; auto; fail); try (left; left; reflexivity); try (cbn; left; reflexivity); try reflexivity.
    + repeat constructor; cbn; intuition discriminate.
    + exists [[xs1; xs2]; [xs3]]. split; [reflexivity|].
      assert (Y : forall A (v d : A), stated [Some v] v d) by (intros; split; [repeat constructor; auto|left; left; reflexivity]).
      assert (N : forall A (v : A), stated [None] v v) by (intros; split; [repeat constructor; auto|right; split; [reflexivity|repeat constructor]]).
      repeat apply Forall2_cons; [| |constructor].
      * exists xs1, [xs2]. repeat (split; [first [reflexivity|apply Y]|]). split; [|reflexivity]. repeat constructor. discriminate.
      * exists xs3, []. repeat (split; [first [reflexivity|apply Y|apply N]|]). split; [constructor|reflexivity].
  - repeat constructor; cbn; try congruence; intros; discriminate.
  - assert (K : forall b n, 0 <= b < 256 -> Forall is_byte (repeat b n)).
    { intros b n Hb. apply Forall_forall. intros x Hx. apply repeat_spec in Hx. subst. exact Hb. }
    repeat split; try (apply K; lia); try (cbn; lia). repeat constructor; try (apply K; lia); cbn; try lia; try (unfold is_byte; lia);
      (left; repeat split; cbn; try lia; bytes).
  - exists m1, m2, log. split; [exact E|]. split; [exact S|]. split; [apply R2|exact Hh].
  - lia.
  - apply all_bytes. vm_compute. reflexivity.
  - reflexivity.
  - lia.
  - reflexivity.
  - exact yos_errno.
Qed.
Example C55_example_set : exists msgs l,
  cold_set 10 yos (answers (interface (fun k => k)) 77 ex_quote (fun _ _ => 0)) (fun _ => 5) ex_dev (mk_iface zero_key 0 0 [] []) =
    Some (0, apply_request (fun k => k) (mk_iface zero_key 0 0 [] []) (request_of ex_dev), msgs, l) /\ held l [] = Some [].
Proof.
  destruct ex_dev_ok as (W & N & _).
  destruct (C55_set_end_to_end 10 yos 3 77 (repeat 7 4096) 30 (fun k => k) ex_quote (fun _ _ => 0) (fun _ => 5) ex_dev (mk_iface zero_key 0 0 [] [])) as (msgs & l & m1 & E & _ & _ & _ & _ & Hh);
    try assumption; try lia; try exact yos_errno; try exact yos_wireguard; try exact ex_fair.
  exists msgs, l. split; [exact E|exact Hh].
Qed.

Print Assumptions C55_get_nothing_leaks.
Print Assumptions C55_get_is_its_attempts.
Print Assumptions C55_get_end_to_end.
Print Assumptions C55_set_not_opened.
Print Assumptions C55_set_nothing_leaks.
Print Assumptions C55_set_end_to_end.
