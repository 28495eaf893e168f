(** C21-C23: attributes, and reading an interface over netlink. *)
From Coq Require Import ZArith List Bool Lia.
From Verif Require Import Base Types Encoding EncodingSpec NlSpec NlGetSpec Nl NlSet NlGet NlProofs NlSetProofs4 NlGetProofs NlRun NlGetProofs2 NlGetProofs3 NlGetProofs4.
Import ListNotations.
Open Scope Z_scope.

(** * C21: attributes *)

(** A tree of attributes. *)
Inductive tree := Leaf (type : Z) (data : list Z) | Nest (type : Z) (l : list tree).

Section tree_ind.
  Variable P : tree -> Prop.
  Hypothesis HL : forall t d, P (Leaf t d).
  Hypothesis HN : forall t l, Forall P l -> P (Nest t l).
  Fixpoint tree_ind' (x : tree) : P x :=
    match x with
    | Leaf t d => HL t d
    | Nest t l => HN t l ((fix go l := match l return Forall P l with [] => Forall_nil P | y :: l' => Forall_cons y (tree_ind' y) (go l') end) l)
    end.
End tree_ind.

(** Writing a tree with the primitives of src/netlink.h:345-388, as kernel_set_device does: stop at the first thing that does not fit. *)
Fixpoint put_tree (B : Z) (x : tree) (b : list Z) : option wr :=
  match x with
  | Leaf t d => attr_put_check B b t d
  | Nest t l =>
      match nest_start_check B b t with
      | Some (Fit b1) =>
          match (fix go l b := match l with
                               | [] => Some (Fit b)
                               | y :: l' => match put_tree B y b with Some (Fit b') => go l' b' | r => r end
                               end) l b1 with
          | Some (Fit b2) => Some (Fit (nest_end b2 (length b)))
          | r => r
          end
      | r => r
      end
  end.
Fixpoint put_trees (B : Z) (l : list tree) (b : list Z) : option wr :=
  match l with
  | [] => Some (Fit b)
  | y :: l' => match put_tree B y b with Some (Fit b') => put_trees B l' b' | r => r end
  end.

(** A received attribute is the tree: same type and payload, or same type and a payload whose attributes are the subtrees. *)
Fixpoint is_tree (x : tree) (a : Z * list Z) : Prop :=
  match x with
  | Leaf t d => a = (t, d)
  | Nest t l =>
      fst a = t /\
      (fix go l ats := match l, ats with
                       | [], [] => True
                       | y :: l', a' :: ats' => is_tree y a' /\ go l' ats'
                       | _, _ => False
                       end) l (attrs (snd a))
  end.
(** Type numbers fit the 14 bits the protocol has for them. *)
Fixpoint tree_ok (x : tree) : Prop :=
  match x with
  | Leaf t d => 0 <= t < 2 ^ 14
  | Nest t l => 0 <= t < 2 ^ 14 /\ (fix go l := match l with [] => True | y :: l' => tree_ok y /\ go l' end) l
  end.
Fixpoint size (x : tree) : Z :=
  match x with
  | Leaf t d => 4 + up4 (len d)
  | Nest t l => 4 + (fix go l := match l with [] => 0 | y :: l' => size y + go l' end) l
  end.
Definition sizes (l : list tree) : Z := fold_right (fun y s => size y + s) 0 l.

Fixpoint enc_tree (x : tree) : list Z :=
  match x with
  | Leaf t d => enc t d
  | Nest t l => enc (Z.lor (2 ^ 15) t) ((fix go l := match l with [] => [] | y :: l' => enc_tree y ++ go l' end) l)
  end.
Definition enc_trees (l : list tree) : list Z := flat_map enc_tree l.
Lemma enc_nest : forall t l, enc_tree (Nest t l) = enc (Z.lor (2 ^ 15) t) (enc_trees l).
Proof. intros. cbn [enc_tree]. f_equal. Qed.

Lemma put_nest : forall B t l b, put_tree B (Nest t l) b =
  match nest_start_check B b t with
  | Some (Fit b1) => match put_trees B l b1 with Some (Fit b2) => Some (Fit (nest_end b2 (length b))) | r => r end
  | r => r
  end.
Proof.
  intros. cbn [put_tree]. destruct (nest_start_check B b t) as [[b1|]|]; try reflexivity.
  assert (E : forall l b, (fix go l b := match l with
                               | [] => Some (Fit b)
                               | y :: l' => match put_tree B y b with Some (Fit b') => go l' b' | r => r end
                               end) l b = put_trees B l b).
  { induction l0 as [|y l0 IH]; intro b0; [reflexivity|]. cbn [put_trees]. destruct (put_tree B y b0) as [[b'|]|]; try reflexivity. apply IH. }
  rewrite E. reflexivity.
Qed.

Lemma enc_tree_mult : forall x, (4 | len (enc_tree x)).
Proof. intros []; apply enc_mult. Qed.
Lemma enc_trees_mult : forall l, (4 | len (enc_trees l)).
Proof.
  induction l as [|y l IH]; [exists 0; reflexivity|]. unfold enc_trees. cbn [flat_map]. rewrite len_app. apply Z.divide_add_r; [apply enc_tree_mult|exact IH].
Qed.
Lemma size_enc : forall x, len (enc_tree x) = size x.
Proof.
  induction x as [t d|t l H] using tree_ind'; [apply len_enc|]. rewrite enc_nest, len_enc, up4_id by apply enc_trees_mult. cbn [size]. f_equal.
  induction H as [|y l Hy Hl IH]; [reflexivity|]. unfold enc_trees. cbn [flat_map]. rewrite len_app, Hy. f_equal. exact IH.
Qed.
Lemma sizes_enc : forall l, len (enc_trees l) = sizes l.
Proof. induction l as [|y l IH]; [reflexivity|]. unfold enc_trees. cbn [flat_map sizes fold_right]. rewrite len_app, size_enc. f_equal. exact IH. Qed.

Lemma put_trees_writes : forall B l, Forall (fun x => writes B (put_tree B x) (enc_tree x)) l -> writes B (put_trees B l) (enc_trees l).
Proof.
  intros B l H. induction H as [|y l Hy Hl IH]; [apply writes_nil|]. intros b Hb. cbn [put_trees].
  assert (El : enc_trees (y :: l) = enc_tree y ++ enc_trees l) by reflexivity.
  rewrite El, len_app. specialize (Hy b Hb). pose proof (len_nonneg (enc_tree y)). pose proof (len_nonneg (enc_trees l)).
  destruct (Z.leb_spec (len b + len (enc_tree y)) B) as [H1|H1].
  - rewrite Hy. specialize (IH (b ++ enc_tree y) ltac:(rewrite len_app; lia)). rewrite len_app in IH.
    destruct (Z.leb_spec (len b + len (enc_tree y) + len (enc_trees l)) B), (Z.leb_spec (len b + (len (enc_tree y) + len (enc_trees l))) B); try lia.
    + rewrite IH, app_assoc. reflexivity.
    + destruct IH as [x ->]. exists (enc_tree y ++ x). rewrite app_assoc. reflexivity.
  - destruct Hy as [x ->]. destruct (Z.leb_spec (len b + (len (enc_tree y) + len (enc_trees l))) B); [lia|]. exists x. reflexivity.
Qed.

Lemma put_tree_writes : forall B x, B < 65532 -> writes B (put_tree B x) (enc_tree x).
Proof.
  intros B x HB. induction x as [t d|t l H] using tree_ind'.
  - cbn [put_tree enc_tree]. destruct (Z_lt_le_dec (len d) 65532) as [L|L]; [apply writes_put, L|].
    intros b Hb. rewrite len_enc. pose proof (len_nonneg b). pose proof (up4_range (len d)).
    destruct (Z.leb_spec (len b + (4 + up4 (len d))) B); [lia|]. exists []. unfold attr_put_check. rewrite align_up4.
    destruct (Z.ltb_spec B (len b + 4 + up4 (len d))); [|lia]. rewrite app_nil_r. reflexivity.
  - intros b Hb. rewrite put_nest, enc_nest, len_enc, up4_id by apply enc_trees_mult. rewrite nest_start_check_spec by exact Hb.
    pose proof (len_nonneg (enc_trees l)). pose proof (len_nonneg b).
    destruct (Z.leb_spec (len b + 4) B) as [H4|H4].
    + assert (Lh : len (nest_hdr t) = 4) by (unfold nest_hdr; autorewrite with len; lia).
      pose proof (put_trees_writes B l H (b ++ nest_hdr t) ltac:(rewrite len_app; lia)) as W. rewrite len_app, Lh in W.
      destruct (Z.leb_spec (len b + 4 + len (enc_trees l)) B), (Z.leb_spec (len b + (4 + len (enc_trees l))) B); try lia.
      * rewrite W. rewrite <- app_assoc. rewrite nest_end_app; [reflexivity|apply enc_trees_mult|lia].
      * destruct W as [x ->]. exists (nest_hdr t ++ x). rewrite app_assoc. reflexivity.
    + destruct (Z.leb_spec (len b + (4 + len (enc_trees l))) B); [lia|]. exists []. rewrite app_nil_r. reflexivity.
Qed.

Lemma attrs_enc_tree : forall x, tree_ok x -> size x < 65532 -> exists a, is_tree x a /\ forall rest, attrs (enc_tree x ++ rest) = a :: attrs rest.
Proof.
  intro x. induction x as [t d|t l H] using tree_ind'; intros Hok Hs.
  - cbn [tree_ok size enc_tree] in *. pose proof (up4_range (len d)). exists (t, d). split; [reflexivity|]. intro rest.
    rewrite attrs_enc by (change (2 ^ 14) with 16384 in Hok; lia). rewrite Z.mod_small by exact Hok. reflexivity.
  - rewrite enc_nest. rewrite <- size_enc, enc_nest, len_enc, up4_id in Hs by apply enc_trees_mult.
    cbn [tree_ok] in Hok. destruct Hok as [Ht Hok]. destruct (nested_type t Ht) as [T1 T2].
    exists (t, enc_trees l). split; [|intro rest; rewrite attrs_enc by lia; rewrite T2; reflexivity]. cbn [is_tree fst snd]. split; [reflexivity|].
    assert (Hs' : len (enc_trees l) < 65532) by lia. clear Hs. revert Hok Hs'. induction H as [|y l Hy Hl IH]; intros Hok Hs; [exact I|].
    assert (El : enc_trees (y :: l) = enc_tree y ++ enc_trees l) by reflexivity. rewrite El in *. rewrite len_app, size_enc in Hs.
    destruct Hok as [Oy Ol]. pose proof (len_nonneg (enc_trees l)). assert (0 <= size y) by (rewrite <- size_enc; apply len_nonneg).
    destruct (Hy Oy ltac:(lia)) as (a & Ha & ->). split; [exact Ha|]. apply IH; [exact Ol|lia].
Qed.

(** Whatever tree is written, behind whatever is already in the message and into any buffer below 64 KiB: nothing is written past the end of
    the buffer; if the tree has room it is all written and its attributes, read by the protocol's rules, are the tree; otherwise what was there
    before is untouched and "full" is reported. *)
Theorem C21_attributes_roundtrip : forall B x b, B < 65532 -> tree_ok x -> len b <= B ->
  if len b + size x <=? B
  then exists c a, put_tree B x b = Some (Fit (b ++ c)) /\ len c = size x /\ (4 | len c) /\ is_tree x a /\ forall rest, attrs (c ++ rest) = a :: attrs rest
  else exists c, put_tree B x b = Some (Full (b ++ c)).
Proof.
  intros B x b HB Hok Hb. pose proof (put_tree_writes B x HB b Hb) as W. rewrite size_enc in W. destruct (Z.leb_spec (len b + size x) B) as [H|H].
  - assert (Hs : size x < 65532) by (pose proof (len_nonneg b); lia).
    exists (enc_tree x). destruct (attrs_enc_tree x Hok Hs) as (a & Ha & E). exists a.
    split; [exact W|]. split; [apply size_enc|]. split; [apply enc_tree_mult|]. split; [exact Ha|exact E].
  - exact W.
Qed.

Example C21_tree_example :
  let x := Nest 8 [Nest 0 [Leaf 1 (repeat 7 32); Leaf 3 [2; 0; 0; 0]; Nest 9 [Nest 0 [Leaf 1 [2; 0]; Leaf 2 [10; 0; 0; 1]; Leaf 3 [32]]]]] in
  tree_ok x /\ (exists c, put_tree 200 x (repeat 0 20) = Some (Fit (repeat 0 20 ++ c)) /\ len c = 84) /\ (exists c, put_tree 100 x (repeat 0 20) = Some (Full c)).
Proof.
  cbv zeta. split; [cbn; lia|]. split; [eexists; split; [vm_compute; reflexivity|vm_compute; reflexivity]|eexists; vm_compute; reflexivity].
Qed.

(** Reading.  [m] is the memory after the datagram was received: at least its [n] bytes rounded up to a multiple of 4 (the buffer size is a
    multiple of 4).  The callback for device dumps runs over all messages without reading outside of [m] and ends, whatever the bytes, except
    that no message may claim 2^31 bytes or more and that an interface name must be terminated (or be long enough to be cut). *)
Theorem C21_reader_in_bounds : forall m n seq portid ret st,
  Forall is_byte m -> len m < 2 ^ 30 -> 0 <= n -> up4 n <= len m ->
  sane (S (length m)) n m ->
  (forall msg p, In msg (msgs (S (length m)) n m) -> In (2, p) (attrs (skipn 20 msg)) -> In 0 p \/ 15 <= len p \/ p = []) ->
  exists r, cb_run m seq portid (Some (read_device_cb m)) (S (length m)) 0 n ret st = Some r.
Proof.
  intros m n seq portid ret st Hb Hl Hn Hu Hs Hok. pose proof (up4_range n). eexists.
  apply (cb_run_f _ m seq portid (Some (read_device_cb m)) (Some g_device) okm Hb Hl); try lia.
  - intros. apply read_device_cb_slice; assumption.
  - unfold len in *. lia.
  - exact Hs.
  - apply Forall_forall. intros msg Hin. apply Forall_forall. intros [t p] Hin' Et. cbn [fst snd] in *. subst t. exact (Hok msg p Hin Hin').
Qed.

(** Any attribute walk (here with any callback that only reads inside the attribute it is given) visits exactly the attributes of the region. *)
Theorem C21_walk_exact : forall A m nlh l (cb : Z -> A -> option (Z * A)) (f : Z -> list Z -> A -> Z * A) (s : A),
  Forall is_byte m -> len m < 2 ^ 30 -> 0 <= nlh -> rd_le m nlh 4 = Some l -> 16 <= l < 2 ^ 31 -> nlh + up4 l <= len m ->
  (forall pos t p s, in_attr m (nlh + up4 l) pos t p -> cb pos s = Some (f t p s)) ->
  attr_parse m nlh 4 cb s = Some (fold_attrs f (attrs (slice m (nlh + 20) (nlh + up4 l))) CB_OK s).
Proof.
  intros A m nlh l cb f s Hb Hl Hn Hr H16 Hs Hcb. unfold attr_parse. rewrite Hr, align32_up4 by lia. change (align 4) with 4.
  replace (nlh + 16 + 4) with (nlh + 20) by lia. pose proof (up4_range l).
  apply (attr_loop_spec _ m cb f (fun _ _ => True) (nlh + up4 l) Hb Hl Hs).
  - intros. apply Hcb; assumption.
  - lia.
  - unfold len in *. lia.
  - apply Forall_true.
Qed.

(** Both exceptions are real.  A message that claims 2^32 - 3 bytes passes the length check (the comparison is on int) and is then skipped by 0
    bytes: the walk never ends. *)
Theorem C21_huge_length_loops_refuted : forall fuel,
  let m := le 4 (2 ^ 32 - 3) ++ le 2 1 ++ le 2 0 ++ le 4 0 ++ le 4 0 in
  cb_run m 0 0 (Some (read_device_cb m)) fuel 0 (len m) CB_OK (0, device0) = None.
Proof.
  intros fuel m. assert (G : forall fuel ret, cb_run m 0 0 (Some (read_device_cb m)) fuel 0 (len m) ret (0, device0) = None); [|apply G].
  clear fuel. induction fuel as [|f IH]; intro ret; [reflexivity|]. cbn [cb_run].
  replace (nlmsg_ok m 0 (len m)) with (Some true) by (vm_compute; reflexivity).
  replace (rd_le m 0 4) with (Some 4294967293) by (vm_compute; reflexivity).
  replace (rd_le m (0 + 4) 2) with (Some 1) by (vm_compute; reflexivity).
  replace (rd_le m (0 + 6) 2) with (Some 0) by (vm_compute; reflexivity).
  replace (rd_le m (0 + 8) 4) with (Some 0) by (vm_compute; reflexivity).
  replace (rd_le m (0 + 12) 4) with (Some 0) by (vm_compute; reflexivity).
  change (negb (0 =? 0) && negb (0 =? 0) && negb (0 =? 0)) with false. change (Z.testbit 0 4) with false. change (16 <=? 1) with false.
  change ((1 <=? 1) && (1 <=? 4)) with true. cbv iota.
  replace (run_ctl m 0 1 0 4294967293 (0, device0)) with (Some (CB_OK, (0, device0))) by (vm_compute; reflexivity). cbv iota.
  replace (true && (CB_OK <=? CB_STOP)) with false by (vm_compute; reflexivity).
  replace (align32 4294967293) with 0 by (vm_compute; reflexivity).
  replace (s32 (len m - 0)) with (len m) by (vm_compute; reflexivity). exact (IH CB_OK).
Qed.
(** A data message that claims 2^31 bytes, in a 4096 byte buffer full of empty attributes, makes the attribute walk run past its end. *)
Theorem C21_huge_length_escapes_refuted : forall fuel,
  let m := le 4 (2 ^ 31) ++ le 2 16 ++ le 2 0 ++ le 4 0 ++ le 4 0 ++ [0; 1; 0; 0] ++ concat (repeat (le 2 4 ++ le 2 0) 1019) in
  len m = 4096 /\ cb_run m 0 0 (Some (read_device_cb m)) (S fuel) 0 (len m) CB_OK (0, device0) = None.
Proof. intro fuel. cbv zeta. split; [vm_compute; reflexivity|]. cbn [cb_run]. vm_compute. reflexivity. Qed.
(** A name that is not terminated, at the end of the buffer, is read past its end. *)
Theorem C21_unterminated_name_refuted : forall fuel,
  let m := le 4 4096 ++ le 2 16 ++ le 2 0 ++ le 4 0 ++ le 4 0 ++ [0; 1; 0; 0] ++ le 2 4068 ++ le 2 99 ++ repeat 0 4064 ++ le 2 8 ++ le 2 2 ++ [119; 103; 48; 49] in
  len m = 4096 /\ cb_run m 0 0 (Some (read_device_cb m)) (S fuel) 0 (len m) CB_OK (0, device0) = None.
Proof. intro fuel. cbv zeta. split; [vm_compute; reflexivity|]. cbn [cb_run]. vm_compute. reflexivity. Qed.

(** * C22: dumps *)

(** Replies: the messages of the dump, packed into datagrams in any way. *)
Definition datagrams (gs : list (list (list Z))) : list recv := map (fun g => Dgram (concat g)) gs.
Definition buffer_ok (buf : list Z) (gs : list (list (list Z))) : Prop :=
  Forall is_byte buf /\ len buf < 2 ^ 30 /\ (4 | len buf) /\ Forall (fun g => g <> [] /\ len (concat g) <= len buf) gs.

(** For every interface [d] and every way [qs] of describing it in messages [ms], packed into datagrams [gs] ending with the end mark, reading
    the interface returns exactly [d]. *)
Theorem C22_dump_reassembled : forall name seq portid buf gs ms qs dn d rest,
  len name < 16 -> buffer_ok buf gs ->
  concat gs = ms ++ [dn] -> Forall2 (data_message seq portid) ms qs -> done_message seq portid dn ->
  dump_of d qs -> as_read d -> wf_device d ->
  kernel_get_device name (Replies seq portid buf (datagrams gs) :: rest) = Some (0, Some d, 1, 0).
Proof.
  intros name seq portid buf gs ms qs dn d rest Hn (Hb & Hl & H4 & Hg) Ec Hd Hdn Hdo Hr Hw.
  unfold kernel_get_device. destruct (Z.leb_spec 16 (len name)); [lia|]. cbn [get_loop].
  assert (Hg1 : Forall (fun g : list (list Z) => g <> []) gs) by (revert Hg; apply Forall_impl; tauto).
  assert (Hg2 : Forall (fun g : list (list Z) => len (concat g) <= len buf) gs) by (revert Hg; apply Forall_impl; tauto).
  destruct (recv_dump seq portid gs ms qs dn Hd Hdn Ec Hg1 buf device0 Hb Hl H4 Hg2) as (buf' & rs' & E). unfold datagrams. rewrite E.
  change (CB_STOP <? 0) with false. cbv iota.
  destruct (dump_device d qs Hdo Hr) as [E1 E2].
  { destruct Hw as (_ & _ & _ & _ & Hp). revert Hp. apply Forall_impl. intros p Hp. apply Hp. }
  rewrite E1, E2. reflexivity.
Qed.

(** The restriction on continued parts is needed: a part of a peer without allowed IPs between two parts that have some makes the program follow a
    null pointer. *)
Theorem C22_empty_middle_part_refuted : forall pub a b,
  let part l := mk_peer false false true false false pub zero_key EpNone 0 0 0 0 0 l in
  coalesce_peers [part [a]; part []; part [b]] = None.
Proof. intros pub a b. cbn. rewrite beq_refl. reflexivity. Qed.

(** * C23: interruption and failure *)

(** A pass of the loop that is repeated: whatever follows, the call behaves as if this pass had not been. *)
Definition repeated (name : list Z) (a : attempt) : Prop :=
  forall rest, kernel_get_device name (a :: rest) = kernel_get_device name rest.
(** System calls fail with positive errno values. *)
Definition errno_ok (a : attempt) : Prop :=
  match a with OpenFails e | SendFails e => 0 < e | Replies _ _ _ _ => True end.

(** On every path: all sockets are closed; the result is 0 iff a device is handed to the caller, and that device is the only one left allocated. *)
Theorem C23_no_half_device : forall name atts ret od live socks, Forall errno_ok atts ->
  kernel_get_device name atts = Some (ret, od, live, socks) ->
  socks = 0 /\ live = (match od with Some _ => 1 | None => 0 end) /\ (ret = 0 <-> od <> None).
Proof.
  intros name atts ret od live socks Hok H. unfold kernel_get_device in H. destruct (16 <=? len name).
  { injection H as <- <- <- <-. repeat split; try congruence. }
  revert H. induction Hok as [|a atts Ha Hok IH]; intro H; [discriminate|]. cbn [get_loop] in H.
  destruct a as [e|e|seq portid buf rs]; cbn [errno_ok] in Ha.
  - injection H as <- <- <- <-. repeat split; try congruence. lia.
  - destruct (Z.eqb_spec (- e) 0); [lia|].
    destruct (- e =? - EINTR); [apply (IH H)|injection H as <- <- <- <-]. repeat split; try congruence.
  - destruct (recv_run seq portid (Some read_device_cb) buf rs (0, device0)) as [[[[r [errno d]] b'] rs']|]; [|discriminate].
    destruct (r <? 0).
    + set (x := if errno =? 0 then - EINVAL else - errno) in *.
      destruct (Z.eqb_spec x 0) as [Ex|Ex].
      { exfalso. unfold x, EINVAL in Ex. destruct (Z.eqb_spec errno 0); lia. }
      destruct (x =? - EINTR); [apply (IH H)|injection H as <- <- <- <-]. repeat split; try congruence.
    + destruct (coalesce_peers (d_peers d)) as [ps|]; [|discriminate]. cbn [Z.eqb] in H. injection H as <- <- <- <-. repeat split; congruence.
Qed.

(** A device that is returned comes from one pass alone; the passes before it leave no trace. *)
Theorem C23_success_is_one_dump : forall name atts d live socks, Forall errno_ok atts ->
  kernel_get_device name atts = Some (0, Some d, live, socks) ->
  exists before a after, atts = before ++ a :: after /\ Forall (repeated name) before /\ kernel_get_device name [a] = Some (0, Some d, 1, 0).
Proof.
  intros name atts d live socks Hok H. unfold repeated, kernel_get_device in *. destruct (16 <=? len name); [discriminate|].
  revert H. induction Hok as [|a atts Ha Hok IH]; intro H; [discriminate|].
  assert (R : (forall rest, get_loop (a :: rest) 0 0 = get_loop rest 0 0) \/ (forall rest, get_loop (a :: rest) 0 0 = get_loop [a] 0 0)).
  { cbn [get_loop]. destruct a as [e|e|seq portid buf rs].
    - right. reflexivity.
    - destruct (- e =? 0); [right; reflexivity|]. destruct (- e =? - EINTR); [left|right]; reflexivity.
    - destruct (recv_run seq portid (Some read_device_cb) buf rs (0, device0)) as [[[[r [errno d0]] b'] rs']|]; [|right; reflexivity].
      destruct (r <? 0).
      + set (x := if errno =? 0 then - EINVAL else - errno) in *.
        destruct (x =? 0); [right; reflexivity|]. destruct (x =? - EINTR); [left|right]; reflexivity.
      + destruct (coalesce_peers (d_peers d0)); right; reflexivity. }
  destruct R as [R|R].
  - rewrite R in H. destruct (IH H) as (b & x & y & -> & Hb & Hx). exists (a :: b), x, y. split; [reflexivity|]. split; [constructor; assumption|exact Hx].
  - exists [], a, atts. split; [reflexivity|]. split; [constructor|]. rewrite <- R with (rest := atts). rewrite H.
    destruct (C23_no_half_device [] (a :: atts) 0 (Some d) live socks) as (-> & -> & _); [constructor; assumption|exact H|reflexivity].
Qed.

(** A message saying that the dump was interrupted (flag 0x10), anywhere before the end, makes the pass be repeated, whatever came before and
    whatever comes after. *)
Theorem C23_interrupted_dump_repeated : forall name seq portid buf gs ms qs bad more,
  len name < 16 -> buffer_ok buf gs ->
  concat gs = ms ++ bad :: more -> Forall2 (data_message seq portid) ms qs ->
  message bad -> (msg_seq bad = seq \/ msg_seq bad = 0) -> (msg_port bad = portid \/ msg_port bad = 0) -> Z.testbit (msg_flags bad) 4 = true ->
  Forall message more ->
  (forall m p, In m (bad :: more) -> In (2, p) (attrs (skipn 20 m)) -> In 0 p \/ 15 <= len p \/ p = []) ->
  repeated name (Replies seq portid buf (datagrams gs)).
Proof.
  intros name seq portid buf gs ms qs bad more Hn (Hb & Hl & H4 & Hg) Ec Hd Hm Hs Hp Hf Hmm Hok rest.
  unfold kernel_get_device. destruct (Z.leb_spec 16 (len name)); [lia|]. cbn [get_loop].
  assert (Hg1 : Forall (fun g : list (list Z) => g <> []) gs) by (revert Hg; apply Forall_impl; tauto).
  assert (Hg2 : Forall (fun g : list (list Z) => len (concat g) <= len buf) gs) by (revert Hg; apply Forall_impl; tauto).
  assert (Hokm : forall m, In m (bad :: more) -> okm m).
  { intros m Hin. apply Forall_forall. intros [t p] Hin' Et. cbn [fst snd] in *. subst t. exact (Hok m p Hin Hin'). }
  destruct (recv_stop seq portid CB_ERROR EINTR gs ms qs bad more Hd Hm (Hokm bad (or_introl eq_refl)) ltac:(discriminate)) with (buf := buf) (d := device0)
    as (buf' & rs' & E); try assumption.
  - intros ret e d. destruct (msg_fields bad Hm) as (Et & Ef & Es & Ep & El). unfold f_msg. cbv zeta. rewrite Et, Ef, Es, Ep, Hf.
    replace (negb (msg_port bad =? 0) && negb (portid =? 0) && negb (msg_port bad =? portid)) with false.
    2: { symmetry. destruct Hp as [-> | ->]; [rewrite Z.eqb_refl; cbn [negb]; apply andb_false_r|reflexivity]. }
    replace (negb (msg_seq bad =? 0) && negb (seq =? 0) && negb (msg_seq bad =? seq)) with false; [reflexivity|].
    symmetry. destruct Hs as [-> | ->]; [rewrite Z.eqb_refl; cbn [negb]; apply andb_false_r|reflexivity].
  - apply Forall_forall. intros m Hin. apply Hokm. right. exact Hin.
  - unfold datagrams. rewrite E. reflexivity.
Qed.

(** * A concrete dump: two messages in one datagram, the end mark in another, the first peer continued in the second message; before it an
    interrupted attempt. *)
Definition xnest (t : Z) (b : list Z) : list Z := enc (Z.lor (2 ^ 15) t) b.
Definition xaip (i : Z) : list Z := xnest 0 (enc 1 (le 2 2) ++ enc 2 [10; 0; i; 0] ++ enc 3 [24]).
Definition xmsg (type flags seq : Z) (body : list Z) : list Z := le 4 (16 + len body) ++ le 2 type ++ le 2 flags ++ le 4 seq ++ le 4 77 ++ body.
Definition xm1 : list Z := xmsg 30 2 5 ([0; 1; 0; 0] ++ enc 6 (le 2 51820) ++ enc 7 (le 4 0) ++ enc 1 (le 4 3) ++ enc 2 [119; 103; 48; 0] ++ enc 3 (repeat 5 32) ++ enc 4 (repeat 6 32) ++
  xnest 8 (xnest 0 (enc 1 (repeat 7 32) ++ enc 2 (repeat 9 32) ++ enc 6 (le 8 1000 ++ le 8 5) ++ enc 5 (le 2 25) ++ enc 8 (le 8 10) ++ enc 7 (le 8 20) ++ enc 10 (le 4 1)
    ++ enc 4 (le 2 2 ++ [4; 210; 192; 0; 2; 1] ++ repeat 0 8) ++ xnest 9 (xaip 1)))).
Definition xm2 : list Z := xmsg 30 2 5 ([0; 1; 0; 0] ++ xnest 8 (xnest 0 (enc 1 (repeat 7 32) ++ xnest 9 (xaip 2 ++ xaip 3)) ++ xnest 0 (enc 1 (repeat 8 32) ++ enc 2 (repeat 0 32)))).
Definition xdone : list Z := xmsg 3 2 5 (le 4 0).
Definition xbad : list Z := xmsg 30 18 5 [0; 1; 0; 0].
Definition xs1 : section := mk_section (repeat 7 32) (Some (repeat 9 32)) (Some (Ep4 [192; 0; 2; 1] 1234)) (Some (1000, 5)) (Some 20) (Some 10) (Some 25) [mk_aip 2 [10; 0; 1; 0] 24].
Definition xs2 : section := mk_section (repeat 7 32) None None None None None None [mk_aip 2 [10; 0; 2; 0] 24; mk_aip 2 [10; 0; 3; 0] 24].
Definition xs3 : section := mk_section (repeat 8 32) (Some (repeat 0 32)) None None None None None [].
Definition xq1 : dump := mk_dump (Some 3) (Some [119; 103; 48]) (Some (repeat 5 32)) (Some (repeat 6 32)) (Some 51820) (Some 0) [xs1].
Definition xq2 : dump := mk_dump None None None None None None [xs2; xs3].
Definition xdev : device := mk_device [119; 103; 48] 3 false true true false false (repeat 6 32) (repeat 5 32) 0 51820
  [mk_peer false false true true false (repeat 7 32) (repeat 9 32) (Ep4 [192; 0; 2; 1] 1234) 1000 5 20 10 25 [mk_aip 2 [10; 0; 1; 0] 24; mk_aip 2 [10; 0; 2; 0] 24; mk_aip 2 [10; 0; 3; 0] 24];
   mk_peer false false true false false (repeat 8 32) zero_key EpNone 0 0 0 0 0 []].

Lemma all_bytes_ok : forall l, forallb is_byteb l = true -> Forall is_byte l.
Proof.
  intros l H. rewrite forallb_forall in H. apply Forall_forall. intros x Hx. apply H in Hx. unfold is_byteb in Hx. unfold is_byte.
  apply andb_true_iff in Hx as [H1 H2]. apply Z.leb_le in H1. apply Z.ltb_lt in H2. lia.
Qed.
Ltac bytes := apply all_bytes_ok; vm_compute; reflexivity.
Ltac nodup := repeat constructor; cbn; intuition lia.
Lemma xdata1 : data_message 5 77 xm1 xq1.
Proof.
  split; [split; [|split; [left; vm_compute; reflexivity|split; [left; vm_compute; reflexivity|vm_compute; reflexivity]]]|].
  - split; [bytes|]. split; [split; vm_compute; congruence|]. split; [exists (len xm1 / 4); vm_compute; reflexivity|vm_compute; reflexivity].
  - split; [vm_compute; congruence|]. split; [vm_compute; congruence|]. unfold is_dump.
    set (l := attrs (skipn 20 xm1)). vm_compute in l. subst l. cbv zeta.
    split; [unfold once; cbn [map fst]; nodup|]. repeat (split; [vm_compute; try reflexivity; intuition congruence|]).
    unfold items. apply Forall2_cons; [|constructor]. cbn [snd]. unfold is_section.
    match goal with |- context [attrs ?b] => set (l := attrs b); vm_compute in l; subst l end. cbv zeta.
    split; [unfold once; cbn [map fst]; nodup|]. repeat (split; [vm_compute; reflexivity|]).
    unfold items. apply Forall2_cons; [|constructor]. cbn [snd]. split; [vm_compute; nodup|vm_compute; reflexivity].
Qed.
Lemma xdata2 : data_message 5 77 xm2 xq2.
Proof.
  split; [split; [|split; [left; vm_compute; reflexivity|split; [left; vm_compute; reflexivity|vm_compute; reflexivity]]]|].
  - split; [bytes|]. split; [split; vm_compute; congruence|]. split; [exists (len xm2 / 4); vm_compute; reflexivity|vm_compute; reflexivity].
  - split; [vm_compute; congruence|]. split; [vm_compute; congruence|]. unfold is_dump.
    set (l := attrs (skipn 20 xm2)). vm_compute in l. subst l. cbv zeta.
    split; [unfold once; cbn [map fst]; nodup|]. repeat (split; [vm_compute; try reflexivity; intuition congruence|]).
    unfold items. apply Forall2_cons; [|apply Forall2_cons; [|constructor]].
    + cbn [snd]. unfold is_section.
      match goal with |- context [attrs ?b] => set (l := attrs b); vm_compute in l; subst l end. cbv zeta.
      split; [unfold once; cbn [map fst]; nodup|]. repeat (split; [vm_compute; reflexivity|]).
      unfold items. apply Forall2_cons; [|apply Forall2_cons; [|constructor]]; (cbn [snd]; split; [vm_compute; nodup|vm_compute; reflexivity]).
    + cbn [snd]. unfold is_section.
      match goal with |- context [attrs ?b] => set (l := attrs b); vm_compute in l; subst l end. cbv zeta.
      split; [unfold once; cbn [map fst]; nodup|]. repeat (split; [vm_compute; reflexivity|]). constructor.
Qed.
Example C22_example : kernel_get_device [119; 103; 48]
    [Replies 5 77 (repeat 0 4096) (datagrams [[xm1; xbad]]); Replies 5 77 (repeat 0 4096) (datagrams [[xm1; xm2]; [xdone]])]
  = Some (0, Some xdev, 1, 0).
Proof.
  assert (B0 : Forall is_byte (repeat 0 4096)) by (apply Forall_forall; intros x Hx; apply repeat_spec in Hx; subst; unfold is_byte; lia).
  assert (L0 : len (repeat 0 4096) = 4096) by apply len_repeat.
  rewrite (C23_interrupted_dump_repeated [119; 103; 48] 5 77 (repeat 0 4096) [[xm1; xbad]] [xm1] [xq1] xbad []).
  - apply (C22_dump_reassembled _ 5 77 (repeat 0 4096) _ [xm1; xm2] [xq1; xq2] xdone xdev []); try reflexivity.
    + split; [exact B0|]. rewrite L0. split; [reflexivity|]. split; [exists 1024; reflexivity|].
      repeat constructor; try discriminate; vm_compute; congruence.
    + apply Forall2_cons; [apply xdata1|]. apply Forall2_cons; [apply xdata2|apply Forall2_nil].
    + split; [split; [|split; [left; vm_compute; reflexivity|split; [left; vm_compute; reflexivity|vm_compute; reflexivity]]]|].
      * split; [bytes|]. split; [split; vm_compute; congruence|]. split; [exists 5; vm_compute; reflexivity|vm_compute; reflexivity].
      * repeat split; vm_compute; reflexivity.
    + repeat split; try (repeat constructor; auto; fail); try (left; left; reflexivity); try (cbn; left; reflexivity); try reflexivity.
      * repeat constructor; cbn; intuition discriminate.
      * exists [[xs1; xs2]; [xs3]]. split; [reflexivity|].
        assert (Y : forall A (v d : A), stated [Some v] v d) by (intros; split; [repeat constructor; auto|left; left; reflexivity]).
        assert (N : forall A (v : A), stated [None] v v) by (intros; split; [repeat constructor; auto|right; split; [reflexivity|repeat constructor]]).
        repeat apply Forall2_cons; [| |constructor].
        -- exists xs1, [xs2]. repeat (split; [first [reflexivity|apply Y]|]). split; [|reflexivity]. repeat constructor. discriminate.
        -- exists xs3, []. repeat (split; [first [reflexivity|apply Y|apply N]|]). split; [constructor|reflexivity].
    + repeat constructor; cbn; try congruence; intros; discriminate.
    + assert (K : forall b n, 0 <= b < 256 -> Forall is_byte (repeat b n)).
      { intros b n Hb. apply Forall_forall. intros x Hx. apply repeat_spec in Hx. subst. exact Hb. }
      repeat split; try (apply K; lia); try (cbn; lia). repeat constructor; try (apply K; lia); cbn; try lia; try (unfold is_byte; lia);
        (left; repeat split; cbn; try lia; bytes).
  - reflexivity.
  - split; [exact B0|]. rewrite L0. split; [reflexivity|]. split; [exists 1024; reflexivity|]. repeat constructor; try discriminate; vm_compute; congruence.
  - reflexivity.
  - apply Forall2_cons; [apply xdata1|apply Forall2_nil].
  - split; [bytes|]. split; [split; vm_compute; congruence|]. split; [exists 5; vm_compute; reflexivity|vm_compute; reflexivity].
  - left. vm_compute. reflexivity.
  - left. vm_compute. reflexivity.
  - vm_compute. reflexivity.
  - constructor.
  - intros m p [<-|[]] Hin. vm_compute in Hin. contradiction.
Qed.
