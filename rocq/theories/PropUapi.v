(** C24, C25: the userspace protocol. *)
From Coq Require Import String ZArith List Bool Lia.
From Verif Require Import Base Ctype Encoding EncodingSpec HexProofs Cstr CstrProofs Inet InetProofs TextProofs Types
  NumSpec ConfigSpec Config ConfigProofs NlSpec KernelSpec UapiSpec Uapi UapiProofs UapiProofs2 UapiProofs3 UapiProofs4.
Import ListNotations.
Open Scope Z_scope.

(** C24.  Whatever the update, an implementation that reads the text by the protocol reads exactly what the update says
    ([read_set] insists on one empty line, at the end). *)
Theorem C24_set_request_exact : forall scope_name zone d, zones_ok scope_name zone -> wf_device d ->
  read_set zone (set_text scope_name d) = Some (said d).
Proof. intros scope_name zone d Z W. apply set_text_says; assumption. Qed.

(** Applying what is read does the same to an interface, whatever its state, as applying the update. *)
Theorem C24_set_request_applies : forall pubkey scope_name zone d s, zones_ok scope_name zone -> wf_device d ->
  Forall (fun p => no_flow (p_endpoint p) = p_endpoint p) (d_peers d) ->
  exists q, read_set zone (set_text scope_name d) = Some q /\ apply_request pubkey s q = apply_request pubkey s (request_of d).
Proof.
  intros pubkey scope_name zone d s Z W F. exists (said d). split; [apply C24_set_request_exact; assumption|]. apply said_applies, F.
Qed.

(** The call reports success exactly if the reply is complete and its last errno is 0; [errno] is the C variable when the reply breaks off. *)
Theorem C24_success_iff_errno_0 : forall sg errno t, 0 <= errno -> Forall is_byte t ->
  set_reply sg errno t = 0 <-> exists ls rest, t = unlines ls ++ 10 :: rest /\ set_result (- 71) ls 0.
Proof.
  intros sg errno t He B. split.
  - intro H. destruct (set_reply_complete sg errno (length t) t (- 71) (le_n _) B) as [F|(ls & rest & E & S)].
    + exfalso. unfold set_reply in H. change (- EPROTO) with (-71) in H. rewrite F in H. unfold fail_code in H. destruct (Z.eqb_spec errno 0); lia.
    + exists ls, rest. split; [exact E|]. unfold set_reply in H. change (- EPROTO) with (-71) in H. rewrite H in S. exact S.
  - intros (ls & rest & -> & S). apply Forall_app in B as [B _]. unfold set_reply. apply set_reply_sound; assumption.
Qed.
(** and otherwise reports the last errno of a complete reply. *)
Theorem C24_error_reported : forall sg errno ls rest r, Forall is_byte (unlines ls) -> set_result (- 71) ls r ->
  set_reply sg errno (unlines ls ++ 10 :: rest) = r.
Proof. intros sg errno ls rest r B S. unfold set_reply. apply set_reply_sound; assumption. Qed.

(** C25.  A device is delivered exactly if the reply says so; a prefix length is seen modulo 256 and a counter is cut at 2^64-1
    (see the two refuted statements below). *)
Theorem C25_reply_exact : forall sg ulmax pubkey resolve name t d, 255 <= ulmax -> Forall is_byte t ->
  userspace_get_device sg ulmax pubkey resolve name t = (0, Some d) <->
  reply (fun h p e => resolve h p = RAddr e) (fun n => Z.min n ulmax mod 256) (fun n => Z.min n (2 ^ 64 - 1)) pubkey name t 0 d.
Proof.
  intros sg ulmax pubkey resolve name t d U B. split.
  - intro H. destruct (get_complete sg ulmax pubkey resolve name t B) as [(r & Nr & E)|(d' & S & E)]; rewrite H in E; [discriminate|].
    injection E as <-. exact S.
  - intro S. rewrite (get_sound sg ulmax pubkey resolve name t 0 d B S). reflexivity.
Qed.

(** Success with a device or an error without one. *)
Theorem C25_all_or_nothing : forall sg ulmax pubkey resolve name t, 255 <= ulmax -> Forall is_byte t ->
  (exists d, userspace_get_device sg ulmax pubkey resolve name t = (0, Some d)) \/
  (exists r, r <> 0 /\ userspace_get_device sg ulmax pubkey resolve name t = (r, None)).
Proof.
  intros sg ulmax pubkey resolve name t U B. destruct (get_complete sg ulmax pubkey resolve name t B) as [H|(d & _ & H)]; [right; exact H|left; exists d; exact H].
Qed.

(** A reply read exactly (numbers unchanged) is taken at its word: the device, or its errno and no device. *)
Theorem C25_exact_reply_taken : forall sg ulmax pubkey resolve name t n d, 255 <= ulmax -> Forall is_byte t ->
  reply (fun h p e => resolve h p = RAddr e) (fun n => n) (fun n => n) pubkey name t n d ->
  userspace_get_device sg ulmax pubkey resolve name t = (- n, if n =? 0 then Some d else None).
Proof.
  intros sg ulmax pubkey resolve name t n d U B (ls & its & rest & E & H & N & En & Ed).
  rewrite (get_sound sg ulmax pubkey resolve name t n d B).
  - unfold finish. replace (- n =? 0) with (n =? 0); [reflexivity|]. destruct (Z.eqb_spec n 0), (Z.eqb_spec (- n) 0); lia.
  - exists ls, its, rest. repeat split; try assumption. apply get_lines_exact; assumption.
Qed.

(** Every device state comes back exactly. *)
Theorem C25_state_roundtrip : forall sg ulmax pubkey resolve host6 d, 255 <= ulmax -> reported pubkey d ->
  Forall (fun p => resolves (fun h q e => resolve h q = RAddr e) host6 (p_endpoint p)) (d_peers d) -> Forall is_byte (report host6 d) ->
  userspace_get_device sg ulmax pubkey resolve (d_name d) (report host6 d) = (0, Some d).
Proof.
  intros sg ulmax pubkey resolve host6 d U R Re B.
  exact (C25_exact_reply_taken sg ulmax pubkey resolve (d_name d) (report host6 d) 0 d U B (report_reply _ host6 pubkey d R Re)).
Qed.

(** * Deviations *)

Definition some_hex : list Z := str "0102030405060708090a0b0c0d0e0f101112131415161718191a1b1c1d1e1f20".
Definition aip_reply (v : string) : list Z :=
  unlines [line "public_key" some_hex; line "allowed_ip" (str v); line "errno" (str "0")] ++ [10].
Definition rx_reply (v : string) : list Z :=
  unlines [line "public_key" some_hex; line "rx_bytes" (str v); line "errno" (str "0")] ++ [10].

(** A prefix length of 256 is not refused but taken for 0, i.e. "all addresses". *)
Theorem C25_prefix_256_refuted : forall sg pubkey resolve name,
  exists d p, userspace_get_device sg (2 ^ 64 - 1) pubkey resolve name (aip_reply "10.1.2.0/256") = (0, Some d) /\
    d_peers d = [p] /\ p_aips p = [mk_aip AF_INET [10; 1; 2; 0] 0].
Proof. intros sg pubkey resolve name. destruct sg; eexists; eexists; (split; [vm_compute; reflexivity|split; vm_compute; reflexivity]). Qed.

(** A counter that does not fit 64 bits is not refused but cut. *)
Theorem C25_huge_counter_refuted : forall sg pubkey resolve name,
  exists d p, userspace_get_device sg (2 ^ 64 - 1) pubkey resolve name (rx_reply "99999999999999999999999") = (0, Some d) /\
    d_peers d = [p] /\ p_rx p = 2 ^ 64 - 1.
Proof. intros sg pubkey resolve name. destruct sg; eexists; eexists; (split; [vm_compute; reflexivity|split; vm_compute; reflexivity]). Qed.

(** An endpoint that cannot be resolved makes the result positive (other errors are negative), without a device. *)
Theorem C25_unresolvable_is_positive : forall sg pubkey resolve name, resolve (str "nowhere") (str "1") = RFail ->
  userspace_get_device sg (2 ^ 64 - 1) pubkey resolve name
    (unlines [line "public_key" some_hex; line "endpoint" (str "nowhere:1"); line "errno" (str "0")] ++ [10]) = (101, None).
Proof. intros sg pubkey resolve name H. destruct sg; vm_compute in H |- *; rewrite H; reflexivity. Qed.

(** A negative errno, as userspace implementations send it, is reported as EPROTO. *)
Theorem C25_negative_errno_is_eproto : forall sg pubkey resolve name,
  userspace_get_device sg (2 ^ 64 - 1) pubkey resolve name (unlines [line "errno" (str "-22")] ++ [10]) = (- 71, None).
Proof. intros sg pubkey resolve name. destruct sg; reflexivity. Qed.

(** * Concrete cases *)

Definition ex_dev : device :=
  mk_device (str "wg0") 0 false true true true true (repeat 7 32) (repeat 200 32) 51820 4000
    [mk_peer false false true true true (repeat 1 32) (repeat 2 32) (Ep4 [192; 0; 2; 1] 51820) 1700000000 5 123 456 25
       [mk_aip AF_INET [10; 0; 0; 0] 8; mk_aip AF_INET6 (32 :: 1 :: 13 :: 184 :: repeat 0 12) 32];
     mk_peer false false true false false (repeat 3 32) zero_key (Ep6 (254 :: 128 :: repeat 0 13 ++ [1]) 1 0 2) 0 0 0 0 0 []].
Definition ex_host6 (a : list Z) (s : Z) : list Z := inet_ntop6 a ++ (if s =? 0 then [] else 37 :: print_dec s).
Definition ex_resolve (h p : list Z) : resolved :=
  if beq h (str "192.0.2.1") && beq p (str "51820") then RAddr (Ep4 [192; 0; 2; 1] 51820)
  else if beq h (str "fe80::1%2") && beq p (str "1") then RAddr (Ep6 (254 :: 128 :: repeat 0 13 ++ [1]) 1 0 2) else RFail.

Lemma ex_key : forall n, 0 <= n < 256 -> wf_key (repeat n 32).
Proof. intros n H. split; [apply repeat_length|]. apply Forall_forall. intros x I. apply repeat_spec in I. subst. exact H. Qed.
Lemma ex_aips : Forall wf_aip [mk_aip AF_INET [10; 0; 0; 0] 8; mk_aip AF_INET6 (32 :: 1 :: 13 :: 184 :: repeat 0 12) 32].
Proof.
  apply Forall_cons; [left|apply Forall_cons; [right|apply Forall_nil]]; cbn [a_family a_ip a_cidr]; (split; [reflexivity|split; [reflexivity|split; [|lia]]]);
    apply Forall_forall; intros x I; unfold is_byte; cbn in I; lia.
Qed.
Lemma ex_wf : wf_device ex_dev.
Proof.
  split; [apply ex_key; lia|]. split; [apply ex_key; lia|]. split; [cbn; lia|]. split; [cbn; lia|].
  apply Forall_cons; [|apply Forall_cons; [|apply Forall_nil]]; unfold wf_peer; cbn [p_pub p_psk p_endpoint p_ka p_aips p_rx p_tx p_hs_sec p_hs_nsec wf_endpoint].
  - split; [apply ex_key; lia|]. split; [apply ex_key; lia|]. split; [split; [reflexivity|split; [apply Forall_forall; intros x I; unfold is_byte; cbn in I; lia|lia]]|].
    split; [lia|]. split; [exact ex_aips|]. lia.
  - split; [apply ex_key; lia|]. split; [apply ex_key; lia|]. split; [split; [reflexivity|split; [apply Forall_forall; intros x I; unfold is_byte; cbn in I; lia|lia]]|].
    split; [lia|]. split; [apply Forall_nil|]. lia.
Qed.

(** The hypotheses of C24 and C25 hold for a device with two peers, preshared key, scoped IPv6 endpoint and allowed IPs. *)
Example C24_example :
  zones_ok (fun _ s => print_dec s) (fun _ z => read_dec (2 ^ 32) z) /\ wf_device ex_dev /\
  Forall (fun p => no_flow (p_endpoint p) = p_endpoint p) (d_peers ex_dev) /\
  set_result (- 71) [line "errno" (str "-22")] (- 22).
Proof.
  split; [|split; [exact ex_wf|split]].
  - intros a s _ _ Hs. rewrite read_dec_print by lia. split; [reflexivity|].
    split; apply (not_in_by _ _ _ (print_dec_digits s ltac:(lia))); lia.
  - apply Forall_cons; [reflexivity|apply Forall_cons; [reflexivity|apply Forall_nil]].
  - apply (sr_errno _ _ (str "-22") (-22)).
    + repeat split; cbn; lia.
    + apply (int_neg (str "22") 22). apply decimal_iff. split; [discriminate|reflexivity].
    + lia.
    + constructor.
Qed.
Example C25_example :
  reported (fun _ => repeat 7 32) ex_dev /\
  Forall (fun p => resolves (fun h q e => ex_resolve h q = RAddr e) ex_host6 (p_endpoint p)) (d_peers ex_dev) /\
  Forall is_byte (report ex_host6 ex_dev) /\
  userspace_get_device true (2 ^ 64 - 1) (fun _ => repeat 7 32) ex_resolve (str "wg0") (report ex_host6 ex_dev) = (0, Some ex_dev).
Proof.
  pose proof ex_wf as W.
  assert (A : reported (fun _ => repeat 7 32) ex_dev).
  { split; [exact W|]. cbn [ex_dev d_name d_ifindex d_replace_peers d_has_pub d_has_priv d_pub d_has_port d_has_fwmark d_peers].
    repeat (split; [first [reflexivity|discriminate|vm_compute; lia]|]).
    destruct W as (_ & _ & _ & _ & W). inversion_clear W as [|? ? W1 W']. inversion_clear W' as [|? ? W2 _].
    apply Forall_cons; [|apply Forall_cons; [|apply Forall_nil]]; (split; [assumption|]); cbn; repeat (split; [first [reflexivity|discriminate|lia]|]); lia. }
  assert (B : Forall (fun p => resolves (fun h q e => ex_resolve h q = RAddr e) ex_host6 (p_endpoint p)) (d_peers ex_dev)).
  { apply Forall_cons; [vm_compute; reflexivity|apply Forall_cons; [|apply Forall_nil]].
    cbn [p_endpoint resolves]. split; [vm_compute; reflexivity|]. split; [|split]; intro I; vm_compute in I; intuition discriminate. }
  assert (C : Forall is_byte (report ex_host6 ex_dev)).
  { assert (F : forallb is_byteb (report ex_host6 ex_dev) = true) by (vm_compute; reflexivity). rewrite forallb_forall in F.
    apply Forall_forall. intros x I. apply F in I. unfold is_byteb in I. apply andb_true_iff in I as [I1 I2]. apply Z.leb_le in I1. apply Z.ltb_lt in I2. split; assumption. }
  split; [exact A|]. split; [exact B|]. split; [exact C|].
  apply (C25_state_roundtrip true (2 ^ 64 - 1) (fun _ => repeat 7 32) ex_resolve ex_host6 ex_dev); [lia|exact A|exact B|exact C].
Qed.
