(** The output of showconf is a configuration file that means the device. *)
From Coq Require Import String ZArith List Bool Lia.
From Verif Require Import Base Encoding EncodingSpec EncodingProofs Cstr CstrProofs Inet InetProofs Types NumSpec ConfigSpec Config
  ConfigProofs ConfigProofs2 ConfigProofs3 ConfigProofs4 TextProofs UapiSpec Uapi UapiProofs UapiProofs2 UapiProofs4 Setconf Showconf ShowconfSpec NlSpec KernelSpec.
Import ListNotations.
Open Scope Z_scope.

(** Characters a value of a configuration file can have. *)
Definition okc (c : Z) : Prop := is_ws c = false /\ c <> 35 /\ c <> 0 /\ is_byte c.
Lemma okc_normal : forall v, Forall okc v -> forall t, normal (v ++ t) = v ++ normal t.
Proof.
  intros v H t. apply normal_plain_app. apply forallb_forall. intros c Hc. rewrite Forall_forall in H. destruct (H c Hc) as (A & B & C & _).
  unfold plain. rewrite A. apply Z.eqb_neq in B, C. rewrite B, C. reflexivity.
Qed.
Lemma okc_nonl : forall v, Forall okc v -> ~ In 10 v.
Proof. intros v H I. rewrite Forall_forall in H. destruct (H 10 I) as (A & _). discriminate. Qed.
Lemma addr_okc : forall v, Forall addr_char v -> Forall okc v.
Proof.
  intros v H. eapply Forall_impl; [|exact H]. intros c Hc. unfold addr_char in Hc. unfold okc, is_byte. split; [|lia].
  unfold is_ws. cbn [existsb]. repeat match goal with |- context [c =? ?n] => destruct (Z.eqb_spec c n); [lia|] end. reflexivity.
Qed.
Lemma alphabet_okc : forallb (fun c => negb (is_ws c) && negb (c =? 35) && negb (c =? 0) && is_byteb c) (61 :: b64_alphabet) = true.
Proof. vm_compute. reflexivity. Qed.
Lemma b64_in_alphabet : forall d, In (b64_char d) (0 :: b64_alphabet).
Proof.
  intro d. unfold b64_char. destruct (nth_in_or_default (Z.to_nat d) b64_alphabet 0) as [H|H]; [right; exact H|left; symmetry; exact H].
Qed.
Lemma key_okc : forall k, is_key k -> Forall okc (rfc4648 k).
Proof.
  intros k [L B].
  assert (G : forall c, In c (61 :: b64_alphabet) -> okc c).
  { intros c Hc. pose proof alphabet_okc as A. rewrite forallb_forall in A. specialize (A c Hc). rewrite !andb_true_iff, !negb_true_iff, !Z.eqb_neq in A.
    destruct A as (((A1 & A2) & A3) & A4). unfold okc. repeat split; try assumption; unfold is_byteb in A4; apply andb_true_iff in A4 as [A4 A5]; rewrite ?Z.leb_le, ?Z.ltb_lt in *; lia. }
  assert (Ch : forall d, 0 <= d < 64 -> okc (b64_char d)).
  { intros d Hd. apply G. right. unfold b64_char. apply nth_In. change (length b64_alphabet) with 64%nat. lia. }
  assert (R : forall n l, (length l <= n)%nat -> Forall is_byte l -> Forall okc (rfc4648 l)).
  { induction n as [|n IH]; intros l Ll Bl; destruct l as [|x [|y [|z l]]]; cbn [length] in Ll; try lia; cbn [rfc4648];
      repeat match goal with X : Forall _ (_ :: _) |- _ => inversion_clear X end; unfold is_byte in *;
      repeat (constructor; [first [apply G; left; reflexivity | apply Ch; Z.to_euclidean_division_equations; lia]|]); try constructor.
    apply IH; [lia|assumption]. }
  apply (R (length k)); [lia|exact B].
Qed.
Lemma dec_okc : forall n, 0 <= n -> Forall okc (print_dec n).
Proof. intros n H. apply addr_okc, dec_addr, H. Qed.
Lemma hexnum_okc : forall n, 0 <= n -> Forall okc (print_hex n).
Proof. intros n H. apply addr_okc, hex_addr, H. Qed.

Lemma normal_nl : forall v, normal (v ++ [10]) = normal v.
Proof. intro v. rewrite <- (app_nil_r v) at 2. apply normal_space. reflexivity. Qed.

(** A line "Key = value" is the line "Key=value". *)
Lemma normal_kv : forall K v, forallb plain (str K) = true -> Forall okc v -> normal ((str K ++ str " = " ++ v) ++ [10]) = str K ++ 61 :: v.
Proof.
  intros K v HK Hv. rewrite normal_nl, normal_plain_app by exact HK. change (str " = ") with [32; 61; 32].
  change ([32; 61; 32] ++ v) with ([] ++ 32 :: 61 :: 32 :: v). rewrite normal_space by reflexivity. cbn [app].
  change (61 :: 32 :: v) with ([61] ++ 32 :: v). rewrite normal_space by reflexivity. rewrite normal_plain_app by reflexivity.
  rewrite <- (app_nil_r v) at 1. rewrite okc_normal by exact Hv. cbn. rewrite app_nil_r. reflexivity.
Qed.

(** ** The lines *)
Definition ckv (K : string) (v : list Z) : list Z := str K ++ str " = " ++ v.
Section Lines.
Variable scope_name : list Z -> Z -> list Z.

Definition ep_value (ep : endpoint) : option (list Z) :=
  match nameinfo scope_name ep with
  | None => None
  | Some (host, service) =>
      Some (if match ep with Ep6 _ _ _ _ => true | _ => false end && has_char 58 host then 91 :: host ++ 93 :: 58 :: service else host ++ 58 :: service)
  end.
Definition peer_lines (p : peer) : list (list Z) :=
  str "[Peer]" :: ckv "PublicKey" (key_to_base64 (p_pub p)) ::
  when (p_has_psk p) (ckv "PresharedKey" (key_to_base64 (p_psk p))) ++
  (match p_aips p with [] => [] | _ => [ckv "AllowedIPs" (conf_aips (p_aips p))] end) ++
  (match ep_value (p_endpoint p) with None => [] | Some v => [ckv "Endpoint" v] end) ++
  when (negb (p_ka p =? 0)) (ckv "PersistentKeepalive" (print_dec (p_ka p))).
Fixpoint peers_lines (l : list peer) : list (list Z) :=
  match l with
  | [] => []
  | p :: l' => peer_lines p ++ (match l' with [] => [] | _ => [[]] end) ++ peers_lines l'
  end.
Definition conf_lines (d : device) : list (list Z) :=
  str "[Interface]" ::
  when (negb (d_port d =? 0)) (ckv "ListenPort" (print_dec (d_port d))) ++
  when (negb (d_fwmark d =? 0)) (ckv "FwMark" (str "0x" ++ print_hex (d_fwmark d))) ++
  when (d_has_priv d) (ckv "PrivateKey" (key_to_base64 (d_priv d))) ++
  [] :: peers_lines (d_peers d).

Lemma unlines_cons : forall l ls, unlines (l :: ls) = l ++ 10 :: unlines ls.
Proof. intros l ls. unfold unlines. cbn [flat_map]. rewrite <- app_assoc. reflexivity. Qed.
Lemma unlines_when : forall b l, unlines (when b l) = if b then l ++ [10] else [].
Proof. intros [] l; [|reflexivity]. unfold unlines, when. cbn [flat_map]. rewrite app_nil_r. reflexivity. Qed.

Lemma conf_peer_lines : forall p, conf_peer scope_name p = unlines (peer_lines p).
Proof.
  intro p. unfold conf_peer, peer_lines. rewrite !unlines_cons, !unlines_app, !unlines_when. unfold ckv.
  assert (E : conf_endpoint scope_name (p_endpoint p) =
              unlines match ep_value (p_endpoint p) with None => [] | Some v => [str "Endpoint" ++ str " = " ++ v] end).
  { unfold conf_endpoint, ep_value. destruct (nameinfo scope_name (p_endpoint p)) as [[h s]|]; [|reflexivity].
    destruct (_ && _); unfold unlines; cbn [flat_map]; rewrite app_nil_r, <- !app_assoc; cbn [app str]; rewrite <- ?app_assoc; reflexivity. }
  rewrite E. generalize (unlines match ep_value (p_endpoint p) with None => [] | Some v => [str "Endpoint" ++ str " = " ++ v] end). intro T.
  assert (A : forall t, (match p_aips p with [] => [] | _ => str "AllowedIPs = " end) ++ conf_aips (p_aips p) ++ (match p_aips p with [] => [] | _ => [10] end) ++ t =
              unlines (match p_aips p with [] => [] | _ => [str "AllowedIPs" ++ str " = " ++ conf_aips (p_aips p)] end) ++ t).
  { intro t. destruct (p_aips p) as [|a l]; [reflexivity|]. unfold unlines. cbn [flat_map]. rewrite app_nil_r, <- !app_assoc. reflexivity. }
  rewrite A. generalize (unlines match p_aips p with [] => [] | _ => [str "AllowedIPs" ++ str " = " ++ conf_aips (p_aips p)] end). intro U.
  destruct (p_has_psk p), (p_ka p =? 0); cbn [negb]; rewrite <- ?app_assoc; reflexivity.
Qed.
Lemma conf_peers_lines : forall l, conf_peers scope_name l = unlines (peers_lines l).
Proof.
  induction l as [|p l IH]; [reflexivity|]. cbn [conf_peers peers_lines]. rewrite conf_peer_lines, !unlines_app, IH. f_equal. f_equal. destruct l; reflexivity.
Qed.
Lemma conf_text_lines : forall d, conf_text scope_name d = unlines (conf_lines d).
Proof.
  intro d. unfold conf_text, conf_lines. rewrite conf_peers_lines, !unlines_cons, !unlines_app, !unlines_when, unlines_cons. generalize (unlines (peers_lines (d_peers d))). intro T.
  unfold ckv. destruct (d_port d =? 0), (d_fwmark d =? 0), (d_has_priv d); cbn [negb]; rewrite <- ?app_assoc; reflexivity.
Qed.

Lemma getlines_unlines : forall ls, Forall (fun l => ~ In 10 l) ls -> getlines (unlines ls) = map (fun l => l ++ [10]) ls.
Proof.
  induction 1 as [|l ls H _ IH]; [reflexivity|]. rewrite unlines_cons, getlines_line by exact H. cbn [map]. f_equal. exact IH.
Qed.

(** ** Values *)
Lemma commas_cons : forall f g fs, commas (f :: g :: fs) = f ++ 44 :: commas (g :: fs).
Proof. reflexivity. Qed.
Lemma aip_text_okc : forall a, wf_aip a -> Forall okc (aip_text a).
Proof.
  intros [fam ip c] W. unfold wf_aip in W. cbn [a_family a_ip a_cidr] in W. unfold aip_text. cbn [a_family a_ip a_cidr].
  assert (S : okc 47) by (unfold okc, is_byte; cbn; lia).
  destruct W as [(-> & L & B & H)|(-> & L & B & H)].
  - change (AF_INET =? AF_INET) with true. cbv iota. apply Forall_app. split; [apply addr_okc, ntop4_addr, B|]. constructor; [exact S|]. apply dec_okc. lia.
  - change (AF_INET6 =? AF_INET) with false. cbv iota. apply Forall_app. split; [apply addr_okc, ntop6_chars, B|]. constructor; [exact S|]. apply dec_okc. lia.
Qed.
Lemma aip_text_value : forall a, wf_aip a -> aip_value (aip_text a) a.
Proof.
  intros [fam ip c] W. unfold wf_aip in W. cbn [a_family a_ip a_cidr] in W. unfold aip_text. cbn [a_family a_ip a_cidr].
  destruct W as [(-> & L & B & H)|(-> & L & B & H)].
  - change (AF_INET =? AF_INET) with true. cbv iota. pose proof (ntop4_addr ip B) as C.
    apply (av_mask (inet_ntop4 ip) (print_dec c) AF_INET ip 32 c); [apply (not_in_by _ _ _ C); unfold addr_char; lia| |apply decimal_print; lia|lia].
    apply ip_4; [|apply inet4_roundtrip; split; assumption]. apply (not_in_by _ _ _ (ntop4_chars ip B)). lia.
  - change (AF_INET6 =? AF_INET) with false. cbv iota. pose proof (ntop6_chars ip B) as C. assert (Ba : bytes_n 16 ip) by (split; assumption).
    apply (av_mask (inet_ntop6 ip) (print_dec c) AF_INET6 ip 128 c); [apply (not_in_by _ _ _ C); unfold addr_char; lia| |apply decimal_print; lia|lia].
    apply ip_6; [apply ntop6_colon_in, Ba|apply inet6_roundtrip, Ba].
Qed.
Lemma aip_text_nocomma : forall a, wf_aip a -> ~ In 44 (aip_text a).
Proof.
  intros [fam ip c] W. unfold wf_aip in W. cbn [a_family a_ip a_cidr] in W. unfold aip_text. cbn [a_family a_ip a_cidr].
  assert (N : forall h, Forall addr_char h -> 0 <= c -> ~ In 44 (h ++ 47 :: print_dec c)).
  { intros h Hh Hc. rewrite in_app_iff. cbn [In]. intros [G|[G|G]]; [|lia|]; revert G; [apply (not_in_by _ _ _ Hh)|apply dec_no; [exact Hc|]]; unfold addr_char; lia. }
  destruct W as [(-> & L & B & H)|(-> & L & B & H)].
  - change (AF_INET =? AF_INET) with true. cbv iota. apply N; [apply ntop4_addr, B|lia].
  - change (AF_INET6 =? AF_INET) with false. cbv iota. apply N; [apply ntop6_chars, B|lia].
Qed.

(** "a, b, c" *)
Definition spaced (fs : list (list Z)) : list Z :=
  (fix go l := match l with [] => [] | [f] => f | f :: l' => f ++ [44; 32] ++ go l' end) fs.
Lemma conf_aips_spaced : forall l, Forall wf_aip l -> conf_aips l = spaced (map aip_text l).
Proof.
  induction 1 as [|a l Ha Hl IH]; [reflexivity|]. cbn [conf_aips map].
  assert (E : forall t, (if a_family a =? AF_INET then inet_ntop4 (a_ip a) ++ 47 :: print_dec (a_cidr a) ++ t
                         else if a_family a =? AF_INET6 then inet_ntop6 (a_ip a) ++ 47 :: print_dec (a_cidr a) ++ t else []) = aip_text a ++ t).
  { intro t. unfold aip_text. destruct Ha as [(-> & _)|(-> & _)].
    - change (AF_INET =? AF_INET) with true. cbv iota. rewrite <- app_assoc. reflexivity.
    - change (AF_INET6 =? AF_INET) with false. change (AF_INET6 =? AF_INET6) with true. cbv iota. rewrite <- app_assoc. reflexivity. }
  rewrite E, IH. destruct l as [|b l]; [cbn [map spaced]; rewrite !app_nil_r; reflexivity|]. cbn [map]. rewrite <- app_assoc. reflexivity.
Qed.
Lemma normal_spaced : forall fs, Forall (Forall okc) fs -> normal (spaced fs) = commas fs.
Proof.
  induction fs as [|f fs IH]; intro F; [reflexivity|]. inversion F as [|? ? Ff Ffs]; subst. destruct fs as [|g fs].
  - cbn [spaced commas]. rewrite <- (app_nil_r f) at 1. rewrite okc_normal by exact Ff. cbn. apply app_nil_r.
  - rewrite commas_cons. change (spaced (f :: g :: fs)) with (f ++ [44; 32] ++ spaced (g :: fs)). rewrite okc_normal by exact Ff. f_equal.
    change ([44; 32] ++ spaced (g :: fs)) with ([44] ++ 32 :: spaced (g :: fs)). rewrite normal_space by reflexivity. rewrite normal_plain_app by reflexivity.
    cbn [app]. f_equal. apply IH. exact Ffs.
Qed.
Lemma spaced_nonl : forall fs, Forall (Forall okc) fs -> ~ In 10 (spaced fs).
Proof.
  induction fs as [|f fs IH]; intro F; [intros []|]. inversion F as [|? ? Ff Ffs]; subst. destruct fs as [|g fs]; [apply okc_nonl, Ff|].
  change (spaced (f :: g :: fs)) with (f ++ [44; 32] ++ spaced (g :: fs)). rewrite !in_app_iff. cbn [In]. intros [G|[[G|[G|[]]]|G]]; try lia; [revert G; apply okc_nonl, Ff|exact (IH Ffs G)].
Qed.
Lemma spaced_bytes : forall fs, Forall (Forall okc) fs -> Forall is_char (spaced fs).
Proof.
  induction fs as [|f fs IH]; intro F; [constructor|]. inversion F as [|? ? Ff Ffs]; subst.
  assert (Bf : Forall is_char f) by (eapply Forall_impl; [|exact Ff]; intros c (_ & _ & N & B); unfold is_char, is_byte in *; lia).
  destruct fs as [|g fs]; [exact Bf|]. change (spaced (f :: g :: fs)) with (f ++ [44; 32] ++ spaced (g :: fs)). apply Forall_app. split; [exact Bf|].
  cbn [app]. constructor; [unfold is_char; lia|]. constructor; [unfold is_char; lia|]. apply IH, Ffs.
Qed.
Lemma normal_aips : forall l, Forall wf_aip l -> normal (ckv "AllowedIPs" (conf_aips l) ++ [10]) = str "AllowedIPs=" ++ commas (map aip_text l).
Proof.
  intros l H. rewrite conf_aips_spaced by exact H. unfold ckv. rewrite normal_nl, normal_plain_app by reflexivity.
  change (str " = ") with [32; 61; 32]. change ([32; 61; 32] ++ spaced (map aip_text l)) with ([] ++ 32 :: 61 :: 32 :: spaced (map aip_text l)). rewrite normal_space by reflexivity. cbn [app].
  change (61 :: 32 :: spaced (map aip_text l)) with ([61] ++ 32 :: spaced (map aip_text l)). rewrite normal_space by reflexivity. rewrite normal_plain_app by reflexivity.
  rewrite normal_spaced; [reflexivity|]. apply Forall_forall. intros x Hx. apply in_map_iff in Hx as (a & <- & Ha). rewrite Forall_forall in H. apply aip_text_okc, H, Ha.
Qed.
Lemma aips_text_value : forall a l, Forall wf_aip (a :: l) -> aips_value (commas (map aip_text (a :: l))) (a :: l).
Proof.
  intros a l H. cbn [map]. apply avs_some.
  - change (aip_text a :: map aip_text l) with (map aip_text (a :: l)). apply Forall_forall. intros x Hx. apply in_map_iff in Hx as (b & <- & Hb).
    rewrite Forall_forall in H. apply aip_text_nocomma, H, Hb.
  - change (aip_text a :: map aip_text l) with (map aip_text (a :: l)). induction H as [|b l' Hb Hl IH]; [constructor|]. constructor; [apply aip_text_value, Hb|exact IH].
  - intro C. assert (X : aip_text a <> []).
    { unfold aip_text. intro E. apply app_eq_nil in E as [_ E]. discriminate. }
    destruct l as [|b l]; cbn [map] in C; [cbn [commas] in C; congruence|]. rewrite commas_cons in C. apply app_eq_nil in C as [_ C]. discriminate.
Qed.

(** ** Reading the lines *)
Lemma ep_value_split : forall ep v, wf_endpoint ep ->
  (forall a s, Forall (fun c => is_ws c = false /\ c <> 35 /\ c <> 93 /\ is_char c) (scope_name a s)) -> ep_value ep = Some v ->
  exists h p, prints_as scope_name ep h p /\ endpoint_split v h p /\ Forall okc v.
Proof.
  intros ep v W S E. unfold ep_value in E. destruct ep as [|a p|a p f s]; cbn [nameinfo wf_endpoint] in *; [discriminate| |].
  - destruct W as (L & B & P). injection E as <-. exists (inet_ntop4 a), (print_dec p). pose proof (ntop4_addr a B) as C. pose proof (ntop4_chars a B) as C'. repeat split.
    + apply es_plain; [|apply (not_in_by _ _ _ (print_dec_digits p (proj1 P))); cbn; lia|apply print_num_nonempty]. destruct (inet_ntop4 a) as [|x t]; cbn; [lia|]. inversion C'; subst. lia.
    + apply Forall_app. split; [apply addr_okc, C|]. constructor; [unfold okc, is_byte; cbn; lia|]. apply dec_okc. lia.
  - destruct W as (L & B & P & _). assert (Ba : bytes_n 16 a) by (split; assumption).
    set (h := inet_ntop6 a ++ (if s =? 0 then [] else 37 :: scope_name a s)) in *.
    assert (Hc : has_char 58 h = true) by (apply has_char_In, in_app_iff; left; apply ntop6_colon_in, Ba). rewrite Hc in E. cbn [andb] in E. injection E as <-.
    exists h, (print_dec p). pose proof (ntop6_chars a B) as C.
    assert (Sc : Forall okc (if s =? 0 then [] else 37 :: scope_name a s)).
    { destruct (s =? 0); [constructor|]. constructor; [unfold okc, is_byte; cbn; lia|]. eapply Forall_impl; [|apply S]. cbn beta. unfold okc, is_char, is_byte. intros c (H1 & H2 & H3 & H4). repeat split; try assumption; lia. }
    repeat split.
    + apply es_bracket; [|apply print_num_nonempty]. unfold h. rewrite in_app_iff. intros [G|G]; [revert G; apply (not_in_by _ _ _ C); unfold addr_char; lia|].
      destruct (s =? 0); [destruct G|]. destruct G as [G|G]; [lia|]. specialize (S a s). rewrite Forall_forall in S. destruct (S 93 G) as (_ & _ & N & _). lia.
    + constructor; [unfold okc, is_byte; cbn; lia|]. apply Forall_app. split; [apply Forall_app; split; [apply addr_okc, C|exact Sc]|].
      constructor; [unfold okc, is_byte; cbn; lia|]. constructor; [unfold okc, is_byte; cbn; lia|]. apply dec_okc. lia.
Qed.

Definition line_ok (l : list Z) : Prop := ~ In 10 l /\ Forall is_char l.
Lemma okc_line : forall v, Forall okc v -> line_ok v.
Proof. intros v H. split; [apply okc_nonl, H|]. eapply Forall_impl; [|exact H]. intros c (_ & _ & N & B). unfold is_char, is_byte in *; lia. Qed.
Lemma str_line : forall K, forallb (fun c => negb (c =? 10) && negb (c =? 0)) (str K) = true -> line_ok (str K).
Proof.
  intros K H. rewrite forallb_forall in H. split; [intro I; specialize (H 10 I); discriminate|]. pose proof (str_bytes K) as B. rewrite Forall_forall in *. intros c Hc.
  specialize (H c Hc). specialize (B c Hc). unfold is_char, is_byte in *. lia.
Qed.
Lemma app_line : forall a b, line_ok a -> line_ok b -> line_ok (a ++ b).
Proof. intros a b [A1 A2] [B1 B2]. split; [rewrite in_app_iff; tauto|apply Forall_app; split; assumption]. Qed.

Variable port_of : list Z -> option Z.
Variable resolve : list Z -> list Z -> option endpoint.
Hypothesis NW : numeric_world port_of resolve scope_name.
Notation rd := (reads port_of resolve normal).
Definition nl (l : list Z) : list Z := l ++ [10].

(** Each line adds its item. *)
Lemma rd_blank : forall s ls its, rd s ls its -> rd s (nl [] :: ls) its.
Proof. intros. apply r_blank; [reflexivity|assumption]. Qed.
Lemma nonempty_okc : forall K (v : list Z), v <> [] -> forallb plain (str K) = true -> Forall okc v -> normal (nl (ckv K v)) = str (K ++ "=") ++ v.
Proof.
  intros K v _ HK Hv. unfold nl, ckv. rewrite normal_kv by assumption.
  assert (E : forall a b, str (a ++ b) = str a ++ str b) by (unfold str; induction a as [|c a IH]; intro b; [reflexivity|cbn [append list_ascii_of_string map app]; rewrite IH; reflexivity]).
  rewrite E, <- app_assoc. reflexivity.
Qed.

Definition dev_items (d : device) : list item :=
  ItInterface :: when (negb (d_port d =? 0)) (ItDev (SPort (d_port d))) ++ when (negb (d_fwmark d =? 0)) (ItDev (SFwmark (d_fwmark d))) ++
  when (d_has_priv d) (ItDev (SPriv (d_priv d))).
Definition peer_items (p : peer) : list item :=
  ItPeer :: ItPeerS (SPub (p_pub p)) :: when (p_has_psk p) (ItPeerS (SPsk (p_psk p))) ++
  (match p_aips p with [] => [] | _ => [ItPeerS (SAips (p_aips p))] end) ++
  (match p_endpoint p with EpNone => [] | e => [ItPeerS (SEndpoint (no_flow e))] end) ++
  when (negb (p_ka p =? 0)) (ItPeerS (SKa (p_ka p))).

Lemma key_len : forall k, is_key k -> rfc4648 k <> [].
Proof. intros k [L _]. destruct k; [discriminate|]. cbn [rfc4648]. destruct k as [|? [|? ?]]; discriminate. Qed.

Lemma read_peer : forall p s ls its, wf_peer p -> rd InPeer ls its -> rd s (map nl (peer_lines p) ++ ls) (peer_items p ++ its).
Proof.
  intros p s ls its (Wp & Ws & We & Wk & Wa & _) R. unfold peer_lines, peer_items. cbn [map app].
  apply r_peer; [reflexivity|].
  rewrite key_to_base64_rfc by exact Wp. apply r_peers.
  { rewrite nonempty_okc; [|apply key_len, Wp|reflexivity|apply key_okc, Wp]. apply pl_pub; [reflexivity|apply key_len, Wp|split; [exact Wp|reflexivity]]. }
  rewrite !map_app, <- !app_assoc.
  assert (K : rd InPeer (map nl (when (negb (p_ka p =? 0)) (ckv "PersistentKeepalive" (print_dec (p_ka p)))) ++ ls) (when (negb (p_ka p =? 0)) (ItPeerS (SKa (p_ka p))) ++ its)).
  { destruct (p_ka p =? 0); [exact R|]. cbn [negb when map app]. apply r_peers; [|exact R].
    rewrite nonempty_okc; [|apply print_num_nonempty|reflexivity|apply dec_okc; lia]. apply pl_ka; [reflexivity|apply print_num_nonempty|]. apply ka_dec; [apply decimal_print; lia|lia]. }
  revert K. generalize (map nl (when (negb (p_ka p =? 0)) (ckv "PersistentKeepalive" (print_dec (p_ka p)))) ++ ls), (when (negb (p_ka p =? 0)) (ItPeerS (SKa (p_ka p))) ++ its). clear R ls its. intros ls its R.
  assert (E : rd InPeer (map nl (match ep_value (p_endpoint p) with None => [] | Some v => [ckv "Endpoint" v] end) ++ ls)
                ((match p_endpoint p with EpNone => [] | e => [ItPeerS (SEndpoint (no_flow e))] end) ++ its)).
  { destruct (ep_value (p_endpoint p)) as [v|] eqn:V.
    - destruct (ep_value_split _ v We (nw_scope _ _ _ NW) V) as (h & q & Pr & Sp & Ok).
      assert (N : v <> []) by (destruct Sp; [destruct h; discriminate|discriminate]).
      replace (match p_endpoint p with EpNone => [] | e => [ItPeerS (SEndpoint (no_flow e))] end) with [ItPeerS (SEndpoint (no_flow (p_endpoint p)))].
      2:{ destruct (p_endpoint p); [destruct Pr|reflexivity|reflexivity]. }
      cbn [map app]. apply r_peers; [|exact R]. rewrite nonempty_okc; [|exact N|reflexivity|exact Ok].
      apply (pl_ep _ (str "Endpoint=") v h q); [reflexivity|exact N|exact Sp|]. apply (nw_resolve _ _ _ NW _ _ _ We Pr).
    - destruct (p_endpoint p); [exact R|discriminate|discriminate]. }
  revert E. generalize (map nl (match ep_value (p_endpoint p) with None => [] | Some v => [ckv "Endpoint" v] end) ++ ls),
    ((match p_endpoint p with EpNone => [] | e => [ItPeerS (SEndpoint (no_flow e))] end) ++ its). clear R ls its. intros ls its R.
  assert (A : rd InPeer (map nl (match p_aips p with [] => [] | _ => [ckv "AllowedIPs" (conf_aips (p_aips p))] end) ++ ls)
                ((match p_aips p with [] => [] | _ => [ItPeerS (SAips (p_aips p))] end) ++ its)).
  { destruct (p_aips p) as [|a l]; [exact R|]. cbn [map app]. apply r_peers; [|exact R]. unfold nl. rewrite normal_aips by exact Wa.
    pose proof (aips_text_value a l Wa) as V. apply pl_aips; [reflexivity| |exact V]. remember (commas (map aip_text (a :: l))) as t. remember (a :: l) as al. destruct V; [discriminate|assumption]. }
  revert A. generalize (map nl (match p_aips p with [] => [] | _ => [ckv "AllowedIPs" (conf_aips (p_aips p))] end) ++ ls),
    ((match p_aips p with [] => [] | _ => [ItPeerS (SAips (p_aips p))] end) ++ its). clear R ls its. intros ls its R.
  destruct (p_has_psk p); [|exact R]. cbn [when map app]. apply r_peers; [|exact R]. rewrite key_to_base64_rfc by exact Ws.
  rewrite nonempty_okc; [|apply key_len, Ws|reflexivity|apply key_okc, Ws]. apply pl_psk; [reflexivity|apply key_len, Ws|split; [exact Ws|reflexivity]].
Qed.

Lemma read_peers : forall l s, Forall wf_peer l -> rd s (map nl (peers_lines l)) (flat_map peer_items l).
Proof.
  induction l as [|p l IH]; intros s W; [constructor|]. inversion W as [|? ? Wp Wl]; subst. cbn [peers_lines flat_map]. rewrite !map_app. apply read_peer; [exact Wp|].
  destruct l; cbn [map app]; [apply IH, Wl|]. apply rd_blank, IH, Wl.
Qed.

Lemma read_conf : forall d, wf_device d -> rd NoSection (map nl (conf_lines d)) (dev_items d ++ flat_map peer_items (d_peers d)).
Proof.
  intros d (_ & Wp & Wf & Wo & Wl). unfold conf_lines, dev_items. cbn [map app]. apply r_interface; [reflexivity|].
  rewrite !map_app, <- !app_assoc. cbn [map]. pose proof (rd_blank InInterface _ _ (read_peers _ InInterface Wl)) as R. revert R.
  generalize (nl [] :: map nl (peers_lines (d_peers d))), (flat_map peer_items (d_peers d)). intros ls its R.
  assert (K : rd InInterface (map nl (when (d_has_priv d) (ckv "PrivateKey" (key_to_base64 (d_priv d)))) ++ ls) (when (d_has_priv d) (ItDev (SPriv (d_priv d))) ++ its)).
  { destruct (d_has_priv d); [|exact R]. cbn [when map app]. apply r_dev; [|exact R]. rewrite key_to_base64_rfc by exact Wp.
    rewrite nonempty_okc; [|apply key_len, Wp|reflexivity|apply key_okc, Wp]. apply dl_priv; [reflexivity|apply key_len, Wp|split; [exact Wp|reflexivity]]. }
  revert K. generalize (map nl (when (d_has_priv d) (ckv "PrivateKey" (key_to_base64 (d_priv d)))) ++ ls), (when (d_has_priv d) (ItDev (SPriv (d_priv d))) ++ its). clear R ls its. intros ls its R.
  assert (K : rd InInterface (map nl (when (negb (d_fwmark d =? 0)) (ckv "FwMark" (str "0x" ++ print_hex (d_fwmark d)))) ++ ls) (when (negb (d_fwmark d =? 0)) (ItDev (SFwmark (d_fwmark d))) ++ its)).
  { destruct (d_fwmark d =? 0); [exact R|]. cbn [negb when map app]. apply r_dev; [|exact R].
    rewrite nonempty_okc; [|discriminate|reflexivity|]. 2:{ apply Forall_app. split; [repeat constructor; unfold is_byte; cbn; lia|apply hexnum_okc; lia]. }
    apply dl_fw; [reflexivity|discriminate|]. change (2 ^ 32) with 4294967296 in Wf. apply fw_hex; [apply hexadecimal_iff; split; [apply print_num_nonempty|apply print_hex_value; lia]|lia]. }
  revert K. generalize (map nl (when (negb (d_fwmark d =? 0)) (ckv "FwMark" (str "0x" ++ print_hex (d_fwmark d)))) ++ ls), (when (negb (d_fwmark d =? 0)) (ItDev (SFwmark (d_fwmark d))) ++ its). clear R ls its. intros ls its R.
  destruct (Z.eqb_spec (d_port d) 0) as [_|N]; [exact R|]. cbn [negb when map app]. apply r_dev; [|exact R].
  rewrite nonempty_okc; [|apply print_num_nonempty|reflexivity|apply dec_okc; lia]. apply dl_port; [reflexivity|apply print_num_nonempty|]. apply (nw_port _ _ _ NW). lia.
Qed.

(** ** What the items mean *)
Lemma groups_peers : forall l, groups (flat_map peer_items l) =
  ([], map (fun p => SPub (p_pub p) :: when (p_has_psk p) (SPsk (p_psk p)) ++ (match p_aips p with [] => [] | _ => [SAips (p_aips p)] end) ++
          (match p_endpoint p with EpNone => [] | e => [SEndpoint (no_flow e)] end) ++ when (negb (p_ka p =? 0)) (SKa (p_ka p))) l).
Proof.
  induction l as [|p l IH]; [reflexivity|]. cbn [flat_map map]. unfold peer_items at 1. cbn [app groups].
  rewrite <- !app_assoc. destruct (p_has_psk p), (p_aips p), (p_endpoint p), (p_ka p =? 0); cbn [when negb app groups]; rewrite IH; reflexivity.
Qed.
Lemma dev_of_peers : forall l, ports (flat_map peer_items l) = [] /\ fwmarks (flat_map peer_items l) = [] /\ privs (flat_map peer_items l) = [].
Proof.
  induction l as [|p l (A & B & C)]; [repeat split|]. cbn [flat_map]. unfold ports, fwmarks, privs in *. rewrite !flat_map_app, A, B, C, !app_nil_r.
  unfold peer_items. destruct (p_has_psk p), (p_aips p), (p_endpoint p), (p_ka p =? 0); repeat split.
Qed.
Lemma items_mean : forall d, device_of false (dev_items d ++ flat_map peer_items (d_peers d)) = restored d.
Proof.
  intro d. destruct (dev_of_peers (d_peers d)) as (P & F & K). unfold device_of.
  assert (G : groups (dev_items d ++ flat_map peer_items (d_peers d)) = groups (flat_map peer_items (d_peers d))).
  { unfold dev_items. destruct (d_port d =? 0), (d_fwmark d =? 0), (d_has_priv d); reflexivity. }
  rewrite G, groups_peers. cbn [snd].
  assert (Q : ports (dev_items d ++ flat_map peer_items (d_peers d)) = when (negb (d_port d =? 0)) (d_port d) /\
              fwmarks (dev_items d ++ flat_map peer_items (d_peers d)) = when (negb (d_fwmark d =? 0)) (d_fwmark d) /\
              privs (dev_items d ++ flat_map peer_items (d_peers d)) = when (d_has_priv d) (d_priv d)).
  { unfold ports, fwmarks, privs in *. rewrite !flat_map_app, P, F, K, !app_nil_r. unfold dev_items. destruct (d_port d =? 0), (d_fwmark d =? 0), (d_has_priv d); repeat split. }
  destruct Q as (-> & -> & ->). unfold restored. cbn [negb orb].
  assert (M : map peer_of (map (fun p => SPub (p_pub p) :: when (p_has_psk p) (SPsk (p_psk p)) ++ (match p_aips p with [] => [] | _ => [SAips (p_aips p)] end) ++
          (match p_endpoint p with EpNone => [] | e => [SEndpoint (no_flow e)] end) ++ when (negb (p_ka p =? 0)) (SKa (p_ka p))) (d_peers d)) = map restored_peer (d_peers d)).
  { rewrite map_map. apply map_ext. intro p. unfold peer_of, restored_peer. 
    destruct (p_has_psk p), (p_aips p), (p_endpoint p), (Z.eqb_spec (p_ka p) 0) as [Z0|Z0]; cbn; rewrite ?Z0, ?app_nil_r; reflexivity. }
  rewrite M. destruct (Z.eqb_spec (d_port d) 0) as [Z0|Z0], (Z.eqb_spec (d_fwmark d) 0) as [Z1|Z1], (d_has_priv d); cbn [negb when last]; rewrite ?Z0, ?Z1; reflexivity.
Qed.
Lemma items_pubs : forall d, Forall (fun ss => pubs ss <> []) (snd (groups (dev_items d ++ flat_map peer_items (d_peers d)))).
Proof.
  intro d. replace (groups (dev_items d ++ flat_map peer_items (d_peers d))) with (groups (flat_map peer_items (d_peers d))).
  2:{ unfold dev_items. destruct (d_port d =? 0), (d_fwmark d =? 0), (d_has_priv d); reflexivity. }
  rewrite groups_peers. cbn [snd]. apply Forall_forall. intros x Hx. apply in_map_iff in Hx as (p & <- & _). discriminate.
Qed.

(** The lines are lines. *)
Lemma conf_lines_ok : forall d, wf_device d -> Forall line_ok (conf_lines d).
Proof.
  intros d (_ & Wp & Wf & Wo & Wl).
  assert (KV : forall K v, forallb (fun c => negb (c =? 10) && negb (c =? 0)) (str K) = true -> line_ok v -> line_ok (ckv K v)).
  { intros K v H V. unfold ckv. apply app_line; [apply str_line, H|]. apply app_line; [apply str_line; reflexivity|exact V]. }
  assert (Wh : forall b l, (b = true -> line_ok l) -> Forall line_ok (when b l)) by (intros [] l H; cbn; [constructor; [apply H; reflexivity|constructor]|constructor]).
  assert (Key : forall K k, forallb (fun c => negb (c =? 10) && negb (c =? 0)) (str K) = true -> is_key k -> line_ok (ckv K (key_to_base64 k))).
  { intros K k H Hk. apply KV; [exact H|]. rewrite key_to_base64_rfc by exact Hk. apply okc_line, key_okc, Hk. }
  assert (Nil : line_ok []) by (split; [intros []|constructor]).
  unfold conf_lines. constructor; [apply str_line; reflexivity|]. apply Forall_app. split; [apply Wh; intros _; apply KV; [reflexivity|apply okc_line, dec_okc; lia]|].
  apply Forall_app. split. { apply Wh; intros _; apply KV; [reflexivity|]. apply app_line; [apply str_line; reflexivity|apply okc_line, hexnum_okc; lia]. }
  apply Forall_app. split; [apply Wh; intros _; apply Key; [reflexivity|exact Wp]|]. constructor; [exact Nil|].
  induction Wl as [|p l W _ IH]; [constructor|]. cbn [peers_lines]. destruct W as (Wp' & Ws & We & Wk & Wa & _).
  apply Forall_app. split; [|apply Forall_app; split; [destruct l; repeat constructor; try assumption; intros []|exact IH]].
  unfold peer_lines. constructor; [apply str_line; reflexivity|]. constructor; [apply Key; [reflexivity|exact Wp']|].
  apply Forall_app. split; [apply Wh; intros _; apply Key; [reflexivity|exact Ws]|]. apply Forall_app. split.
  { destruct (p_aips p) as [|a t] eqn:Ea; [constructor|]. constructor; [|constructor]. apply KV; [reflexivity|]. rewrite conf_aips_spaced by exact Wa.
    assert (Fo : Forall (Forall okc) (map aip_text (a :: t))) by (apply Forall_forall; intros x Hx; apply in_map_iff in Hx as (b & <- & Hb); rewrite Forall_forall in Wa; apply aip_text_okc, Wa, Hb).
    split; [apply spaced_nonl, Fo|apply spaced_bytes, Fo]. }
  apply Forall_app. split.
  { destruct (ep_value (p_endpoint p)) as [v|] eqn:V; [|constructor]. constructor; [|constructor]. destruct (ep_value_split _ v We (nw_scope _ _ _ NW) V) as (h & q & _ & _ & Ok). apply KV; [reflexivity|apply okc_line, Ok]. }
  apply Wh; intros _; apply KV; [reflexivity|apply okc_line, dec_okc; lia].
Qed.

Lemma conf_means : forall d, wf_device d -> config_means port_of resolve false (getlines (conf_text scope_name d)) (restored d) /\
  Forall (Forall is_byte) (getlines (conf_text scope_name d)).
Proof.
  intros d W. pose proof (conf_lines_ok d W) as L. rewrite conf_text_lines, getlines_unlines by (eapply Forall_impl; [|exact L]; intros l H; apply H). split.
  - exists (dev_items d ++ flat_map peer_items (d_peers d)). split; [apply read_conf, W|]. split; [symmetry; apply items_mean|apply items_pubs].
  - apply Forall_forall. intros x Hx. apply in_map_iff in Hx as (y & <- & Hy). rewrite Forall_forall in L. apply Forall_app. split; [eapply Forall_impl; [|apply L, Hy]; intros c Hc; unfold is_char, is_byte in *; lia|]. constructor; [unfold is_byte; lia|constructor].
Qed.
End Lines.
