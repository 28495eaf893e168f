(** Proofs about 'wg show': the view for people. *)
From Coq Require Import String ZArith List Bool Lia Permutation Sorted.
From Verif Require Import Base Ctype Encoding EncodingSpec EncodingProofs Cstr CstrProofs NumSpec ConfigProofs Inet InetProofs TextProofs Types Uapi UapiProofs4 ShowconfProofs
  Terminal TerminalSpec PropTerminal Show ShowSpec ShowProofs.
Import ListNotations.
Open Scope Z_scope.

(** ** Visible characters *)
Lemma visible_textual : forall t, visible t -> textual t.
Proof. intros t H. apply (textual_by _ _ H). intros c Hc. cbn beta in Hc. lia. Qed.
Lemma visible_not : forall c t, visible t -> c <= 32 -> ~ In c t.
Proof. intros c t H L. apply (not_in_by _ _ _ H). lia. Qed.
Lemma visible_app : forall a b, visible a -> visible b -> visible (a ++ b).
Proof. intros a b A B. apply Forall_app. split; assumption. Qed.
Lemma visible_cons : forall c a, 32 < c < 256 -> visible a -> visible (c :: a).
Proof. intros. constructor; assumption. Qed.
Lemma visible_b : forall t, forallb (fun c => (32 <? c) && (c <? 256)) t = true -> visible t.
Proof. intros t H. apply Forall_forall. intros c Hc. rewrite forallb_forall in H. specialize (H c Hc). rewrite andb_true_iff, !Z.ltb_lt in H. lia. Qed.
Lemma addr_visible : forall v, Forall addr_char v -> visible v.
Proof. intros v H. eapply Forall_impl; [|exact H]. unfold addr_char. intros; lia. Qed.
Lemma dec_visible : forall n, 0 <= n -> visible (print_dec n).
Proof. intros n H. apply addr_visible, dec_addr, H. Qed.
Lemma hex_visible : forall n, 0 <= n -> visible (print_hex n).
Proof. intros n H. apply addr_visible, hex_addr, H. Qed.
Lemma key_visible : forall k, wf_key k -> visible (rfc4648 k).
Proof.
  intros k [L B]. assert (A : forall d, 0 <= d < 64 -> 32 < b64_char d < 256).
  { intros d H. assert (T : (fun d => (32 <? b64_char d) && (b64_char d <? 256)) d = true).
    { assert (S : forall d, is_byte d -> (64 <=? d) || ((32 <? b64_char d) && (b64_char d <? 256)) = true) by (apply byte_sweep; vm_compute; reflexivity).
      specialize (S d ltac:(unfold is_byte; lia)). apply orb_true_iff in S as [S|S]; [apply Z.leb_le in S; lia|exact S]. }
    cbn beta in T. rewrite andb_true_iff, !Z.ltb_lt in T. lia. }
  assert (G : forall n k, (length k <= n)%nat -> Forall is_byte k -> visible (rfc4648 k)).
  { clear - A. induction n as [|n IH]; intros k L B; [destruct k; [constructor|cbn in L; lia]|]. destruct k as [|a [|b [|c k]]]; cbn [rfc4648]; [constructor| | |];
      repeat match goal with H : Forall is_byte (_ :: _) |- _ => inversion H; subst; clear H end; unfold is_byte in *;
      repeat (apply visible_cons; [first [apply A; Z.to_euclidean_division_equations; lia | lia]|]); try constructor.
    apply IH; [cbn [length] in L; lia|assumption]. }
  apply (G 32%nat); [lia|exact B].
Qed.

Lemma aip_visible : forall a, wf_aip a -> visible (ip_str a ++ 47 :: print_dec (a_cidr a)) /\ ~ In 44 (ip_str a ++ 47 :: print_dec (a_cidr a)) /\ aip_field (ip_str a ++ 47 :: print_dec (a_cidr a)) a.
Proof.
  intros [fam ip c] W. unfold wf_aip in W. cbn [a_family a_ip a_cidr] in W. unfold ip_str. cbn [a_family a_ip a_cidr].
  assert (N : forall h, Forall addr_char h -> 0 <= c -> visible (h ++ 47 :: print_dec c) /\ ~ In 44 (h ++ 47 :: print_dec c)).
  { intros h Hh Hc. split; [apply visible_app; [apply addr_visible, Hh|apply visible_cons; [lia|apply dec_visible, Hc]]|].
    rewrite in_app_iff. cbn [In]. intros [G|[G|G]]; [|lia|]; revert G; [apply (not_in_by _ _ _ Hh)|apply dec_no; [exact Hc|]]; unfold addr_char; lia. }
  destruct W as [(-> & L & B & H)|(-> & L & B & H)].
  - change (AF_INET =? AF_INET) with true. cbv iota. destruct (N _ (ntop4_addr ip B)) as [V C]; [lia|]. split; [exact V|]. split; [exact C|].
    apply af_4; [|apply inet4_roundtrip; split; assumption|apply decimal_print; lia]. apply (not_in_by _ _ _ (ntop4_chars ip B)). lia.
  - change (AF_INET6 =? AF_INET) with false. change (AF_INET6 =? AF_INET6) with true. cbv iota. destruct (N _ (ntop6_chars ip B)) as [V C]; [lia|]. split; [exact V|]. split; [exact C|].
    assert (Ba : bytes_n 16 ip) by (split; assumption). apply af_6; [apply ntop6_colon_in, Ba|apply inet6_roundtrip, Ba|apply decimal_print; lia].
Qed.

Lemma ep_visible : forall E ep, wf_endpoint ep -> ep <> EpNone -> (forall a s, visible (se_scope E a s)) ->
  visible (endpoint_str E ep) /\ ep_field (se_scope E) (endpoint_str E ep) ep.
Proof.
  intros E ep W N S. unfold endpoint_str. destruct ep as [|a p|a p f s]; cbn [nameinfo wf_endpoint andb] in *; [congruence| |].
  - destruct W as (L & B & P). split; [apply visible_app; [apply addr_visible, ntop4_addr, B|apply visible_cons; [lia|apply dec_visible; lia]]|].
    apply ef_4; [apply inet4_roundtrip; split; assumption|apply decimal_print; lia].
  - destruct W as (L & B & P & _). assert (Ba : bytes_n 16 a) by (split; assumption).
    assert (Hc : has_char 58 (inet_ntop6 a ++ (if s =? 0 then [] else 37 :: se_scope E a s)) = true) by (apply has_char_In, in_app_iff; left; apply ntop6_colon_in, Ba).
    rewrite Hc. cbv iota. split.
    + apply visible_cons; [lia|]. apply visible_app; [apply visible_app; [apply addr_visible, ntop6_chars, B|]|].
      * destruct (s =? 0); [constructor|]. apply visible_cons; [lia|apply S].
      * apply visible_cons; [lia|]. apply visible_cons; [lia|apply dec_visible; lia].
    + destruct (Z.eqb_spec s 0) as [->|Ns].
      * rewrite app_nil_r. apply ef_6; [apply inet6_roundtrip, Ba|apply decimal_print; lia].
      * rewrite <- app_assoc. cbn [app]. apply ef_6s; [apply inet6_roundtrip, Ba|apply decimal_print; lia|exact Ns].
Qed.

(** ** What the calls of terminal_printf read *)
Definition reads (ts : list (list Z)) (u : list Z) : Prop := exists us, Forall2 plainly ts us /\ flat_map (fun x => x) us = u.
Lemma reads_nil : reads [] [].
Proof. exists []. split; [constructor|reflexivity]. Qed.
Lemma reads_app : forall ts ts' u u', reads ts u -> reads ts' u' -> reads (ts ++ ts') (u ++ u').
Proof. intros ts ts' u u' (us & A & <-) (us' & A' & <-). exists (us ++ us'). split; [apply Forall2_app; assumption|apply flat_map_app]. Qed.
Lemma reads_one : forall t u, plainly t u -> reads [t] u.
Proof. intros t u H. exists [u]. split; [constructor; [exact H|constructor]|cbn; apply app_nil_r]. Qed.
Lemma reads_printf : forall sg ts u, reads ts u -> flat_map (terminal_printf sg false) ts = u.
Proof.
  intros sg ts u (us & A & <-). induction A as [|t x ts us H _ IH]; [reflexivity|]. cbn [flat_map]. rewrite IH. f_equal. apply plainly_printf, H.
Qed.
Lemma reads_stripped : forall sg ts u, reads ts u -> stripped (flat_map (terminal_printf sg true) ts) u.
Proof.
  intros sg ts u (us & A & <-). apply plainly_stripped. rewrite (flat_map_ext _ (fun t => t)) by (intro; apply C33_coloured). apply plainly_flat, A.
Qed.

(** A value that stays on its line. *)
Definition on_line (t : list Z) : Prop := textual t /\ ~ In 10 t.
Lemma visible_on_line : forall t, visible t -> on_line t.
Proof. intros t H. split; [apply visible_textual, H|apply visible_not; [exact H|lia]]. Qed.
Lemma on_line_app : forall a b, on_line a -> on_line b -> on_line (a ++ b).
Proof. intros a b [A1 A2] [B1 B2]. split; [apply textual_app; assumption|rewrite in_app_iff; tauto]. Qed.
Lemma on_line_b : forall t, forallb (fun c => (0 <? c) && (c <? 256) && negb (c =? 27) && negb (c =? 10)) t = true -> on_line t.
Proof.
  intros t H. rewrite forallb_forall in H. split.
  - apply textual_b. apply forallb_forall. intros c Hc. specialize (H c Hc). apply andb_true_iff in H as [H _]. exact H.
  - intro I. specialize (H 10 I). discriminate.
Qed.
Lemma on_line_by : forall (P : Z -> Prop) t, Forall P t -> (forall c, P c -> 0 < c < 256 /\ c <> 27 /\ c <> 10) -> on_line t.
Proof. intros P t F H. split; [apply (textual_by P _ F); intros c Hc; destruct (H c Hc); tauto|]. apply (not_in_by _ _ _ F). intro C. destruct (H _ C); lia. Qed.
Lemma on_line_join : forall sep l, on_line sep -> Forall on_line l -> on_line (join sep l).
Proof.
  intros sep l S. induction 1 as [|x l H F IH]; [split; [split; [constructor|intros []]|intros []]|]. destruct l; [exact H|]. apply on_line_app; [exact H|]. apply on_line_app; [exact S|exact IH].
Qed.
Lemma time_on_line : forall n, 0 <= n -> on_line (time_plain n).
Proof.
  intros n Hn. unfold time_plain. apply on_line_join; [apply on_line_b; reflexivity|]. apply Forall_forall. intros x Hx. apply in_map_iff in Hx as (u & <- & Hu).
  pose proof (units_pos n Hn u Hu) as [P _]. unfold unit_plain. apply on_line_app; [apply visible_on_line, dec_visible; lia|].
  assert (N : on_line (str (fst u))).
  { unfold units_of in Hu. apply filter_In in Hu as [Hu _]. cbn [In] in Hu. destruct Hu as [<-|[<-|[<-|[<-|[<-|[]]]]]]; apply on_line_b; reflexivity. }
  change (32 :: str (fst u) ++ (if snd u =? 1 then [] else str "s")) with ([32] ++ str (fst u) ++ (if snd u =? 1 then [] else str "s")).
  apply on_line_app; [apply on_line_b; reflexivity|]. apply on_line_app; [exact N|]. destruct (snd u =? 1); apply on_line_b; reflexivity.
Qed.
Lemma hundredths_visible : forall n, 0 <= n -> visible (print_hundredths n).
Proof.
  intros n Hn. unfold print_hundredths. apply visible_app; [apply dec_visible, Z.div_pos; lia|]. repeat (apply visible_cons; [Z.to_euclidean_division_equations; lia|]). constructor.
Qed.
Lemma size_plain : forall b, 0 <= b < 2 ^ 64 -> on_line (bytes_plain b) /\ size_text b (bytes_plain b).
Proof.
  intros b Hb. unfold bytes_plain. destruct (Z.ltb_spec b 1024) as [H0|H0].
  - split; [apply on_line_app; [apply visible_on_line, dec_visible; lia|apply on_line_b; reflexivity]|]. apply sz_exact; [exact H0|apply decimal_print; lia].
  - assert (D : 0 <= to_double b) by (apply to_double_nonneg; lia).
    assert (P : forall k unit, In (k, unit) [(1, "KiB"); (2, "MiB"); (3, "GiB"); (4, "TiB")]%string -> 1024 ^ k <= b -> (k < 4 -> b < 1024 ^ (k + 1)) ->
      on_line (32 :: str unit) -> forall v, v = print_2f (to_double b) (10 * k) ++ 32 :: str unit -> on_line v /\ size_text b v).
    { intros k unit I Lo Hi Lu v ->. assert (E : 2 ^ (10 * k) = 1024 ^ k) by (rewrite Z.pow_mul_r by (cbn [In] in I; destruct I as [I|[I|[I|[I|[]]]]]; injection I as <- _; lia); reflexivity).
      assert (Pk : 0 < 1024 ^ k) by (rewrite <- E; apply Z.pow_pos_nonneg; cbn [In] in I; destruct I as [I|[I|[I|[I|[]]]]]; injection I as <- _; lia).
      unfold print_2f. rewrite E. set (n := round_even (100 * to_double b) (1024 ^ k)). assert (Hn : 0 <= n) by (apply round_even_nonneg; lia). split.
      - apply on_line_app; [apply visible_on_line, hundredths_visible, Hn|exact Lu].
      - apply (sz_unit b k unit _ n I Lo Hi); [apply hundredths_print, Hn|]. pose proof (round_even_near (100 * to_double b) (1024 ^ k) Pk) as R. fold n in R.
        destruct (to_double_near b ltac:(lia)) as [[H E']|[H E']].
        { apply Z.ltb_lt in H. rewrite H. rewrite E' in R. lia. }
        assert (H' : (b <? 2 ^ 53) = false) by (apply Z.ltb_ge; lia). rewrite H'.
        change (2 ^ 64) with (2 ^ 53 * 2048) in Hb. change (2 ^ 53) with 9007199254740992 in *. lia. }
    destruct (Z.ltb_spec b (1024 * 1024)) as [H1|H1]; [apply (P 1 "KiB"%string); try reflexivity; [cbn; tauto|cbn; lia|cbn; lia|apply on_line_b; reflexivity]|].
    destruct (Z.ltb_spec b (1024 * 1024 * 1024)) as [H2|H2]; [apply (P 2 "MiB"%string); try reflexivity; [cbn; tauto|cbn; lia|cbn; lia|apply on_line_b; reflexivity]|].
    destruct (Z.ltb_spec b (1024 * 1024 * 1024 * 1024)) as [H3|H3]; [apply (P 3 "GiB"%string); try reflexivity; [cbn; tauto|cbn; lia|cbn; lia|apply on_line_b; reflexivity]|].
    apply (P 4 "TiB"%string); try reflexivity; [cbn; tauto|cbn; lia|lia|apply on_line_b; reflexivity].
Qed.

(** ** Lines *)
Lemma ended_app : forall a b, ended (a ++ b) = ended a ++ ended b.
Proof. intros. apply flat_map_app. Qed.
Lemma item_plainly : forall name v u, plainly v u -> textual (str name) -> plainly (item name v) ((str "  " ++ str name ++ str ": " ++ u) ++ [10]).
Proof.
  intros name v u H N. unfold item. rewrite <- !app_assoc.
  change (str "  " ++ str name ++ str ": " ++ u ++ [10]) with (str "  " ++ [] ++ str name ++ [] ++ str ": " ++ u ++ [10]).
  apply plainly_app; [apply plainly_text, textual_b; reflexivity|]. apply plainly_app; [apply plainly_code; cbn [In]; tauto|]. apply plainly_app; [apply plainly_text, N|].
  apply plainly_app; [apply plainly_code; cbn [In]; tauto|]. apply plainly_app; [apply plainly_text, textual_b; reflexivity|]. apply plainly_app; [exact H|].
  apply plainly_text, textual_b. reflexivity.
Qed.
Definition gives (ts : list (list Z)) (P : list (list Z) -> Prop) : Prop := exists ls, reads ts (ended ls) /\ P ls /\ Forall on_line ls.
Lemma optional_gives : forall (b : bool) (B : Prop) name v u (P : list Z -> Prop), (b = true <-> B) -> on_line (str name) ->
  (B -> plainly v u /\ on_line u /\ P u) -> gives (when1 b (item name v)) (optional B (labelled name P)).
Proof.
  intros b B name v u P HB N H. destruct b; cbn [when1].
  - assert (HB' : B) by tauto. destruct (H HB') as (Pl & O & Pu). exists [str "  " ++ str name ++ str ": " ++ u]. split; [|split].
    + apply reads_one. cbn [ended flat_map]. rewrite app_nil_r. apply item_plainly; [exact Pl|apply N].
    + left. split; [exact HB'|]. eexists. split; [reflexivity|]. exists u. auto.
    + constructor; [|constructor]. apply on_line_app; [apply on_line_b; reflexivity|]. apply on_line_app; [exact N|]. apply on_line_app; [apply on_line_b; reflexivity|exact O].
  - exists []. split; [apply reads_nil|]. split; [|constructor]. right. split; [intro C; apply HB in C; discriminate|reflexivity].
Qed.

Section View.
Variable E : show_env.
Hypothesis Hnow : 0 <= se_now E < 2 ^ 63.
Hypothesis Hscope : forall a s, visible (se_scope E a s).

Lemma secret_gives : forall k, wf_key k -> let v := masked_key (se_hide E) k in plainly v v /\ on_line v /\ secret_text (se_hide E) k v.
Proof.
  intros k W v. assert (O : on_line v /\ secret_text (se_hide E) k v).
  { unfold v, masked_key, secret_text. rewrite key_to_base64_rfc by exact W. destruct (se_hide E) as [h|].
    - destruct (beq h (str "never")) eqn:B.
      + apply beq_eq in B. subst h. split; [apply visible_on_line, key_visible, W|]. left. auto.
      + split; [apply on_line_b; reflexivity|]. right. split; [|reflexivity]. intro C. injection C as ->. rewrite beq_refl in B. discriminate.
    - split; [apply on_line_b; reflexivity|]. right. split; [discriminate|reflexivity]. }
  destruct O as [O S]. split; [apply plainly_text, O|]. auto.
Qed.
Lemma elapsed_gives : forall sec, 0 <= sec < 2 ^ 63 -> exists u, plainly (ago (se_now E) sec) u /\ on_line u /\ elapsed_text (se_now E) sec u.
Proof.
  intros sec Hs. destruct (Z.lt_trichotomy (se_now E) sec) as [L|[L|L]].
  - exists (str "(System clock wound backward; connection problems may ensue.)"). split; [|split; [apply on_line_b; reflexivity|right; left; auto]].
    unfold ago. destruct (Z.eqb_spec (se_now E) sec); [lia|]. apply Z.ltb_lt in L. rewrite L.
    change (str "(System clock wound backward; connection problems may ensue.)") with (str "(" ++ [] ++ str "System clock wound backward; connection problems may ensue." ++ [] ++ str ")").
    plain; apply plainly_text, textual_b; reflexivity.
  - exists (str "Now"). split; [|split; [apply on_line_b; reflexivity|left; auto]]. unfold ago. apply Z.eqb_eq in L. rewrite L. apply plainly_text, textual_b. reflexivity.
  - exists (time_plain (se_now E - sec) ++ str " ago"). split; [apply ago_plainly; [lia|change (2 ^ 64) with (2 * 2 ^ 63); lia]|]. split; [apply on_line_app; [apply time_on_line; lia|apply on_line_b; reflexivity]|].
    right. right. split; [exact L|]. eexists. split; [apply time_words_plain; lia|reflexivity].
Qed.
Lemma join_cons2 : forall sep x y l, join sep (x :: y :: l) = x ++ sep ++ join sep (y :: l).
Proof. reflexivity. Qed.
Lemma pretty_aips_gives : forall l, Forall wf_aip l -> l <> [] ->
  reads (pretty_aips l) (join (str ", ") (map (fun a => ip_str a ++ 47 :: print_dec (a_cidr a)) l) ++ [10]).
Proof.
  assert (O : forall a t, wf_aip a -> textual t -> plainly (ip_str a ++ cyan ++ [47] ++ reset ++ print_dec (a_cidr a) ++ t) ((ip_str a ++ 47 :: print_dec (a_cidr a)) ++ t)).
  { intros a t W T. destruct (aip_visible a W) as [V _]. apply visible_textual in V. destruct V as [V1 V2]. apply Forall_app in V1 as [V1 V3]. rewrite in_app_iff in V2.
    inversion V3; subst. rewrite <- app_assoc. change ((47 :: print_dec (a_cidr a)) ++ t) with ([] ++ [47] ++ [] ++ print_dec (a_cidr a) ++ t). cbn [In] in V2.
    plain; apply plainly_text; try exact T; try (apply textual_b; reflexivity); split; try assumption; tauto. }
  intros l W. induction W as [|a l Wa Wl IH]; intro N; [congruence|]. cbn [pretty_aips map]. destruct l as [|b l].
  - cbn [pretty_aips map join]. apply reads_one. apply O; [exact Wa|apply textual_b; reflexivity].
  - cbn [map]. specialize (IH ltac:(discriminate)). cbn [map] in IH. rewrite join_cons2, <- app_assoc.
    set (x := ip_str a ++ 47 :: print_dec (a_cidr a)) in *.
    replace (x ++ (str ", " ++ join (str ", ") ((ip_str b ++ 47 :: print_dec (a_cidr b)) :: map (fun a0 => ip_str a0 ++ 47 :: print_dec (a_cidr a0)) l)) ++ [10]) with
      ((x ++ str ", ") ++ join (str ", ") ((ip_str b ++ 47 :: print_dec (a_cidr b)) :: map (fun a0 => ip_str a0 ++ 47 :: print_dec (a_cidr a0)) l) ++ [10]) by (rewrite <- !app_assoc; reflexivity).
    match goal with |- reads (?h :: ?r) _ => change (h :: r) with ([h] ++ r) end. apply reads_app; [|exact IH]. apply reads_one. unfold x. apply O; [exact Wa|apply textual_b; reflexivity].
Qed.
Lemma aips_gives : forall l, Forall wf_aip l -> gives ([str "  " ++ bold ++ str "allowed ips" ++ reset ++ str ": "] ++ (match l with [] => [str "(none)" ++ [10]] | l => pretty_aips l end))
  (fun ls => exists t, ls = [t] /\ labelled "allowed ips" (fun v => aips_field (str ", ") v l) t).
Proof.
  intros l W. assert (X : exists v, reads (match l with [] => [str "(none)" ++ [10]] | l => pretty_aips l end) (v ++ [10]) /\ on_line v /\ aips_field (str ", ") v l).
  { destruct l as [|a0 l0] eqn:El.
    - exists (str "(none)"). split; [apply reads_one, plainly_text, textual_b; reflexivity|]. split; [apply on_line_b; reflexivity|apply asf_none].
    - rewrite <- El in *. assert (N : l <> []) by (rewrite El; discriminate). clear El. eexists. split; [|split].
      + replace (match l with [] => [str "(none)" ++ [10]] | _ => pretty_aips l end) with (pretty_aips l) by (destruct l; [congruence|reflexivity]). apply (pretty_aips_gives l W N).
      + apply on_line_join; [apply on_line_b; reflexivity|]. apply Forall_forall. intros x Hx. apply in_map_iff in Hx as (b & <- & Hb). rewrite Forall_forall in W. apply visible_on_line, aip_visible, W, Hb.
      + apply asf_some; [exact N| |].
        * clear N. induction W as [|b m Wb Wm IH]; [constructor|]. cbn [map]. constructor; [apply aip_visible, Wb|exact IH].
        * apply Forall_forall. intros x Hx. apply in_map_iff in Hx as (b & <- & Hb). rewrite Forall_forall in W. apply aip_visible, W, Hb. }
  destruct X as (v & R & O & F). exists [str "  " ++ str "allowed ips" ++ str ": " ++ v]. split; [|split].
  - cbn [ended flat_map]. rewrite app_nil_r, <- !app_assoc. change (str "  " ++ str "allowed ips" ++ str ": " ++ v ++ [10]) with (str "  allowed ips: " ++ v ++ [10]). apply reads_app; [|exact R].
    apply reads_one. change (str "  allowed ips: ") with (str "  " ++ [] ++ str "allowed ips" ++ [] ++ str ": "). plain; apply plainly_text, textual_b; reflexivity.
  - eexists. split; [reflexivity|]. exists v. auto.
  - constructor; [|constructor]. apply on_line_app; [apply on_line_b; reflexivity|]. apply on_line_app; [apply on_line_b; reflexivity|]. apply on_line_app; [apply on_line_b; reflexivity|exact O].
Qed.

Lemma gives_app : forall ts ts' P P', gives ts P -> gives ts' P' -> gives (ts ++ ts') (fun ls => exists a b, ls = a ++ b /\ P a /\ P' b).
Proof.
  intros ts ts' P P' (a & R & H & O) (b & R' & H' & O'). exists (a ++ b). split; [rewrite ended_app; apply reads_app; assumption|]. split; [exists a, b; auto|apply Forall_app; split; assumption].
Qed.
Lemma neqb_iff : forall z, negb (z =? 0) = true <-> z <> 0.
Proof. intro z. rewrite negb_true_iff. apply Z.eqb_neq. Qed.

Lemma peer_gives : forall p, wf_peer p -> times_ok p -> gives (pretty_peer E p) (peer_view (se_scope E) (se_hide E) (se_now E) p).
Proof.
  intros p (Wp & Ws & We & Wk & Wa & Wr & Wt & _) [Hs _]. unfold pretty_peer.
  assert (G1 : gives [yellow ++ bold ++ str "peer" ++ reset ++ str ": " ++ yellow ++ key_to_base64 (p_pub p) ++ reset ++ [10]] (fun ls => ls = [str "peer: " ++ rfc4648 (p_pub p)])).
  { exists [str "peer: " ++ rfc4648 (p_pub p)]. split; [|split; [reflexivity|]].
    - apply reads_one. rewrite key_to_base64_rfc by exact Wp. cbn [ended flat_map]. rewrite app_nil_r, <- app_assoc.
      change (str "peer: " ++ rfc4648 (p_pub p) ++ [10]) with ([] ++ [] ++ str "peer" ++ [] ++ str ": " ++ [] ++ rfc4648 (p_pub p) ++ [] ++ [10]).
      plain; apply plainly_text; try (apply textual_b; reflexivity). apply visible_textual, key_visible, Wp.
    - constructor; [|constructor]. apply on_line_app; [apply on_line_b; reflexivity|apply visible_on_line, key_visible, Wp]. }
  assert (G2 : gives (when1 (p_has_psk p) (item "preshared key" (masked_key (se_hide E) (p_psk p)))) (optional (p_has_psk p = true) (labelled "preshared key" (secret_text (se_hide E) (p_psk p))))).
  { apply (optional_gives _ _ _ _ (masked_key (se_hide E) (p_psk p))); [tauto|apply on_line_b; reflexivity|]. intros _. apply secret_gives, Ws. }
  assert (G3 : gives (when1 (has_endpoint (p_endpoint p)) (item "endpoint" (endpoint_str E (p_endpoint p)))) (optional (p_endpoint p <> EpNone) (labelled "endpoint" (fun v => ep_field (se_scope E) v (p_endpoint p))))).
  { apply (optional_gives _ _ _ _ (endpoint_str E (p_endpoint p))); [destruct (p_endpoint p); cbn; split; congruence|apply on_line_b; reflexivity|].
    intro N. destruct (ep_visible E (p_endpoint p) We N Hscope) as [V F]. split; [apply plainly_text, visible_textual, V|]. split; [apply visible_on_line, V|exact F]. }
  pose proof (aips_gives (p_aips p) Wa) as G4.
  assert (G5 : gives (when1 (negb (p_hs_sec p =? 0)) (item "latest handshake" (ago (se_now E) (p_hs_sec p)))) (optional (p_hs_sec p <> 0) (labelled "latest handshake" (elapsed_text (se_now E) (p_hs_sec p))))).
  { destruct (elapsed_gives (p_hs_sec p) Hs) as (u & A). apply (optional_gives _ _ _ _ u); [apply neqb_iff|apply on_line_b; reflexivity|auto]. }
  assert (G6 : gives (if negb (p_rx p =? 0) || negb (p_tx p =? 0)
      then [str "  " ++ bold ++ str "transfer" ++ reset ++ str ": "; bytes_str (p_rx p) ++ str " received, "; bytes_str (p_tx p) ++ str " sent" ++ [10]] else [])
    (optional (p_rx p <> 0 \/ p_tx p <> 0) (labelled "transfer" (fun v => exists r t, size_text (p_rx p) r /\ size_text (p_tx p) t /\ v = r ++ str " received, " ++ t ++ str " sent")))).
  { destruct (negb (p_rx p =? 0) || negb (p_tx p =? 0)) eqn:B.
    - rewrite orb_true_iff, !neqb_iff in B. destruct (size_plain (p_rx p) Wr) as [Or Sr], (size_plain (p_tx p) Wt) as [Ot St].
      exists [str "  " ++ str "transfer" ++ str ": " ++ bytes_plain (p_rx p) ++ str " received, " ++ bytes_plain (p_tx p) ++ str " sent"]. split; [|split].
      + eexists. split.
        * constructor; [|constructor; [|constructor; [|constructor]]].
          -- instantiate (1 := str "  " ++ [] ++ str "transfer" ++ [] ++ str ": "). plain; apply plainly_text, textual_b; reflexivity.
          -- instantiate (1 := bytes_plain (p_rx p) ++ str " received, "). apply plainly_app; [apply bytes_plainly; lia|apply plainly_text, textual_b; reflexivity].
          -- instantiate (1 := bytes_plain (p_tx p) ++ str " sent" ++ [10]). apply plainly_app; [apply bytes_plainly; lia|apply plainly_text, textual_b; reflexivity].
        * cbn [flat_map ended]. rewrite !app_nil_r, <- !app_assoc. reflexivity.
      + left. split; [exact B|]. eexists. split; [reflexivity|]. eexists. split; [reflexivity|]. exists (bytes_plain (p_rx p)), (bytes_plain (p_tx p)). auto.
      + constructor; [|constructor]. repeat (apply on_line_app; [first [exact Or | exact Ot | apply on_line_b; reflexivity]|]). apply on_line_b. reflexivity.
    - rewrite orb_false_iff, !negb_false_iff, !Z.eqb_eq in B. exists []. split; [apply reads_nil|]. split; [right; split; [lia|reflexivity]|constructor]. }
  assert (G7 : gives (when1 (negb (p_ka p =? 0)) (item "persistent keepalive" (every (p_ka p)))) (optional (p_ka p <> 0) (labelled "persistent keepalive" (fun v => exists t, time_words (p_ka p) t /\ v = str "every " ++ t)))).
  { apply (optional_gives _ _ _ _ (str "every " ++ time_plain (p_ka p))); [apply neqb_iff|apply on_line_b; reflexivity|]. intros _. split; [apply every_plainly; lia|].
    split; [apply on_line_app; [apply on_line_b; reflexivity|apply time_on_line; lia]|]. eexists. split; [apply time_words_plain; lia|reflexivity]. }
  pose proof (gives_app _ _ _ _ G1 (gives_app _ _ _ _ G2 (gives_app _ _ _ _ G3 (gives_app _ _ _ _ G4 (gives_app _ _ _ _ G5 (gives_app _ _ _ _ G6 G7)))))) as (ls & R & H & O).
  exists ls. split; [|split; [|exact O]].
  - rewrite <- !app_assoc in R. replace (match p_aips p with [] => [str "(none)" ++ [10]] | a :: l0 => pretty_aips (a :: l0) end) with
      (match p_aips p with [] => [str "(none)" ++ [10]] | _ :: _ => pretty_aips (p_aips p) end) by (destruct (p_aips p); reflexivity). exact R.
  - destruct H as (l1 & r1 & -> & -> & l2 & r2 & -> & V2 & l3 & r3 & -> & V3 & l4 & r4 & -> & (t & -> & V4) & l5 & r5 & -> & V5 & l6 & l7 & -> & V6 & V7).
    exists l2, l3, t, l5, l6, l7. repeat (split; [first [reflexivity|assumption]|]). exact V7.
Qed.

Lemma peers_gives : forall l, Forall wf_peer l -> Forall times_ok l ->
  exists vs, Forall2 (peer_view (se_scope E) (se_hide E) (se_now E)) l vs /\ Forall (Forall on_line) vs /\
    reads ((match l with [] => [] | _ => [[10]] end) ++ pretty_peers E l) (ended (flat_map (fun v => [] :: v) vs)).
Proof.
  induction l as [|p l IH]; intros W T; [exists []; split; [constructor|]; split; [constructor|apply reads_nil]|]. inversion W as [|? ? Wp Wl]; inversion T as [|? ? Tp Tl]; subst.
  destruct (IH Wl Tl) as (vs & F & O & R). destruct (peer_gives p Wp Tp) as (v & Rp & Vp & Op). exists (v :: vs). split; [constructor; assumption|]. split; [constructor; assumption|].
  cbn [pretty_peers flat_map]. rewrite ended_app. change (ended ([] :: v)) with ([10] ++ ended v). rewrite <- app_assoc. apply reads_app; [apply reads_one, plainly_text, textual_b; reflexivity|].
  apply reads_app; [exact Rp|exact R].
Qed.

Lemma device_gives : forall d, visible (d_name d) -> wf_device d -> Forall times_ok (d_peers d) -> forall order, Permutation (d_peers d) order ->
  gives (pretty_device E d ++ pretty_peers E order) (device_view (se_scope E) (se_hide E) (se_now E) d order).
Proof.
  intros d Wn (Wpub & Wpriv & Wm & Wo & Wl) T order Pm.
  assert (Wl' : Forall wf_peer order) by (rewrite Forall_forall in *; intros x Hx; apply Wl; eapply Permutation_in; [apply Permutation_sym, Pm|exact Hx]).
  assert (T' : Forall times_ok order) by (rewrite Forall_forall in *; intros x Hx; apply T; eapply Permutation_in; [apply Permutation_sym, Pm|exact Hx]).
  assert (G1 : gives [reset; green ++ bold ++ str "interface" ++ reset ++ str ": " ++ green ++ d_name d ++ reset ++ [10]] (fun ls => ls = [str "interface: " ++ d_name d])).
  { exists [str "interface: " ++ d_name d]. split; [|split; [reflexivity|]].
    - cbn [ended flat_map]. rewrite app_nil_r, <- app_assoc. change (str "interface: " ++ d_name d ++ [10]) with ([] ++ ([] ++ [] ++ str "interface" ++ [] ++ str ": " ++ [] ++ d_name d ++ [] ++ [10])).
      match goal with |- reads [?a; ?b] _ => change [a; b] with ([a] ++ [b]) end. apply reads_app; apply reads_one; [apply plainly_code; cbn [In]; tauto|].
      plain; apply plainly_text; try (apply textual_b; reflexivity). apply visible_textual, Wn.
    - constructor; [|constructor]. apply on_line_app; [apply on_line_b; reflexivity|apply visible_on_line, Wn]. }
  assert (G2 : gives (when1 (d_has_pub d) (item "public key" (key_to_base64 (d_pub d)))) (optional (d_has_pub d = true) (labelled "public key" (fun v => v = rfc4648 (d_pub d))))).
  { apply (optional_gives _ _ _ _ (rfc4648 (d_pub d))); [tauto|apply on_line_b; reflexivity|]. intros _. rewrite key_to_base64_rfc by exact Wpub. pose proof (key_visible _ Wpub) as V.
    split; [apply plainly_text, visible_textual, V|]. split; [apply visible_on_line, V|reflexivity]. }
  assert (G3 : gives (when1 (d_has_priv d) (item "private key" (masked_key (se_hide E) (d_priv d)))) (optional (d_has_priv d = true) (labelled "private key" (secret_text (se_hide E) (d_priv d))))).
  { apply (optional_gives _ _ _ _ (masked_key (se_hide E) (d_priv d))); [tauto|apply on_line_b; reflexivity|]. intros _. apply secret_gives, Wpriv. }
  assert (G4 : gives (when1 (negb (d_port d =? 0)) (item "listening port" (print_dec (d_port d)))) (optional (d_port d <> 0) (labelled "listening port" (fun v => decimal v (d_port d))))).
  { apply (optional_gives _ _ _ _ (print_dec (d_port d))); [apply neqb_iff|apply on_line_b; reflexivity|]. intros _. pose proof (dec_visible (d_port d) ltac:(lia)) as V.
    split; [apply plainly_text, visible_textual, V|]. split; [apply visible_on_line, V|apply decimal_print; lia]. }
  assert (G5 : gives (when1 (negb (d_fwmark d =? 0)) (item "fwmark" (str "0x" ++ print_hex (d_fwmark d)))) (optional (d_fwmark d <> 0) (labelled "fwmark" (fun v => mark_field v (d_fwmark d))))).
  { apply (optional_gives _ _ _ _ (str "0x" ++ print_hex (d_fwmark d))); [apply neqb_iff|apply on_line_b; reflexivity|]. intros N.
    assert (V : visible (str "0x" ++ print_hex (d_fwmark d))) by (apply visible_app; [apply visible_b; reflexivity|apply hex_visible; lia]).
    split; [apply plainly_text, visible_textual, V|]. split; [apply visible_on_line, V|]. apply mf_hex; [exact N|]. apply hexadecimal_iff. split; [apply print_num_nonempty|apply print_hex_value; lia]. }
  destruct (peers_gives order Wl' T') as (vs & F & O & R).
  pose proof (gives_app _ _ _ _ G1 (gives_app _ _ _ _ G2 (gives_app _ _ _ _ G3 (gives_app _ _ _ _ G4 G5)))) as (hs & Rh & H & Oh).
  exists (hs ++ flat_map (fun v => [] :: v) vs). split; [|split].
  - rewrite ended_app. unfold pretty_device. rewrite <- !app_assoc.
    assert (X : forall A (x : A), match d_peers d with [] => [] | _ => [x] end = match order with [] => [] | _ => [x] end).
    { intros A x. pose proof (Permutation_length Pm) as L. destruct (d_peers d), order; cbn in L; try reflexivity; discriminate. }
    rewrite X. rewrite !app_assoc. rewrite !app_assoc in Rh. rewrite <- app_assoc. apply reads_app; [exact Rh|exact R].
  - destruct H as (l1 & r1 & -> & -> & l2 & r2 & -> & V2 & l3 & r3 & -> & V3 & l4 & l5 & -> & V4 & V5). exists l2, l3, l4, l5, vs. rewrite <- !app_assoc.
    repeat (split; [first [reflexivity|assumption]|]). exact F.
  - apply Forall_app. split; [exact Oh|]. clear - O. induction O as [|v vs Hv _ IH]; [constructor|]. cbn [flat_map app]. constructor; [apply on_line_b; reflexivity|]. apply Forall_app. split; assumption.
Qed.
End View.
