(** C59: strsep and getline on Windows. *)
From Coq Require Import String ZArith List Bool Lia.
From Verif Require Import Base Types Cstr Encoding NlSpec NlProofs Uapi UapiProofs2 IpcProofs Ipc Show Fields WinLibc.
Import ListNotations.
Open Scope Z_scope.

(** ** getline *)

(** A buffer getline may have left behind: null with any size, or as many bytes as stated, 512 or more. *)
Definition own_buffer (buf : option (list Z)) (size : Z) : Prop := match buf with None => True | Some b => len b = size /\ 512 <= size < 2 ^ 63 end.

Lemma poke_put : forall x y c, y <> [] -> poke (x ++ y) (len x) [c] = Some (x ++ c :: tl y).
Proof.
  intros x [|z y] c H; [contradiction|]. change (z :: y) with ([z] ++ y). rewrite (poke_at x [z] y (len x) [c] eq_refl eq_refl). reflexivity.
Qed.
Lemma loop_spec : forall hp delim fin s, heap_ok hp -> forall x y size d, len (x ++ y) = size -> 512 <= size < 2 ^ 63 -> d = len x -> 3 <= len y ->
  exists r b size' rest, getdelim_loop hp delim fin (x ++ y) size d s = Some (r, b, size', rest) /\ own_buffer (Some b) size'
    /\ ((r = -1 /\ exists a n, hp a n = None) \/
        (forall l s', s = l ++ delim :: s' -> ~ In delim l -> r = len (x ++ l ++ [delim]) /\ rest = s' /\ exists z, b = x ++ l ++ [delim] ++ 0 :: z)
        /\ (~ In delim s -> fin = Eof -> x ++ s <> [] -> r = len (x ++ s) /\ rest = [] /\ exists z, b = x ++ s ++ 0 :: z)
        /\ (~ In delim s -> (fin = Failed \/ x ++ s = []) -> r = -1 /\ rest = [])).
Proof.
  intros hp delim fin s Hh. induction s as [|c s IH]; intros x y size d Hl Hs -> Hy.
  - cbn [getdelim_loop]. assert (Ny : y <> []) by (intro X; subst; cbn in Hy; lia). destruct fin.
    + destruct (Z.eqb_spec (len x) 0) as [E|E].
      * eexists _, _, _, _. split; [reflexivity|]. split; [split; assumption|]. right. split; [intros l s' X; destruct l; discriminate|]. split; [|split; reflexivity].
        intros _ _ N. exfalso. apply N. rewrite app_nil_r. destruct x; [reflexivity|unfold len in E; cbn [length] in E; lia].
      * rewrite (poke_put x y 0 Ny). eexists _, _, _, _. split; [reflexivity|]. split.
        { split; [|exact Hs]. rewrite <- Hl. rewrite !len_app. destruct y; [contradiction|]. unfold len. cbn [length tl]. reflexivity. }
        right. split; [intros l s' X; destruct l; discriminate|]. split.
        -- intros _ _ _. rewrite !app_nil_r. split; [reflexivity|]. split; [reflexivity|]. eexists. reflexivity.
        -- intros _ [X|X]; [discriminate|]. rewrite app_nil_r in X. subst. cbn in E. lia.
    + eexists _, _, _, _. split; [reflexivity|]. split; [split; assumption|]. right. split; [intros l s' X; destruct l; discriminate|]. split; [discriminate|]. split; reflexivity.
  - cbn [getdelim_loop]. assert (Ny : y <> []) by (intro X; subst; cbn in Hy; lia). rewrite (poke_put x y c Ny).
    assert (Lt : len (tl y) = len y - 1) by (destruct y; [contradiction|]; unfold len; cbn [length tl]; lia).
    assert (Hl' : len (x ++ c :: tl y) = size). { rewrite <- Hl, !len_app. destruct y; [contradiction|]. unfold len. cbn [length tl]. reflexivity. }
    replace (x ++ c :: tl y) with ((x ++ [c]) ++ tl y) in * by (rewrite <- app_assoc; reflexivity). assert (Lx : len x + 1 = len (x ++ [c])) by (rewrite len_app; reflexivity). rewrite Lx.
    destruct (Z.eqb_spec c delim) as [->|Nc].
    + assert (Nt : tl y <> []) by (intro X; rewrite X in Lt; cbn in Lt; lia). rewrite (poke_put (x ++ [delim]) (tl y) 0 Nt). eexists _, _, _, _. split; [reflexivity|]. split.
      { split; [|exact Hs]. rewrite <- Hl'. rewrite !(len_app (x ++ [delim])). destruct (tl y); [contradiction|]. unfold len. cbn [length tl]. reflexivity. }
      right. split.
      * intros [|z l] s' E Hn; [|cbn [app] in E; injection E as -> E; exfalso; apply Hn; left; reflexivity]. cbn [app] in E. injection E as ->. cbn [app]. split; [reflexivity|]. split; [reflexivity|]. eexists.
        rewrite <- app_assoc. reflexivity.
      * split; intros X; exfalso; apply X; left; reflexivity.
    + assert (Back : forall r b size' rest,
        ((r = -1 /\ exists a n, hp a n = None) \/
        (forall l s', s = l ++ delim :: s' -> ~ In delim l -> r = len ((x ++ [c]) ++ l ++ [delim]) /\ rest = s' /\ exists z, b = (x ++ [c]) ++ l ++ [delim] ++ 0 :: z)
        /\ (~ In delim s -> fin = Eof -> (x ++ [c]) ++ s <> [] -> r = len ((x ++ [c]) ++ s) /\ rest = [] /\ exists z, b = (x ++ [c]) ++ s ++ 0 :: z)
        /\ (~ In delim s -> (fin = Failed \/ (x ++ [c]) ++ s = []) -> r = -1 /\ rest = [])) ->
        own_buffer (Some b) size' ->
        own_buffer (Some b) size' /\
        ((r = -1 /\ exists a n, hp a n = None) \/
        (forall l s', c :: s = l ++ delim :: s' -> ~ In delim l -> r = len (x ++ l ++ [delim]) /\ rest = s' /\ exists z, b = x ++ l ++ [delim] ++ 0 :: z)
        /\ (~ In delim (c :: s) -> fin = Eof -> x ++ c :: s <> [] -> r = len (x ++ c :: s) /\ rest = [] /\ exists z, b = x ++ (c :: s) ++ 0 :: z)
        /\ (~ In delim (c :: s) -> (fin = Failed \/ x ++ c :: s = []) -> r = -1 /\ rest = []))).
      { intros r b size' rest [F|(A & B & C)] Ho; (split; [exact Ho|]); [left; exact F|right]. split; [|split].
        - intros [|z l] s' E Hn; [cbn [app] in E; injection E as -> _; contradiction|]. cbn [app] in E. injection E as <- E. destruct (A l s' E) as (A1 & A2 & q & A3); [intro X; apply Hn; right; exact X|].
          rewrite <- !app_assoc in A1, A3. cbn [app] in A1, A3 |- *. split; [exact A1|]. split; [exact A2|]. exists q. exact A3.
        - intros Hn Hf _. destruct (B (fun X => Hn (or_intror X)) Hf) as (B1 & B2 & q & B3); [destruct x; discriminate|]. rewrite <- !app_assoc in B1, B3. cbn [app] in B1, B3 |- *. split; [exact B1|]. split; [exact B2|].
          exists q. exact B3.
        - intros Hn [Hf|X]; [|destruct x; discriminate]. apply (C (fun X => Hn (or_intror X))). left. exact Hf. }
      destruct (Z.leb_spec size (len (x ++ [c]) + 2)) as [Hfull|Hroom].
      * assert (Un : u64 (size * 2) = size * 2) by (unfold u64; apply Z.mod_small; change (2 ^ 63) with 9223372036854775808 in Hs; change (2 ^ 64) with 18446744073709551616; lia). rewrite Un.
        destruct (hp (len (x ++ [c])) (size * 2)) as [junk|] eqn:Eh.
        2: { eexists _, _, _, _. split; [reflexivity|]. split; [split; assumption|]. left. split; [reflexivity|]. eexists _, _. exact Eh. }
        pose proof (Hh _ _ _ Eh) as Hsz. destruct (resize_grow ((x ++ [c]) ++ tl y) (size * 2) junk) as (g & Eg & Lg); [lia|]. rewrite Eg. rewrite <- (app_assoc (x ++ [c])).
        destruct (IH (x ++ [c]) (tl y ++ g) (size * 2) (len (x ++ [c]))) as (r & b & size' & rest & E & Ho & H).
        -- rewrite app_assoc, <- Eg. exact Lg.
        -- lia.
        -- reflexivity.
        -- rewrite Eg, len_app in Lg. rewrite Hl' in Lg. rewrite len_app. pose proof (len_nonneg (tl y)). lia.
        -- exists r, b, size', rest. split; [exact E|]. exact (Back _ _ _ _ H Ho).
      * destruct (IH (x ++ [c]) (tl y) size (len (x ++ [c])) Hl' Hs eq_refl) as (r & b & size' & rest & E & Ho & H); [rewrite len_app in Hl'; lia|].
        exists r, b, size', rest. split; [exact E|]. exact (Back _ _ _ _ H Ho).
Qed.

(** One call.  No byte outside the buffer is written, and unless an allocation fails: if there is a newline, the result is the text up to and with it, and a NUL after it, and the
    stream goes on behind it; at the end of the file, the text that is left; if there is none, or reading fails, -1. *)
Theorem C59_getline : forall hp fin buf size s, heap_ok hp -> own_buffer buf size -> (forall b, buf = Some b -> 0 < size) ->
  exists r buf' size' rest, getline hp fin buf size s = Some (r, buf', size', rest)
    /\ (buf' <> None -> own_buffer buf' size')
    /\ ((r = -1 /\ exists a n, hp a n = None) \/
        (forall l s', s = l ++ 10 :: s' -> ~ In 10 l -> r = len (l ++ [10]) /\ rest = s' /\ exists z, buf' = Some ((l ++ [10]) ++ 0 :: z))
        /\ (~ In 10 s -> fin = Eof -> s <> [] -> r = len s /\ rest = [] /\ exists z, buf' = Some (s ++ 0 :: z))
        /\ (~ In 10 s -> (fin = Failed \/ s = []) -> r = -1 /\ rest = [])).
Proof.
  intros hp fin buf size s Hh Hb Hz.
  assert (G : forall b size, len b = size -> 512 <= size < 2 ^ 63 -> exists r buf' size' rest,
    (let* (r, b, size, s) := getdelim_loop hp 10 fin b size 0 s in Some (r, Some b, size, s)) = Some (r, buf', size', rest)
    /\ (buf' <> None -> own_buffer buf' size')
    /\ ((r = -1 /\ exists a n, hp a n = None) \/
        (forall l s', s = l ++ 10 :: s' -> ~ In 10 l -> r = len (l ++ [10]) /\ rest = s' /\ exists z, buf' = Some ((l ++ [10]) ++ 0 :: z))
        /\ (~ In 10 s -> fin = Eof -> s <> [] -> r = len s /\ rest = [] /\ exists z, buf' = Some (s ++ 0 :: z))
        /\ (~ In 10 s -> (fin = Failed \/ s = []) -> r = -1 /\ rest = []))).
  { intros b sz Hl Hs. destruct (loop_spec hp 10 fin s Hh [] b sz 0 Hl Hs eq_refl ltac:(cbn [app] in Hl; lia)) as (r & b' & sz' & rest & E & Ho & H). cbn [app] in E, H. rewrite E.
    exists r, (Some b'), sz', rest. split; [reflexivity|]. split; [intros _; exact Ho|]. destruct H as [F|(A & B & C)]; [left; exact F|right]. split; [|split].
    - intros l s' Es Hn. destruct (A l s' Es Hn) as (A1 & A2 & z & ->). split; [exact A1|]. split; [exact A2|]. exists z. rewrite <- app_assoc. reflexivity.
    - intros Hn Hf Ne. destruct (B Hn Hf Ne) as (B1 & B2 & z & ->). split; [exact B1|]. split; [exact B2|]. exists z. reflexivity.
    - exact C. }
  unfold getline, getdelim. cbv zeta.
  assert (N : exists r buf' size' rest, match hp 0 BUFSIZ with None => Some (-1, None, BUFSIZ, s)
     | Some junk => let* (r, b, size, s) := getdelim_loop hp 10 fin (map junk (zrange 0 512)) BUFSIZ 0 s in Some (r, Some b, size, s) end = Some (r, buf', size', rest)
    /\ (buf' <> None -> own_buffer buf' size')
    /\ ((r = -1 /\ exists a n, hp a n = None) \/
        (forall l s', s = l ++ 10 :: s' -> ~ In 10 l -> r = len (l ++ [10]) /\ rest = s' /\ exists z, buf' = Some ((l ++ [10]) ++ 0 :: z))
        /\ (~ In 10 s -> fin = Eof -> s <> [] -> r = len s /\ rest = [] /\ exists z, buf' = Some (s ++ 0 :: z))
        /\ (~ In 10 s -> (fin = Failed \/ s = []) -> r = -1 /\ rest = []))).
  { destruct (hp 0 BUFSIZ) as [junk|] eqn:Eh.
    - apply (G (map junk (zrange 0 512)) BUFSIZ); [unfold len, zrange; rewrite !map_length, seq_length; reflexivity|unfold BUFSIZ; lia].
    - eexists _, _, _, _. split; [reflexivity|]. split; [congruence|]. left. split; [reflexivity|]. eexists _, _. exact Eh. }
  destruct buf as [b|]; [|exact N]. destruct Hb as [Hl Hs]. destruct (Z.eqb_spec size 0) as [->|_]; [exact N|]. exact (G b size Hl Hs).
Qed.

(** All lines of a file: what the model of the reader of configurations and of the replies of the userspace implementation takes as the behaviour of getline(3) ([Uapi.getlines]).
    If reading fails, the lines that were complete. *)
Definition complete (l : list Z) : bool := match rev l with 10 :: _ => true | _ => false end.
Lemma split_line : forall s : list Z, ~ In 10 s \/ exists l s', s = l ++ 10 :: s' /\ ~ In 10 l.
Proof.
  induction s as [|c s IH]; [left; intros []|]. destruct (Z.eq_dec c 10) as [->|N]; [right; exists [], s; split; [reflexivity|intros []]|].
  destruct IH as [H|(l & s' & -> & H)]; [left; intros [X|X]; [congruence|contradiction]|right; exists (c :: l), s'; split; [reflexivity|intros [X|X]; [congruence|contradiction]]].
Qed.
Lemma complete_line : forall l, complete (l ++ [10]) = true.
Proof. intro l. unfold complete. rewrite rev_app_distr. reflexivity. Qed.
Lemma complete_none : forall l, ~ In 10 l -> complete l = false.
Proof. intros l H. unfold complete. destruct (rev l) as [|c r] eqn:E; [reflexivity|]. assert (In c l) by (apply in_rev; rewrite E; left; reflexivity). destruct c as [|p|p]; try reflexivity. do 4 (destruct p as [p|p|]; try reflexivity). contradiction. Qed.
Theorem C59_lines : forall hp fin fuel buf size s, heap_ok hp -> own_buffer buf size -> (forall b, buf = Some b -> 0 < size) -> (length s < fuel)%nat ->
  exists ls, read_lines fuel hp fin buf size s = Some ls
    /\ ((exists a n, hp a n = None) \/ ls = match fin with Eof => getlines s | Failed => filter complete (getlines s) end).
Proof.
  intros hp fin fuel. induction fuel as [|fuel IH]; intros buf size s Hh Hb Hz Hf; [lia|]. cbn [read_lines].
  destruct (C59_getline hp fin buf size s Hh Hb Hz) as (r & buf' & size' & rest & -> & Ho & H).
  destruct H as [F|(A & B & C)].
  { destruct F as [-> F]. exists []. split; [reflexivity|left; exact F]. }
  destruct (split_line s) as [Hn|(l & s' & -> & Hn)].
  - destruct s as [|c s0].
    + destruct (C Hn (or_intror eq_refl)) as [-> ->]. change (-1 <? 0) with true. cbv iota. exists []. split; [reflexivity|right]. destruct fin; reflexivity.
    + destruct fin.
      * destruct (B Hn eq_refl) as (-> & -> & z & ->); [discriminate|]. pose proof (len_nonneg (c :: s0)). destruct (Z.ltb_spec (len (c :: s0)) 0); [lia|].
        pose proof (peek_at [] (c :: s0) (0 :: z) 0 (len (c :: s0)) eq_refl eq_refl) as P. cbn [app] in P |- *. rewrite P.
        assert (Hb' : own_buffer (Some (c :: s0 ++ 0 :: z)) size') by (apply Ho; discriminate).
        destruct (IH (Some (c :: s0 ++ 0 :: z)) size' [] Hh Hb') as (ls & -> & Hls); [intros b _; destruct Hb' as [_ X]; lia|cbn [length] in *; lia|].
        eexists. split; [reflexivity|]. destruct Hls as [F| ->]; [left; exact F|right]. rewrite (getlines_last (c :: s0)); [reflexivity|discriminate|exact Hn].
      * destruct (C Hn (or_introl eq_refl)) as [-> ->]. change (-1 <? 0) with true. cbv iota. exists []. split; [reflexivity|right]. rewrite (getlines_last (c :: s0)); [|discriminate|exact Hn].
        cbn [filter]. rewrite (complete_none _ Hn). reflexivity.
  - destruct (A l s' eq_refl Hn) as (-> & -> & z & ->). pose proof (len_nonneg (l ++ [10])). destruct (Z.ltb_spec (len (l ++ [10])) 0); [lia|].
    pose proof (peek_at [] (l ++ [10]) (0 :: z) 0 (len (l ++ [10])) eq_refl eq_refl) as P. cbn [app] in P. rewrite P.
    assert (Hb' : own_buffer (Some ((l ++ [10]) ++ 0 :: z)) size') by (apply Ho; discriminate).
    destruct (IH (Some ((l ++ [10]) ++ 0 :: z)) size' s' Hh Hb') as (ls & -> & Hls); [intros b _; destruct Hb' as [_ X]; lia|rewrite app_length in Hf; cbn [length] in Hf; lia|].
    eexists. split; [reflexivity|]. destruct Hls as [F| ->]; [left; exact F|right]. rewrite (getlines_line l s' Hn). destruct fin; [reflexivity|]. cbn [filter]. rewrite complete_line. reflexivity.
Qed.

(** A failing allocation is taken for the end of the file: the lines so far are all there are. *)
Theorem C59_memory_refuted : forall fin s, getline (fun _ _ => None) fin None 0 s = Some (-1, None, BUFSIZ, s).
Proof. reflexivity. Qed.
(** getline(3) may be given any buffer from malloc(); this one writes beyond one of 1 byte. *)
Theorem C59_own_buffer_refuted : forall hp fin c s, getline hp fin (Some [c]) 1 (10 :: s) = None.
Proof. reflexivity. Qed.

(** ** strsep *)
Lemma cstr_read : forall P x R, ~ In 0 x -> cstr_at (P ++ x ++ 0 :: R) (len P) = Some x.
Proof.
  intros P x R H. unfold cstr_at. pose proof (len_nonneg P). destruct (Z.leb_spec 0 (len P)); [|lia]. unfold len. rewrite Nat2Z.id, skipn_app_exact.
  replace (existsb (Z.eqb 0) (x ++ 0 :: R)) with true.
  2: { symmetry. apply existsb_exists. exists 0. split; [|reflexivity]. apply in_or_app. right. left. reflexivity. }
  cbn [andb]. f_equal. induction x as [|c x IH]; [reflexivity|]. cbn [app until_nul]. destruct (Z.eqb_spec c 0) as [->|]; [exfalso; apply H; left; reflexivity|]. f_equal. apply IH. intro X. apply H. right. exact X.
Qed.
Lemma strcspn_split : forall c f x, ~ In c f -> strcspn (f ++ c :: x) [c] = len f.
Proof.
  intros c f x H. induction f as [|z f IH]; cbn [app strcspn existsb].
  - rewrite Z.eqb_refl. reflexivity.
  - destruct (Z.eqb_spec z c) as [->|_]; [exfalso; apply H; left; reflexivity|]. cbn [orb]. rewrite IH by (intro X; apply H; right; exact X). unfold len. cbn [length]. lia.
Qed.
Lemma strcspn_none : forall c f, ~ In c f -> strcspn f [c] = len f.
Proof.
  intros c f H. induction f as [|z f IH]; cbn [app strcspn existsb]; [reflexivity|].
  destruct (Z.eqb_spec z c) as [->|_]; [exfalso; apply H; left; reflexivity|]. cbn [orb]. rewrite IH by (intro X; apply H; right; exact X). unfold len. cbn [length]. lia.
Qed.

(** One call: the string up to the separator, which is overwritten with its terminator; the rest begins after it.  Without a separator: the whole string, and no rest. *)
Theorem C59_strsep : forall P R sep, sep <> 0 ->
  (forall f x, ~ In 0 f -> ~ In 0 x -> ~ In sep f ->
     strsep (P ++ (f ++ sep :: x) ++ 0 :: R) (Some (len P)) [sep] = Some (Some (len P), P ++ f ++ 0 :: x ++ 0 :: R, Some (len P + len f + 1)))
  /\ (forall f, ~ In 0 f -> ~ In sep f -> strsep (P ++ f ++ 0 :: R) (Some (len P)) [sep] = Some (Some (len P), P ++ f ++ 0 :: R, None))
  /\ (forall b, strsep b None [sep] = Some (None, b, None)).
Proof.
  intros P R sep Hs. split; [|split; [|reflexivity]].
  - intros f x Hf Hx Hn. unfold strsep. rewrite (cstr_read P (f ++ sep :: x) R).
    2: { intro X. apply in_app_or in X. destruct X as [X|[X|X]]; contradiction. }
    rewrite strcspn_split by exact Hn. replace (P ++ (f ++ sep :: x) ++ 0 :: R) with ((P ++ f) ++ [sep] ++ (x ++ 0 :: R)) by (rewrite <- !app_assoc; reflexivity).
    rewrite (peek_at (P ++ f) [sep] _ (len P + len f) 1) by (rewrite ?len_app; reflexivity). cbn [le_val]. destruct (Z.eqb_spec (sep + 256 * 0) 0); [lia|].
    rewrite (poke_at (P ++ f) [sep] _ (len P + len f) [0]) by (rewrite ?len_app; reflexivity). rewrite <- !app_assoc. reflexivity.
  - intros f Hf Hn. unfold strsep. rewrite (cstr_read P f R Hf), strcspn_none by exact Hn. rewrite (app_assoc P). pose proof (peek_at (P ++ f) [0] R (len P + len f) 1) as X. cbn [app] in X.
    rewrite X by (rewrite ?len_app; reflexivity). reflexivity.
Qed.
(** All calls: the strings at the pointers returned are the fields, in order; nothing else is changed. *)
Lemma split_sep : forall c (s : list Z), ~ In c s \/ exists f x, s = f ++ c :: x /\ ~ In c f.
Proof.
  intro c. induction s as [|z s IH]; [left; intros []|]. destruct (Z.eq_dec z c) as [->|N]; [right; exists [], s; split; [reflexivity|intros []]|].
  destruct IH as [H|(l & s' & -> & H)]; [left; intros [X|X]; [congruence|contradiction]|right; exists (z :: l), s'; split; [reflexivity|intros [X|X]; [congruence|contradiction]]].
Qed.
Lemma split_all_none : forall c f, ~ In c f -> split_all c f = [f].
Proof.
  intros c f H. induction f as [|z f IH]; [reflexivity|]. cbn [split_all]. destruct (Z.eqb_spec z c) as [->|_]; [exfalso; apply H; left; reflexivity|]. rewrite IH by (intro X; apply H; right; exact X). reflexivity.
Qed.
Lemma split_all_sep : forall c f x, ~ In c f -> split_all c (f ++ c :: x) = f :: split_all c x.
Proof.
  intros c f x H. induction f as [|z f IH]; cbn [app split_all]; [rewrite Z.eqb_refl; reflexivity|]. destruct (Z.eqb_spec z c) as [->|_]; [exfalso; apply H; left; reflexivity|].
  rewrite IH by (intro X; apply H; right; exact X). reflexivity.
Qed.
Theorem C59_fields : forall sep s P R fuel, sep <> 0 -> ~ In 0 s -> (length s + 1 < fuel)%nat ->
  exists ps s', strsep_all fuel (P ++ s ++ 0 :: R) (Some (len P)) [sep] = Some (ps, P ++ s' ++ 0 :: R) /\ length s' = length s
    /\ map (cstr_at (P ++ s' ++ 0 :: R)) ps = map Some (split_all sep s).
Proof.
  intros sep s P R fuel Hs H0 Hf. revert s P H0 Hf. induction fuel as [|fuel IH]; intros s P H0 Hf; [lia|]. cbn [strsep_all].
  destruct (split_sep sep s) as [Hn|(f & x & -> & Hn)].
  - rewrite (proj1 (proj2 (C59_strsep P R sep Hs)) s H0 Hn). destruct fuel as [|fuel]; [lia|]. cbn [strsep_all strsep]. exists [len P], s. split; [reflexivity|]. split; [reflexivity|].
    rewrite split_all_none by exact Hn. cbn [map]. rewrite cstr_read by exact H0. reflexivity.
  - assert (Ff : ~ In 0 f) by (intro X; apply H0, in_or_app; left; exact X). assert (Fx : ~ In 0 x) by (intro X; apply H0, in_or_app; right; right; exact X).
    rewrite (proj1 (C59_strsep P R sep Hs) f x Ff Fx Hn). replace (P ++ f ++ 0 :: x ++ 0 :: R) with ((P ++ f ++ [0]) ++ x ++ 0 :: R) by (rewrite <- !app_assoc; reflexivity).
    replace (len P + len f + 1) with (len (P ++ f ++ [0])) by (rewrite !len_app; change (len [0]) with 1; lia).
    destruct (IH x (P ++ f ++ [0]) Fx) as (ps & s' & -> & Hl & Hm); [rewrite app_length in Hf; cbn [length] in Hf; lia|].
    exists (len P :: ps), (f ++ 0 :: s'). replace (P ++ (f ++ 0 :: s') ++ 0 :: R) with ((P ++ f ++ [0]) ++ s' ++ 0 :: R) by (rewrite <- !app_assoc; reflexivity). split; [reflexivity|].
    split; [rewrite !app_length; cbn [length]; lia|]. cbn [map]. rewrite Hm, split_all_sep by exact Hn. cbn [map]. f_equal.
    replace ((P ++ f ++ [0]) ++ s' ++ 0 :: R) with (P ++ f ++ 0 :: (s' ++ 0 :: R)) by (rewrite <- !app_assoc; reflexivity). apply cstr_read. exact Ff.
Qed.

(** * Concrete cases: a line longer than the first buffer; a file whose last line lacks its newline; four fields. *)
Definition ex_memory : heap := fun _ n => if n <? 100000 then Some (fun _ => 7) else None.
Example C59_ex_memory : heap_ok ex_memory.
Proof. intros l n junk E. unfold ex_memory in E. destruct (Z.ltb_spec n 100000); [|discriminate]. change (2 ^ 63) with 9223372036854775808. lia. Qed.
Example C59_ex_lines : read_lines 1000 ex_memory Eof None 0 (repeat 120 600 ++ [10] ++ str "[Peer]") = Some [repeat 120 600 ++ [10]; str "[Peer]"]
  /\ read_lines 1000 ex_memory Failed None 0 (repeat 120 600 ++ [10] ++ str "[Peer]") = Some [repeat 120 600 ++ [10]].
Proof. split; vm_compute; reflexivity. Qed.
Example C59_ex_fields : strsep_all 20 (str "10.0.0.0/8,,::/0," ++ [0]) (Some 0) [44] = Some ([0; 11; 12; 17], str "10.0.0.0/8" ++ [0; 0] ++ str "::/0" ++ [0; 0]).
Proof. vm_compute. reflexivity. Qed.

Print Assumptions C59_getline.
Print Assumptions C59_lines.
Print Assumptions C59_memory_refuted.
Print Assumptions C59_own_buffer_refuted.
Print Assumptions C59_strsep.
Print Assumptions C59_fields.
