(** What the theorems about 'wg show' are stated with. *)
From Coq Require Import String ZArith List Bool Permutation Sorted.
From Verif Require Import Base EncodingSpec NumSpec Inet Types.
Import ListNotations.
Open Scope Z_scope.

(** ** Text *)
Fixpoint join (sep : list Z) (l : list (list Z)) : list Z :=
  match l with [] => [] | [x] => x | x :: l' => x ++ sep ++ join sep l' end.
(** Pieces between the separators [c]. *)
Fixpoint pieces (c : Z) (s : list Z) : list (list Z) :=
  match s with
  | [] => [[]]
  | x :: s' => if x =? c then [] :: pieces c s' else match pieces c s' with [] => [[x]] | p :: ps => (x :: p) :: ps end
  end.
(** The lines of a text all of whose lines are ended. *)
Definition lines_of (s : list Z) : list (list Z) := removelast (pieces 10 s).
(** Lines "[head][rest]", and their rests. *)
Fixpoint strip_head (h l : list Z) : option (list Z) :=
  match h, l with
  | [], _ => Some l
  | x :: h', y :: l' => if x =? y then strip_head h' l' else None
  | _ :: _, [] => None
  end.
Definition with_head (h : list Z) (ls : list (list Z)) : list (list Z) :=
  flat_map (fun l => match strip_head h l with Some r => [r] | None => [] end) ls.

(** ** Order of peers *)
Definition never (p : peer) : Prop := p_hs_sec p = 0 /\ p_hs_nsec p = 0.
(** The handshake of [a] is not older than that of [b]; no handshake at all is oldest. *)
Definition not_older (a b : peer) : Prop :=
  never b \/ (~ never a /\ (p_hs_sec a > p_hs_sec b \/ (p_hs_sec a = p_hs_sec b /\ p_hs_nsec a >= p_hs_nsec b))).
Definition times_ok (p : peer) : Prop := 0 <= p_hs_sec p < 2 ^ 63 /\ 0 <= p_hs_nsec p < 2 ^ 63.

(** qsort on the matrix of all comparisons: if they are those of an order (total, transitive, antisymmetric up to ties), the answer is a
    permutation in that order. *)
Definition at2 (M : list (list Z)) (i j : nat) : Z := nth j (nth i M []) 0.
Definition an_order (M : list (list Z)) : Prop :=
  (forall i j, (i < length M)%nat -> (j < length M)%nat -> (at2 M i j < 0 <-> at2 M j i > 0)) /\
  (forall i j k, (i < length M)%nat -> (j < length M)%nat -> (k < length M)%nat -> at2 M i j <= 0 -> at2 M j k <= 0 -> at2 M i k <= 0).
Definition index_sorts (qsort : list (list Z) -> list nat) : Prop :=
  forall M, an_order M -> Permutation (seq 0 (length M)) (qsort M) /\ Sorted (fun i j => at2 M i j <= 0) (qsort M).

(** ** Times *)
Definition splits_time (n y d h m s : Z) : Prop :=
  n = y * 31536000 + d * 86400 + h * 3600 + m * 60 + s /\ 0 <= y /\ 0 <= d < 365 /\ 0 <= h < 24 /\ 0 <= m < 60 /\ 0 <= s < 60.
Inductive unit_words (name : string) : Z -> list (list Z) -> Prop :=
| uw_none : unit_words name 0 []
| uw_one : unit_words name 1 [str "1 " ++ str name]
| uw_many : forall c t, c > 1 -> decimal t c -> hd 0 t <> 48 -> unit_words name c [t ++ 32 :: str name ++ str "s"].
(** The number of seconds [n], in words. *)
Definition time_words (n : Z) (text : list Z) : Prop :=
  exists y d h m s wy wd wh wm ws, splits_time n y d h m s /\ unit_words "year" y wy /\ unit_words "day" d wd /\ unit_words "hour" h wh /\
    unit_words "minute" m wm /\ unit_words "second" s ws /\ text = join (str ", ") (wy ++ wd ++ wh ++ wm ++ ws).

(** ** Sizes *)
(** "w.ff": the number of hundredths. *)
Definition hundredths (text : list Z) (n : Z) : Prop :=
  exists w a b, decimal w (n / 100) /\ dec_digit a (n / 10 mod 10) /\ dec_digit b (n mod 10) /\ text = w ++ [46; a; b].

(** ** Secrets *)
(** Equal except for the private key and the preshared keys. *)
Definition same_peer (p q : peer) : Prop :=
  exists k, q = mk_peer (p_remove p) (p_replace_aips p) (p_has_pub p) (p_has_psk p) (p_has_ka p) (p_pub p) k (p_endpoint p)
                  (p_hs_sec p) (p_hs_nsec p) (p_rx p) (p_tx p) (p_ka p) (p_aips p).
Definition same_public (d d' : device) : Prop :=
  exists k ps, Forall2 same_peer (d_peers d) ps /\
    d' = mk_device (d_name d) (d_ifindex d) (d_replace_peers d) (d_has_priv d) (d_has_pub d) (d_has_port d) (d_has_fwmark d)
           (d_pub d) k (d_fwmark d) (d_port d) ps.

(** ** Dump *)
Inductive key_field : list Z -> bool -> list Z -> Prop :=
| kf_none : forall k, key_field (str "(none)") false k
| kf_key : forall k, key_field (rfc4648 k) true k.
Inductive mark_field : list Z -> Z -> Prop :=
| mf_off : mark_field (str "off") 0
| mf_hex : forall h n, n <> 0 -> hexadecimal h n -> mark_field (str "0x" ++ h) n.
Inductive ka_field : list Z -> Z -> Prop :=
| kaf_off : ka_field (str "off") 0
| kaf_dec : forall v n, n <> 0 -> decimal v n -> ka_field v n.
Inductive aip_field : list Z -> allowedip -> Prop :=
| af_4 : forall s a m c, ~ In 58 s -> inet_pton4 s = Some a -> decimal m c -> aip_field (s ++ 47 :: m) (mk_aip AF_INET a c)
| af_6 : forall s a m c, In 58 s -> inet_pton6 s = Some a -> decimal m c -> aip_field (s ++ 47 :: m) (mk_aip AF_INET6 a c).
(** Separated by [sep], whose first character does not occur in the fields. *)
Inductive aips_field (sep : list Z) : list Z -> list allowedip -> Prop :=
| asf_none : aips_field sep (str "(none)") []
| asf_some : forall fs l, l <> [] -> Forall2 aip_field fs l -> Forall (fun f => ~ In (hd 0 sep) f) fs -> aips_field sep (join sep fs) l.
(** The text of an endpoint: of the form host:port or [host]:port for numeric host and port. *)
Inductive ep_field (scope_name : list Z -> Z -> list Z) : list Z -> endpoint -> Prop :=
| ef_none : ep_field scope_name (str "(none)") EpNone
| ef_4 : forall s a m p, inet_pton4 s = Some a -> decimal m p -> ep_field scope_name (s ++ 58 :: m) (Ep4 a p)
| ef_6 : forall s a m p f, inet_pton6 s = Some a -> decimal m p -> ep_field scope_name (91 :: s ++ 93 :: 58 :: m) (Ep6 a p f 0)
| ef_6s : forall s a m p f sc, inet_pton6 s = Some a -> decimal m p -> sc <> 0 ->
    ep_field scope_name (91 :: s ++ 37 :: scope_name a sc ++ 93 :: 58 :: m) (Ep6 a p f sc).

Definition name_fields (d : device) (with_interface : bool) : list (list Z) := if with_interface then [d_name d] else [].
Definition device_fields (d : device) (w : bool) (fs : list (list Z)) : Prop :=
  exists priv pub port mark, fs = name_fields d w ++ [priv; pub; port; mark] /\
    key_field priv (d_has_priv d) (d_priv d) /\ key_field pub (d_has_pub d) (d_pub d) /\ decimal port (d_port d) /\ mark_field mark (d_fwmark d).
Definition peer_fields (scope_name : list Z -> Z -> list Z) (d : device) (w : bool) (p : peer) (fs : list (list Z)) : Prop :=
  exists psk ep aips hs rx tx ka, fs = name_fields d w ++ [rfc4648 (p_pub p); psk; ep; aips; hs; rx; tx; ka] /\
    key_field psk (p_has_psk p) (p_psk p) /\ ep_field scope_name ep (p_endpoint p) /\ aips_field [44] aips (p_aips p) /\
    decimal hs (p_hs_sec p) /\ decimal rx (p_rx p) /\ decimal tx (p_tx p) /\ ka_field ka (p_ka p).

(** ** The view for people *)
Definition visible (t : list Z) : Prop := Forall (fun c => 32 < c < 256) t.
(** Each line followed by a newline. *)
Definition ended (ls : list (list Z)) : list Z := flat_map (fun l => l ++ [10]) ls.
Definition optional (b : Prop) (line : list Z -> Prop) (ls : list (list Z)) : Prop := (b /\ exists t, ls = [t] /\ line t) \/ (~ b /\ ls = []).
Definition labelled (name : string) (P : list Z -> Prop) (t : list Z) : Prop := exists v, t = str "  " ++ str name ++ str ": " ++ v /\ P v.
(** A secret key: hidden unless WG_HIDE_KEYS is "never". *)
Definition secret_text (hide : option (list Z)) (k v : list Z) : Prop :=
  (hide = Some (str "never") /\ v = rfc4648 k) \/ (hide <> Some (str "never") /\ v = str "(hidden)").
(** How long ago [sec] is. *)
Definition elapsed_text (now sec : Z) (v : list Z) : Prop :=
  (now = sec /\ v = str "Now") \/
  (now < sec /\ v = str "(System clock wound backward; connection problems may ensue.)") \/
  (sec < now /\ exists t, time_words (now - sec) t /\ v = t ++ str " ago").
(** A size: exact below 1 KiB; otherwise in the largest unit not above it, to the nearest hundredth (from 2^53 on, the conversion to a
    double can add less than half a millionth of a hundredth of the unit). *)
Inductive size_text (b : Z) : list Z -> Prop :=
| sz_exact : forall v, b < 1024 -> decimal v b -> size_text b (v ++ str " B")
| sz_unit : forall k unit v n, In (k, unit) [(1, "KiB"); (2, "MiB"); (3, "GiB"); (4, "TiB")]%string ->
    1024 ^ k <= b -> (k < 4 -> b < 1024 ^ (k + 1)) -> hundredths v n ->
    2 * Z.abs (n * 1024 ^ k - 100 * b) <= 1024 ^ k + (if b <? 2 ^ 53 then 0 else 409600) ->
    size_text b (v ++ 32 :: str unit).

Section View.
Variable scope_name : list Z -> Z -> list Z.
Variable hide : option (list Z).
Variable now : Z.
Definition peer_view (p : peer) (ls : list (list Z)) : Prop :=
  exists psk ep aips hs tr ka, ls = [str "peer: " ++ rfc4648 (p_pub p)] ++ psk ++ ep ++ [aips] ++ hs ++ tr ++ ka /\
    optional (p_has_psk p = true) (labelled "preshared key" (secret_text hide (p_psk p))) psk /\
    optional (p_endpoint p <> EpNone) (labelled "endpoint" (fun v => ep_field scope_name v (p_endpoint p))) ep /\
    labelled "allowed ips" (fun v => aips_field (str ", ") v (p_aips p)) aips /\
    optional (p_hs_sec p <> 0) (labelled "latest handshake" (elapsed_text now (p_hs_sec p))) hs /\
    optional (p_rx p <> 0 \/ p_tx p <> 0) (labelled "transfer" (fun v =>
      exists r t, size_text (p_rx p) r /\ size_text (p_tx p) t /\ v = r ++ str " received, " ++ t ++ str " sent")) tr /\
    optional (p_ka p <> 0) (labelled "persistent keepalive" (fun v => exists t, time_words (p_ka p) t /\ v = str "every " ++ t)) ka.
Definition device_view (d : device) (order : list peer) (ls : list (list Z)) : Prop :=
  exists pub priv port mark peers, ls = [str "interface: " ++ d_name d] ++ pub ++ priv ++ port ++ mark ++ flat_map (fun v => [] :: v) peers /\
    optional (d_has_pub d = true) (labelled "public key" (fun v => v = rfc4648 (d_pub d))) pub /\
    optional (d_has_priv d = true) (labelled "private key" (secret_text hide (d_priv d))) priv /\
    optional (d_port d <> 0) (labelled "listening port" (fun v => decimal v (d_port d))) port /\
    optional (d_fwmark d <> 0) (labelled "fwmark" (fun v => mark_field v (d_fwmark d))) mark /\
    Forall2 peer_view order peers.
End View.

(** ** Columns of the dump.  'wg show <interface> <parameter>' prints columns of the dump: those of the first line, or those of the lines of
    peers, after the name of the interface if there is one. *)
Definition columns (param : list Z) : option (bool * list nat) :=
  let table := [("public-key", (false, [1])); ("private-key", (false, [0])); ("listen-port", (false, [2])); ("fwmark", (false, [3]));
                ("endpoints", (true, [0; 2])); ("latest-handshakes", (true, [0; 4])); ("transfer", (true, [0; 5; 6])); ("persistent-keepalive", (true, [0; 7]));
                ("preshared-keys", (true, [0; 1])); ("peers", (true, [0]))]%string%nat in
  match find (fun e => beq param (str (fst e))) table with Some (_, r) => Some r | None => None end.
Definition rows_of (text : list Z) : list (list (list Z)) := map (pieces 9) (lines_of text).
Definition pick (with_interface : bool) (cols : list nat) (row : list (list Z)) : list (list Z) :=
  (if with_interface then firstn 1 row else []) ++ map (fun i => nth i (skipn (if with_interface then 1 else 0) row) []) cols.

(** What a dump says of a peer: everything but flags, nanoseconds and the flow label. *)
Definition no_flow_label (ep : endpoint) : endpoint := match ep with Ep6 a p _ s => Ep6 a p 0 s | e => e end.
Definition said_of_peer (p : peer) :=
  (p_pub p, (if p_has_psk p then Some (p_psk p) else None), no_flow_label (p_endpoint p), p_aips p, (p_hs_sec p, p_rx p, p_tx p, p_ka p)).
Definition said_of_device (d : device) :=
  ((if d_has_priv d then Some (d_priv d) else None), (if d_has_pub d then Some (d_pub d) else None), d_port d, d_fwmark d, map said_of_peer (d_peers d)).
