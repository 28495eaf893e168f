(** Independent vocabulary for C47: the MTU 'wg-quick up' gives the interface. *)
From Coq Require Import String ZArith List Bool.
From Verif Require Import Base Cstr Inet Types Bash Quick QuickSpec QuickRun QuickRunSpec.
Import ListNotations.
Open Scope Z_scope.

(** [v]: the longest run of characters satisfying [f] after the first [p] that is followed by such a character. *)
Definition field (p : list Z) (f : Z -> Prop) (text v : list Z) : Prop := exists a b,
  text = a ++ p ++ v ++ b /\ v <> [] /\ Forall f v /\ (forall c b', b = c :: b' -> ~ f c) /\
  forall a' c b', text = a' ++ p ++ c :: b' -> f c -> (length a <= length a')%nat.
Definition digits (d : list Z) (n : Z) : Prop := Forall (fun c => 48 <= c <= 57) d /\ n = fold_left (fun v c => v * 10 + (c - 48)) d 0.

(** A text of ip(8) names an MTU ("mtu 1420") or a device ("dev eth0"). *)
Definition names_mtu (text : list Z) (n : Z) : Prop := exists d, field (str "mtu ") (fun c => 48 <= c <= 57) text d /\ digits d n.
Definition names_dev (text : list Z) (dev : list Z) : Prop := field (str "dev ") (fun c => c <> 32) text dev.
(** The MTU named, 0 if none is. *)
Definition mtu_or_0 (text : list Z) (n : Z) : Prop := names_mtu text n \/ ((forall k, ~ names_mtu text k) /\ n = 0).

Definition show_link (dev : list Z) : command := argv [str "ip"; str "link"; str "show"; str "dev"; dev].
Definition route_to (host : list Z) : command := argv [str "ip"; str "route"; str "get"; host].
Definition show_default : command := argv [str "ip"; str "route"; str "show"; str "default"].
Definition show_endpoints (ifc : list Z) : command := argv [str "wg"; str "show"; ifc; str "endpoints"].
Definition set_mtu (ifc mtu : list Z) : command := argv [str "ip"; str "link"; str "set"; str "mtu"; mtu; str "up"; str "dev"; ifc].

(** The MTU of a route described by [text]: the one it names, else that of its device (which is asked for), else 0. *)
Inductive route_says (text : list Z) : history -> Z -> Prop :=
| rs_mtu : forall n, names_mtu text n -> route_says text [] n
| rs_dev : forall dev a n, (forall k, ~ names_mtu text k) -> names_dev text dev -> mtu_or_0 (captured (a_output a)) n ->
    route_says text [(show_link dev, a)] n
| rs_none : (forall k, ~ names_mtu text k) -> (forall dev, ~ names_dev text dev) -> route_says text [] 0.

(** The largest MTU of the routes to the hosts, 0 if none is known. *)
Inductive routes_say : list (list Z) -> history -> Z -> Prop :=
| rss_nil : routes_say [] [] 0
| rss_cons : forall host hs a h n h' m, route_says (captured (a_output a)) h n -> routes_say hs h' m ->
    routes_say (host :: hs) ((route_to host, a) :: h ++ h') (Z.max n m).

(** The first line of an output. *)
Definition first_line (out text : list Z) : Prop := exists l rest, no_nul out = l ++ rest /\ ~ In 10 l /\ (rest = [] \/ exists r, rest = 10 :: r) /\ trimmed blank l text.

(** The endpoints asked about: those without a scope. *)
Definition scopeless (ep : endpoint) : bool := match ep with EpNone => false | Ep4 _ _ => true | Ep6 _ _ _ s => s =? 0 end.
Definition names_host (host : list Z) (ep : endpoint) : Prop :=
  match ep with EpNone => False | Ep4 a _ => inet_pton4 host = Some a | Ep6 a _ _ _ => inet_pton6 host = Some a end.

Definition signed (n : Z) : list Z := if n <? 0 then 45 :: print_dec (- n) else print_dec n.
