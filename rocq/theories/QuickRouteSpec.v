(** Independent vocabulary for the routing part of 'wg-quick up': fwmark, routing tables and the routes asked for. *)
From Coq Require Import String ZArith List Bool Permutation.
From Verif Require Import Base Cstr Types Show Bash Quick QuickRun QuickRunSpec.
Import ListNotations.
Open Scope Z_scope.

Definition show_mark (ifc : list Z) : command := argv [str "wg"; str "show"; ifc; str "fwmark"].
Definition set_mark (ifc : list Z) (t : Z) : command := argv [str "wg"; str "set"; ifc; str "fwmark"; print_dec t].
Definition show_table (f : list Z) (t : Z) : command := argv [str "ip"; f; str "route"; str "show"; str "table"; print_dec t].

(** Nothing but newlines (and NUL bytes, which bash drops). *)
Definition silent (out : list Z) : Prop := Forall (fun c => c = 10 \/ c = 0) out.

(** The fwmark after a command. *)
Definition mark_step (ifc : list Z) (m : Z) (c : command) (a : answer) (m' : Z) : Prop :=
  (exists t, 0 < t /\ c = set_mark ifc t /\ a_status a = 0 /\ m' = t) \/
  ((forall t, 0 < t -> c = set_mark ifc t -> a_status a <> 0) /\ m' = m).

(** A history in which the answers are true: "wg show INTERFACE fwmark" prints the fwmark the way wg does (Show.v), and, as long as the
    interface has none, the routes listed for a table are those of the tables in [used] (by family).  [m], [m']: the fwmark before and after. *)
Inductive honest (ifc : list Z) (used : list Z -> Z -> Prop) : Z -> history -> Z -> Prop :=
| hn_nil : forall m, honest ifc used m [] m
| hn_cons : forall m c a m1 h m2,
    (c = show_mark ifc -> a_status a = 0 /\ a_output a = mark_str m ++ [10]) ->
    (m = 0 -> forall f t, 0 <= t -> c = show_table f t -> (used f t <-> ~ silent (a_output a))) ->
    mark_step ifc m c a m1 -> honest ifc used m1 h m2 -> honest ifc used m ((c, a) :: h) m2.

(** The first table from 51820 on that is free in both families. *)
Definition in_use (used : list Z -> Z -> Prop) (t : Z) : Prop := used (str "-4") t \/ used (str "-6") t.
Definition first_free (used : list Z -> Z -> Prop) (t : Z) : Prop :=
  51820 <= t /\ ~ in_use used t /\ forall k, 51820 <= k < t -> in_use used k.

(** A default route: the prefix length is 0. *)
Definition is_default (r : list Z) : Prop := exists p, r = p ++ str "/0".

(** The commands for a default route over table [t]. *)
Definition firewall_load (c : command) : Prop :=
  c_argv c = [str "nft"; str "-f"; str "/dev/fd/63"] \/ c_argv c = [str "iptables-restore"; str "-n"] \/ c_argv c = [str "ip6tables-restore"; str "-n"].
Definition default_commands (ifc : list Z) (t : Z) (r : list Z) (cs : list command) : Prop :=
  exists f sysctl fw, family r f /\ firewall_load fw /\
    ((f = str "-6" /\ sysctl = []) \/ (f = str "-4" /\ sysctl = [argv [str "sysctl"; str "-q"; str "net.ipv4.conf.all.src_valid_mark=1"]])) /\
    cs = [argv [str "ip"; f; str "rule"; str "add"; str "not"; str "fwmark"; print_dec t; str "table"; print_dec t];
          argv [str "ip"; f; str "rule"; str "add"; str "table"; str "main"; str "suppress_prefixlength"; str "0"];
          argv [str "ip"; f; str "route"; str "add"; r; str "dev"; ifc; str "table"; print_dec t]] ++ sysctl ++ [fw].

Definition plain_route (ifc r : list Z) (c : command) : Prop := exists f, family r f /\ c = argv [str "ip"; f; str "route"; str "add"; r; str "dev"; ifc].
Definition table_route (ifc table r : list Z) (c : command) : Prop :=
  exists f, family r f /\ c = argv [str "ip"; f; str "route"; str "add"; r; str "dev"; ifc; str "table"; table].

(** The commands for routes when the table is automatic, the fwmark being [m] at first: the first default route chooses a table unless there is
    a fwmark, and all default routes use the same one; other routes are added unless the interface has a matching route. *)
Inductive routed (ifc : list Z) (used : list Z -> Z -> Prop) : Z -> list (list Z) -> list command -> Prop :=
| rt_nil : forall m, routed ifc used m [] []
| rt_other : forall m r rs cs cs', ~ is_default r -> cs = [] \/ (exists c, plain_route ifc r c /\ cs = [c]) ->
    routed ifc used m rs cs' -> routed ifc used m (r :: rs) (cs ++ cs')
| rt_first : forall t r rs g cs, is_default r -> first_free used t -> default_commands ifc t r g ->
    routed ifc used t rs cs -> routed ifc used 0 (r :: rs) (set_mark ifc t :: g ++ cs)
| rt_later : forall m r rs g cs, is_default r -> 0 < m -> default_commands ifc m r g ->
    routed ifc used m rs cs -> routed ifc used m (r :: rs) (g ++ cs).

(** ** The routes *)
(** What "sort -nr -k 2 -t /" does to lines ADDRESS/LENGTH: the same lines, the greatest lengths first. *)
Definition prefix_length (r : list Z) (n : Z) : Prop := exists a d, ~ In 47 a /\ r = a ++ 47 :: d /\ Forall (fun c => 48 <= c <= 57) d /\ d <> [] /\
  n = fold_left (fun v c => v * 10 + (c - 48)) d 0.
Definition unlines (ls : list (list Z)) : list Z := concat (map (fun l => l ++ [10]) ls).
Definition specific_first (ls : list (list Z)) : Prop := forall a x b y c n m, ls = a ++ x :: b ++ y :: c -> prefix_length x n -> prefix_length y m -> m <= n.
Definition sort_command (input : list Z) : command := mk_cmd [str "sort"; str "-nr"; str "-k"; str "2"; str "-t"; str "/"] input.
(** Both only for input made of complete lines. *)
Definition sorts (input output : list Z) : Prop :=
  forall ls, Forall (fun l => ~ In 10 l) ls -> input = unlines ls -> exists ls', output = unlines ls' /\ Permutation ls ls' /\ specific_first ls'.

(** The textual form of an allowed IP. *)
Definition aip_text (a : allowedip) : list Z := ip_str a ++ 47 :: print_dec (a_cidr a).
Definition device_routes (d : device) : list (list Z) := flat_map (fun p => map aip_text (p_aips p)) (d_peers d).
Definition show_aips (ifc : list Z) : command := argv [str "wg"; str "show"; ifc; str "allowed-ips"].
