(** Independent vocabulary for C52: the records resolvconf(8) is told to keep, and the commands that load firewall rules. *)
From Coq Require Import String ZArith List Bool.
From Verif Require Import Base Cstr Bash Quick QuickRun QuickRunSpec QuickFirewallSpec.
Import ListNotations.
Open Scope Z_scope.

(** The command ran to its end and succeeded. *)
Definition worked (a : answer) : Prop := a_status a = 0 /\ a_signal a = None.

(** The record [name] is added, or deleted. *)
Definition dns_add (name text : list Z) : command := mk_cmd [str "resolvconf"; str "-a"; name; str "-m"; str "0"; str "-x"] text.
Definition dns_delete (name : list Z) : command := argv [str "resolvconf"; str "-d"; name; str "-f"].
Definition runs_resolvconf (c : command) : Prop := exists ws, c_argv c = str "resolvconf" :: ws.

(** The file /etc/resolvconf/interface-order of Debian's resolvconf: records whose names match an earlier line are preferred.  The prefix is
    taken from the first line that is a prefix followed by a star. *)
Definition prefix_char (c : Z) : Prop := 97 <= c <= 122 \/ 65 <= c <= 90 \/ 48 <= c <= 57 \/ c = 45.
Definition order_line (line p : list Z) : Prop := line = p ++ [42] /\ p <> [] /\ Forall prefix_char p.
Definition preferred (lines : list (list Z)) (p : list Z) : Prop :=
  (exists l1 line l2 q, lines = l1 ++ line :: l2 /\ (forall l, In l l1 -> forall x, ~ order_line l x) /\ order_line line q /\ p = q ++ [46]) \/
  ((forall l, In l lines -> forall x, ~ order_line l x) /\ p = []).
Definition order_file : list Z := str "/etc/resolvconf/interface-order".
Definition has_order_file : command := argv [str "test"; str "-f"; order_file].
Definition read_order_file : command := argv [str "<"; order_file].
(** The questions [qs] and their answers lead to the prefix [p]. *)
Definition looked_up (qs : history) (p : list Z) : Prop :=
  (exists a, qs = [(has_order_file, a)] /\ a_status a <> 0 /\ p = []) \/
  (exists a b, qs = [(has_order_file, a); (read_order_file, b)] /\ a_status a = 0 /\ preferred (read_complete (a_output b)) p).

Definition loads_firewall (c : command) : Prop :=
  (exists text, c = nft_load text) \/ exists iptables text, In iptables [str "iptables"; str "ip6tables"] /\ c = load_rules iptables text.

(** The script ended because of its last command. *)
Definition ended_interrupted (h : history) : Prop := exists h1 ev, h = h1 ++ [ev] /\ a_signal (snd ev) <> None.
Definition ended_failing (C : command -> Prop) (h : history) : Prop := exists h1 ev, h = h1 ++ [ev] /\ C (fst ev) /\ a_status (snd ev) <> 0.

(** A command that registers DNS servers; a command that adds firewall rules (an nft script that begins by adding a table, an iptables script
    with an insertion). *)
Definition adds_record (c : command) : Prop := exists name text, c = dns_add name text.
Definition installs (c : command) : Prop :=
  (exists rest, c = nft_load (str "add table " ++ rest)) \/
  exists iptables a b, In iptables [str "iptables"; str "ip6tables"] /\ c = load_rules iptables (a ++ [10] ++ str "-I " ++ b).
(** The same questions about the order file have the same answers. *)
Definition steady (h : history) : Prop := forall c a b, In (c, a) h -> In (c, b) h -> c = has_order_file \/ c = read_order_file -> a_status a = a_status b /\ a_output a = a_output b.
