(** Independent vocabulary for 'wg-quick down': the documented order of its commands, and the rules of the routing policy database. *)
From Coq Require Import String ZArith List Bool.
From Verif Require Import Base Cstr Types Show Bash Quick QuickRun QuickRunSpec QuickRouteSpec.
Import ListNotations.
Open Scope Z_scope.

Definition show_interfaces : command := argv [str "wg"; str "show"; str "interfaces"].
(** Interface names: no spaces, newlines or NUL bytes in them. *)
Definition plain_name (n : list Z) : Prop := ~ In 32 n /\ ~ In 10 n /\ ~ In 0 n /\ n <> [].

(** Saving replaces the file by way of a temporary one; the umask is asked for, set and put back. *)
Definition saving (conf : list Z) (cs : list command) : Prop :=
  exists text old, cs =
    [argv [str "umask"]; argv [str "umask"; str "077"];
     mk_cmd [str ">"; conf ++ str ".tmp"] text; argv [str "sync"; conf ++ str ".tmp"]; argv [str "mv"; conf ++ str ".tmp"; conf];
     argv [str "umask"; old]].
Definition deletes_rule (c : command) : Prop :=
  exists f args, (f = str "-4" \/ f = str "-6") /\ c = argv (str "ip" :: f :: str "rule" :: str "delete" :: str "table" :: args).
Definition unregisters_dns (ifc : list Z) (o : options) (cs : list command) : Prop :=
  (o_dns o = [] /\ cs = []) \/ (o_dns o <> [] /\ exists prefix, cs = [argv [str "resolvconf"; str "-d"; prefix ++ ifc; str "-f"]]).
Definition firewall_words : list (list string) := [["nft"; "-f"]; ["iptables-restore"]; ["ip6tables-restore"]]%string.
Definition firewall_cmd (c : command) : Prop := existsb (fun p => begins (words_of p) (c_argv c)) firewall_words = true.

(** wg-quick(8): PreDown hooks, saving, (routing rules,) the interface, DNS and firewall, PostDown hooks. *)
Definition down_order (ifc : list Z) (o : options) (conf : list Z) (cs : list command) : Prop :=
  exists pre post save rules dns fw,
    Forall2 (substituted (str "%i") ifc) (o_predown o) pre /\ Forall2 (substituted (str "%i") ifc) (o_postdown o) post /\
    (if o_save o then saving conf save else save = []) /\
    Forall deletes_rule rules /\ (rules = [] \/ o_table o = [] \/ o_table o = str "auto") /\
    unregisters_dns ifc o dns /\ Forall firewall_cmd fw /\
    cs = map run_hook pre ++ save ++ rules ++ [link_delete ifc] ++ dns ++ fw ++ map run_hook post.

(** The interface has been deleted. *)
Definition deleted (ifc : list Z) (h : history) : Prop := exists a, In (link_delete ifc, a) h /\ a_status a = 0.
(** Only after that may a change fail without consequence, and only one of DNS or the firewall (umask without arguments changes nothing). *)
Definition heeds (ifc : list Z) (h : history) : Prop :=
  forall h1 ev h2 st, h = h1 ++ ev :: h2 -> failed ev st -> fst ev <> argv [str "umask"] ->
    deleted ifc h1 /\ (begins [str "resolvconf"] (c_argv (fst ev)) = true \/ firewall_cmd (fst ev)).

(** ** Rules *)
(** One line of "ip rule show": the text before the table, the table, the greatest suppressed prefix length if any, the rest. *)
Record rule := mk_rule { r_head : list Z; r_table : list Z; r_suppress : option Z; r_rest : list Z }.
Definition rule_line (r : rule) : list Z :=
  r_head r ++ str "lookup " ++ r_table r ++
  (match r_suppress r with Some n => str " suppress_prefixlength " ++ print_dec n | None => [] end) ++ r_rest r.
(** What a line may look like: one line, in which "lookup " occurs once; the table is a word and what follows the numbers begins with a space. *)
Definition proper_rule (r : rule) : Prop :=
  ~ In 10 (rule_line r) /\ ~ In 0 (rule_line r) /\
  (forall a b, rule_line r = a ++ str "lookup " ++ b -> a = r_head r) /\
  ~ In 32 (r_table r) /\ (r_rest r = [] \/ exists x, r_rest r = 32 :: x) /\
  (forall n, r_suppress r = Some n -> 0 <= n) /\
  (r_suppress r = None -> forall x, r_rest r <> str " suppress_prefixlength " ++ x).

(** What "ip rule delete table T [suppress_prefixlength N]" looks for. *)
Record selector := mk_sel { s_table : list Z; s_suppress : option Z }.
Definition selects (s : selector) (r : rule) : Prop := r_table r = s_table s /\ (s_suppress s <> None -> r_suppress r = s_suppress s).
Definition rule_delete (f : list Z) (s : selector) : command :=
  argv ([str "ip"; f; str "rule"; str "delete"; str "table"; s_table s] ++
        match s_suppress s with Some n => [str "suppress_prefixlength"; print_dec n] | None => [] end).
Definition rule_show (f : list Z) : command := argv [str "ip"; f; str "rule"; str "show"].

(** The rules of each family (-4, -6) after each history, and what the commands of ip do with them: the listing shows them all; a deletion
    removes the first that matches and succeeds exactly if there is one; neither this nor a question changes anything else. *)
Definition knows_rules (sys : system) (rules : history -> list Z -> list rule) : Prop :=
  forall h, Forall (fun f =>
    Forall proper_rule (rules h f) /\
    a_output (sys h (rule_show f)) = unlines (map rule_line (rules h f)) /\
    (forall c g, asks c = true -> rules (h ++ [(c, sys h c)]) g = rules h g) /\
    (forall s, (forall n, s_suppress s = Some n -> 0 <= n) -> let ev := (rule_delete f s, sys h (rule_delete f s)) in
       (exists a r b, rules h f = a ++ r :: b /\ selects s r /\ Forall (fun x => ~ selects s x) a /\
          a_status (snd ev) = 0 /\ rules (h ++ [ev]) f = a ++ b /\ (forall g, g <> f -> rules (h ++ [ev]) g = rules h g)) \/
       (Forall (fun x => ~ selects s x) (rules h f) /\ a_status (snd ev) <> 0)))
    [str "-4"; str "-6"].

(** The rules wg-quick adds for table [t]: any rule leading to [t], and the one that hides default routes of the main table. *)
Definition own_rule (t : list Z) (r : rule) : Prop :=
  r_table r = t \/ (r_table r = str "main" /\ r_suppress r = Some 0).
(** [kept P l l']: [l'] is [l] without the elements satisfying [P]. *)
Inductive without {A} (P : A -> Prop) : list A -> list A -> Prop :=
| wo_nil : without P [] []
| wo_drop : forall x l l', P x -> without P l l' -> without P (x :: l) l'
| wo_keep : forall x l l', ~ P x -> without P l l' -> without P (x :: l) (x :: l').
(** The names of other tables do not begin with [t], and every rule hiding default routes of the main table applies to all sources. *)
Definition unambiguous (t : list Z) (r : rule) : Prop :=
  (forall x, r_table r = t ++ x -> x = []) /\
  (r_table r = str "main" -> r_suppress r = Some 0 -> exists x, r_head r = x ++ str "from all ").
(** Asked for the fwmark during [h], wg fails or prints a fwmark, and if there is one, the rules at that moment are unambiguous. *)
Definition tells_mark (ifc : list Z) (rules : history -> list Z -> list rule) (h : history) : Prop :=
  forall h0 am hd, h = h0 ++ (show_mark ifc, am) :: hd -> a_status am = 0 ->
    exists t, 0 <= t /\ a_output am = mark_str t ++ [10] /\
      (0 < t -> Forall (fun f => Forall (unambiguous (print_dec t)) (rules h0 f)) [str "-4"; str "-6"]).
(** The output of "wg show INTERFACE allowed-ips" contains a default route. *)
Definition shows_default (out : list Z) : Prop :=
  exists a b, captured out = a ++ str "/0" ++ b /\ (b = [] \/ exists x, b = 32 :: x \/ b = 10 :: x).

(** How a run of 'wg-quick down' may go that ends with status [st] having run [h]. *)
Definition down_run (ifc : list Z) (o : options) (conf : list Z) (st : Z) (h : history) : Prop :=
  exists h1 h2 cs, h = h1 ++ h2 /\ down_order ifc o conf (changes h1 ++ cs) /\
    ((st = 0 /\ cs = [] /\ h2 = [] /\ heeds ifc h1 /\ deleted ifc h1) \/
     (st <> 0 /\ (exists h0 ev, h1 = h0 ++ [ev] /\ heeds ifc h0 /\ a_status (snd ev) <> 0) /\
      (h2 = [] \/
       (o_save o = true /\ (exists a, h2 = [(argv [str "rm"; str "-f"; conf ++ str ".tmp"], a)]) /\ forall a, ~ In (link_delete ifc, a) h1)))).
