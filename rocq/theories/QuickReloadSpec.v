(** Independent vocabulary for C50: what a saved configuration is made from. *)
From Coq Require Import String ZArith List Bool.
From Verif Require Import Base ConfigSpec Bash Quick QuickSpec QuickRun QuickRunSpec QuickMtuSpec.
Import ListNotations.
Open Scope Z_scope.

Definition ask_addresses (ifc : list Z) : command := argv [str "ip"; str "-all"; str "-brief"; str "address"; str "show"; str "dev"; ifc].
Definition ask_config (ifc : list Z) : command := argv [str "wg"; str "showconf"; ifc].

(** A line of "ip -brief address": the name, at least two spaces, the state in capitals, the addresses. *)
Definition brief (ifc out : list Z) (ws : list (list Z)) : Prop := exists a st b,
  out = ifc ++ a ++ st ++ b /\ (2 <= length a)%nat /\ Forall (eq 32) a /\ st <> [] /\ Forall (fun c => 65 <= c <= 90) st /\
  (b = [] \/ exists b', b = 32 :: b') /\ ~ In 44 b /\ entries b ws.
(** Words that mean nothing special to bash or in a configuration file. *)
Definition ordinary (w : list Z) : Prop := plain_word w /\ Forall (fun c => ~ space c) w /\ ~ In 35 w /\ ~ In 38 w /\ ~ In 0 w.

(** The complete lines of an output, without blanks around them. *)
Definition complete_lines (out : list Z) (ls : list (list Z)) : Prop := exists full rest,
  no_nul out = concat (map (fun l => l ++ [10]) full) ++ rest /\ Forall (fun l => ~ In 10 l) full /\ ~ In 10 rest /\ Forall2 (trimmed blank) full ls.
Definition server_letter (c : Z) : Prop :=
  97 <= c <= 122 \/ 65 <= c <= 90 \/ 48 <= c <= 57 \/ In c (str "_=+.-:%").
Definition nameserver_line (l v : list Z) : Prop := l = str "nameserver " ++ v /\ v <> [] /\ Forall server_letter v.
(** What resolvconf knows about the interface. *)
Definition resolver_says (ifc : list Z) (h : history) (raw : list Z) : Prop := exists p r,
  In (argv [str "resolvconf"; str "-l"; p ++ ifc], r) h /\
  ((a_status r = 0 /\ raw = a_output r) \/
   (a_status r <> 0 /\ exists p2 c, In (argv [str "cat"; str "/etc/resolvconf/run/interface/" ++ p2 ++ ifc], c) h /\ raw = a_output r ++ a_output c)).
Definition nameservers (ifc : list Z) (h : history) (vs : list (list Z)) : Prop :=
  exists raw ls, resolver_says ifc h raw /\ complete_lines raw ls /\ picks (fun _ => nameserver_line) [] ls vs.

(** A configuration as "wg showconf" prints it: the lines after the first, up to the last that is not empty. *)
Definition config_lines (out : list Z) (ls : list (list Z)) : Prop := exists k,
  out = concat (map (fun l => l ++ [10]) (str "[Interface]" :: ls)) ++ repeat 10 k /\ ~ In 0 out /\
  Forall (fun l => ~ In 10 l) ls /\ ls <> [] /\ last ls [] <> [].
(** None of them is a setting of wg-quick. *)
Definition not_own (ls : list (list Z)) : Prop := others (str "[Interface]" :: ls) (str "[Interface]" :: ls).

(** The options come from a configuration file. *)
Definition from_file (glob : list Z -> list (list Z)) (o : options) : Prop := exists text, ~ In 0 text /\ parse_options glob text = Some o.
Definition hooks_of (o : options) : list (list Z) := o_preup o ++ o_postup o ++ o_predown o ++ o_postdown o.
(** Bash from 5.2 on gives these characters a meaning in the replacement of a substitution. *)
Definition unaffected (v : list Z) : Prop := ~ In 38 v /\ ~ In 92 v.

(** [m]: the MTU the interface has. *)
Definition has_mtu (ifc : list Z) (h : history) (m : list Z) : Prop := exists l,
  In (show_link ifc, l) h /\
  (field (str "mtu ") (fun c => 48 <= c <= 57) (captured (a_output l)) m \/ ((forall n, ~ names_mtu (captured (a_output l)) n) /\ m = [])).

(** The options [o'] read from the saved file: those of [o] that do not belong to the interface itself, and what the interface had. *)
Definition reloaded (ifc : list Z) (h : history) (o : options) (addresses : list (list Z)) (lines : list (list Z)) (o' : options) : Prop :=
  o_addresses o' = addresses /\
  (exists vs, nameservers ifc h vs /\ divide server vs (o_dns o') (o_search o')) /\
  ((o_mtu o = [] /\ o_mtu o' = []) \/ (o_mtu o <> [] /\ has_mtu ifc h (o_mtu o'))) /\
  o_table o' = o_table o /\ o_save o' = o_save o /\
  o_preup o' = o_preup o /\ o_postup o' = o_postup o /\ o_predown o' = o_predown o /\ o_postdown o' = o_postdown o /\
  exists ls, Forall2 (trimmed blank) (str "[Interface]" :: lines) ls /\ o_config o' = concat (map (fun l => l ++ [10]) ls).
