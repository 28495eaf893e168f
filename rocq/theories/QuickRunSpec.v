(** Independent vocabulary for what wg-quick does to the system: which commands only ask, what failed, whether the interface exists. *)
From Coq Require Import String ZArith List Bool.
From Verif Require Import Base Bash Quick QuickRun.
Import ListNotations.
Open Scope Z_scope.

Definition words_of (l : list string) : list (list Z) := map str l.

(** Commands that only ask: they begin with one of these words. *)
Definition questions : list (list (list Z)) := map words_of
  [["ip"; "link"; "show"]; ["ip"; "route"; "get"]; ["ip"; "route"; "show"];
   ["ip"; "-4"; "route"; "show"]; ["ip"; "-6"; "route"; "show"]; ["ip"; "-4"; "rule"; "show"]; ["ip"; "-6"; "rule"; "show"];
   ["ip"; "-o"]; ["ip"; "-all"]; ["wg"; "show"]; ["wg"; "showconf"]; ["nft"; "list"]; ["iptables-save"]; ["ip6tables-save"];
   ["resolvconf"; "-l"]; ["cat"]; ["test"]; ["type"]; ["command"]; ["<"]; ["sort"]]%string.
Fixpoint begins (p ws : list (list Z)) : bool :=
  match p, ws with
  | [], _ => true
  | x :: p', y :: ws' => beq x y && begins p' ws'
  | _, [] => false
  end.
Definition asks (c : command) : bool := existsb (fun p => begins p (c_argv c)) questions.

(** The commands that change something, in order. *)
Definition changes (h : history) : list command := filter (fun c => negb (asks c)) (map fst h).

(** The change [ev] failed with status [st]. *)
Definition failed (ev : event) (st : Z) : Prop := asks (fst ev) = false /\ a_status (snd ev) = st /\ st <> 0.
(** Every change succeeded. *)
Definition all_well (h : history) : Prop := forall ev st, In ev h -> ~ failed ev st.
(** No signal arrived. *)
Definition undisturbed (h : history) : Prop := forall ev, In ev h -> a_signal (snd ev) = None.

Definition link_add (ifc : list Z) : command := argv [str "ip"; str "link"; str "add"; ifc; str "type"; str "wireguard"].
Definition link_delete (ifc : list Z) : command := argv [str "ip"; str "link"; str "delete"; str "dev"; ifc].
Definition start_userspace (us ifc : list Z) : command := argv [us; ifc].

(** The programs the script runs apart from the userspace implementation. *)
Definition known (w : list Z) : bool := existsb (beq w) (words_of
  ["ip"; "wg"; "nft"; "iptables-save"; "ip6tables-save"; "iptables-restore"; "ip6tables-restore"; "resolvconf"; "sysctl"; "sort"; "cat";
   "eval"; "test"; "type"; "command"; "umask"; "sync"; "mv"; "rm"; "<"; ">"]%string).

(** What a command that succeeded means for the interface. *)
Inductive meaning := Creates | Deletes | Nothing.
Definition means (us ifc : list Z) (c : command) (m : meaning) : Prop :=
  match m with
  | Creates => c = link_add ifc \/ c = start_userspace us ifc
  | Deletes => c = link_delete ifc
  | Nothing => c <> link_add ifc /\ c <> start_userspace us ifc /\ c <> link_delete ifc
  end.
(** Whether the script leaves the interface behind: [present us ifc h b]: after [h], starting without it. *)
Inductive present (us ifc : list Z) : history -> bool -> Prop :=
| pr_start : present us ifc [] false
| pr_creates : forall h b c a, present us ifc h b -> means us ifc c Creates -> a_status a = 0 -> present us ifc (h ++ [(c, a)]) true
| pr_deletes : forall h b c a, present us ifc h b -> means us ifc c Deletes -> a_status a = 0 -> present us ifc (h ++ [(c, a)]) false
| pr_other : forall h b c a, present us ifc h b -> means us ifc c Nothing \/ a_status a <> 0 -> present us ifc (h ++ [(c, a)]) b.

(** Replacing every "%i": the text is cut at its occurrences. *)
Fixpoint glue (sep : list Z) (pieces : list (list Z)) : list Z :=
  match pieces with
  | [] => []
  | [p] => p
  | p :: ps => p ++ sep ++ glue sep ps
  end.
Definition occurs (p s : list Z) : Prop := exists a b, s = a ++ p ++ b.
Definition substituted (p r s t : list Z) : Prop :=
  exists pieces, pieces <> [] /\ Forall (fun x => ~ occurs p x) pieces /\ s = glue p pieces /\ t = glue r pieces.

(** The commands of 'wg-quick up' after the interface has been created, in the documented order (wg-quick(8)): PreUp hooks, the
    configuration, addresses, MTU and link up, DNS, routes, PostUp hooks. *)
Definition run_hook (text : list Z) : command := argv [str "eval"; text].
Inductive family : list Z -> list Z -> Prop :=
| fam_6 : forall a, In 58 a -> family a (str "-6")
| fam_4 : forall a, ~ In 58 a -> family a (str "-4").
Definition adds_address (ifc a : list Z) (c : command) : Prop :=
  exists f, family a f /\ c = argv [str "ip"; f; str "address"; str "add"; a; str "dev"; ifc].
Definition sets_config (ifc text : list Z) : command := mk_cmd [str "wg"; str "setconf"; ifc; str "/dev/fd/63"] text.
Definition sets_mtu (ifc n : list Z) : command := argv [str "ip"; str "link"; str "set"; str "mtu"; n; str "up"; str "dev"; ifc].
Definition resolv_text (servers domains : list (list Z)) : list Z :=
  concat (map (fun d => str "nameserver " ++ d ++ [10]) servers) ++
  match domains with [] => [] | _ => str "search " ++ glue [32] domains ++ [10] end.
Definition registers_dns (ifc : list Z) (o : options) (cs : list command) : Prop :=
  (o_dns o = [] /\ cs = []) \/
  (o_dns o <> [] /\ exists prefix, cs = [mk_cmd [str "resolvconf"; str "-a"; prefix ++ ifc; str "-m"; str "0"; str "-x"]
                                                (resolv_text (o_dns o) (o_search o))]).
Definition routing_words : list (list string) :=
  [["ip"; "-4"; "route"; "add"]; ["ip"; "-6"; "route"; "add"]; ["ip"; "-4"; "rule"; "add"]; ["ip"; "-6"; "rule"; "add"];
   ["wg"; "set"]; ["sysctl"]; ["nft"; "-f"]; ["iptables-restore"]; ["ip6tables-restore"]]%string.
Definition routing_cmd (c : command) : Prop := existsb (fun p => begins (words_of p) (c_argv c)) routing_words = true.

Definition documented_order (ifc : list Z) (o : options) (cs : list command) : Prop :=
  exists pre post addresses mtu dns routes,
    Forall2 (substituted (str "%i") ifc) (o_preup o) pre /\ Forall2 (substituted (str "%i") ifc) (o_postup o) post /\
    Forall2 (adds_address ifc) (o_addresses o) addresses /\ registers_dns ifc o dns /\ Forall routing_cmd routes /\
    cs = map run_hook pre ++ [sets_config ifc (o_config o ++ [10])] ++ addresses ++ [sets_mtu ifc mtu] ++ dns ++ routes ++ map run_hook post.
