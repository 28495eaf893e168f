(** What the applications of an Android interface are, without the model: used by the statements of C69. *)
From Coq Require Import String ZArith List Bool.
From Verif Require Import Base Cstr.
Import ListNotations.
Open Scope Z_scope.

(** A line of packages.list: "name uid ...". *)
Record package := mk_package { k_name : list Z; k_uid : Z; k_rest : list Z }.
Definition package_line (p : package) : list Z := k_name p ++ 32 :: print_dec (k_uid p) ++ 32 :: k_rest p.
Definition proper_package (p : package) : Prop := ~ In 32 (k_name p) /\ 0 < k_uid p < 2 ^ 31.

(** The user ids of the installed applications that a comma-separated list names. *)
Definition names_uid (setting : list Z) (installed : list package) (u : Z) : Prop :=
  exists p, In p installed /\ k_name p <> [] /\ In (k_name p) (split_all 44 setting) /\ k_uid p = u.

(** "ndc network users add NETID A-B C ...": the words are ranges (first, last). *)
Definition range_word (r : Z * Z) : list Z :=
  if fst r =? snd r then print_dec (fst r) else print_dec (fst r) ++ str "-" ++ print_dec (snd r).
Definition users_line (netid : Z) (ranges : list (Z * Z)) : list Z :=
  str "ndc network users add " ++ print_dec netid ++ concat (map (fun r => str " " ++ range_word r) ranges).
Definition in_ranges (u : Z) (groups : list (list (Z * Z))) : Prop := exists g r, In g groups /\ In r g /\ fst r <= u <= snd r.
(** Commands of at most 18 ranges each, none empty, which add exactly the users of [users]. *)
Definition adds_users (netid : Z) (commands : list (list Z)) (users : Z -> Prop) : Prop :=
  exists groups, commands = map (users_line netid) groups /\
    Forall (fun g => (1 <= length g <= 18)%nat /\ Forall (fun r => 0 <= fst r <= snd r) g) groups /\
    forall u, in_ranges u groups <-> users u.

(** ** Configuration files (C70) *)
(** What a line gives for a key: without white space it is KEY=VALUE, the key in any case. *)
Definition value_of (key : string) (line : list Z) : option (list Z) :=
  match split_first 61 (filter (fun c => negb (isspace c)) line) with
  | Some (k, v) => if ci_eq k (str key) then Some v else None
  | None => None
  end.
(** Whether a line opens a section, and whether that is [Interface]. *)
Definition opens (line : list Z) : option bool :=
  match filter (fun c => negb (isspace c)) line with
  | 91 :: r => Some (ci_eq (91 :: r) (str "[Interface]"))
  | _ => None
  end.
(** The lines, each with whether it is in an [Interface] section. *)
Fixpoint marked (inside : bool) (lines : list (list Z)) : list (bool * list Z) :=
  match lines with
  | [] => []
  | l :: ls => let i := match opens l with Some b => b | None => inside end in (i, l) :: marked i ls
  end.
Definition may_be_empty (key : string) : bool := beq (str key) (str "ExcludedApplications") || beq (str key) (str "IncludedApplications").
Definition setting_of (key : string) (m : bool * list Z) : option (list Z) :=
  if fst m then match value_of key (snd m) with Some [] => if may_be_empty key then Some [] else None | o => o end else None.
Definition settings_of (key : string) (ms : list (bool * list Z)) : list (list Z) :=
  flat_map (fun m => match setting_of key m with Some v => [v] | None => [] end) ms.
Definition own_keys : list string := ["Address"; "DNS"; "MTU"; "ExcludedApplications"; "IncludedApplications"]%string.
(** Everything else is for wg(8). *)
Definition for_wg (ms : list (bool * list Z)) : list Z :=
  concat (map snd (filter (fun m => forallb (fun k => match setting_of k m with Some _ => false | None => true end) own_keys) ms)).
Definition commas (vs : list (list Z)) : list Z :=
  match vs with
  | [] => []
  | v :: vs' => v ++ concat (map (fun w => str "," ++ w) vs')
  end.

(** ** Shell commands (C71) *)
(** The words of a command for the shell.  None: the text is not a simple command with its arguments: something that means more to the shell than itself is not
    between single quotes, or a quote is not closed.  [q]: between single quotes; [w]: the word so far. *)
Definition plain_char (c : Z) : bool :=
  ((48 <=? c) && (c <=? 57)) || ((65 <=? c) && (c <=? 90)) || ((97 <=? c) && (c <=? 122)) || existsb (Z.eqb c) (str "+,-./:=@_%").
Definition so_far (w : option (list Z)) : list Z := match w with Some t => t | None => [] end.
Fixpoint words_from (q : bool) (w : option (list Z)) (s : list Z) : option (list (list Z)) :=
  match s with
  | [] => if q then None else Some (match w with Some t => [t] | None => [] end)
  | c :: s' =>
      if q then if c =? 39 then words_from false w s' else words_from true (Some (so_far w ++ [c])) s'
      else if c =? 39 then words_from true (Some (so_far w)) s'
      else if c =? 32 then
        match w with
        | None => words_from false None s'
        | Some t => match words_from false None s' with Some ws => Some (t :: ws) | None => None end
        end
      else if plain_char c then words_from false (Some (so_far w ++ [c])) s'
      else None
  end.
Definition words (s : list Z) : option (list (list Z)) := words_from false None s.
(** The entries of a setting: separated by commas and white space; one with a quote or a backslash does not count. *)
Fixpoint entries_from (cur s : list Z) : list (list Z) :=
  match s with
  | [] => match cur with [] => [] | _ => [cur] end
  | c :: s' => if existsb (Z.eqb c) [44; 32; 9; 10] then match cur with [] => entries_from [] s' | _ => cur :: entries_from [] s' end else entries_from (cur ++ [c]) s'
  end.
Definition entries (s : list Z) : list (list Z) := filter (fun t => forallb (fun c => negb (c =? 39) && negb (c =? 92)) t) (entries_from [] s).
(** A server is an IPv6 address (anything with a colon) or consists of digits and dots. *)
Definition is_server (t : list Z) : bool := existsb (Z.eqb 58) t || forallb (fun c => ((48 <=? c) && (c <=? 57)) || (c =? 46)) t.

(** ** Taking an interface down, and what is found out about it (C72) *)
(** A rule that wg-quick added for the interface, as iptables-save prints it behind "-A ". *)
Definition added_for (iface r : list Z) : Prop := exists a b, r = a ++ str " --comment ""wireguard rule " ++ iface ++ str """" ++ b.
(** Of the rules printed, those that are to go. *)
Inductive goes_for (iface : list Z) : list (list Z) -> list (list Z) -> Prop :=
| goes_nil : goes_for iface [] []
| goes_one : forall r rules gone, added_for iface r -> goes_for iface rules gone -> goes_for iface ((str "-A " ++ r) :: rules) (r :: gone)
| goes_not : forall l rules gone, (forall r, l = str "-A " ++ r -> ~ added_for iface r) -> goes_for iface rules gone -> goes_for iface (l :: rules) gone.
(** A line of "ip rule show" for a network: "... 0xcID/0xcffff lookup NAME...". *)
Record network_rule := mk_nrule { n_front : list Z; n_id : list Z; n_name : list Z; n_back : list Z }.
Definition nrule_line (n : network_rule) : list Z := n_front n ++ str "0xc" ++ n_id n ++ str "/0xcffff lookup " ++ n_name n ++ n_back n.
Definition proper_nrule (n : network_rule) : Prop := ~ In 120 (n_front n) /\ n_id n <> [] /\ Forall (fun c => 48 <= c <= 57 \/ 97 <= c <= 102) (n_id n).
Definition begins_with (p s : list Z) : Prop := exists r, s = p ++ r.
(** A line of "wg show IFACE endpoints" or "allowed-ips": KEY, a tab, the value. *)
Definition peer_line (kv : list Z * list Z) : list Z := fst kv ++ [9] ++ snd kv ++ [10].
