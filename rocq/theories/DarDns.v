(** Model of the part of wg-quick that sets and restores the DNS servers of network services on macOS: src/wg-quick/darwin.bash:218-241, 294-321.

    Commands, answers and systems are those of QuickRun.v.  Not modelled: the echo of commands, the copying of error messages to standard error; names of services
    in which a dollar sign, a backquote, a backslash, a quotation mark or a bracket occurs (the subscript of [unset], lines 237 and 238, is expanded a second
    time).  The order in which bash goes through an associative array is left open: it is given by [order]. *)
From Coq Require Import String ZArith List Bool.
From Verif Require Import Base Cstr Bash Quick QuickRun Sh.
Import ListNotations.
Open Scope Z_scope.

(** ** Associative arrays *)
Definition table : Type := list (list Z * list Z).
(** [${A[k]}]: empty if there is no such element *)
Fixpoint look (k : list Z) (t : table) : list Z :=
  match t with
  | [] => []
  | (x, v) :: t' => if beq k x then v else look k t'
  end.
(** [unset A[k]], [A[k]=v] *)
Definition drop (k : list Z) (t : table) : table := filter (fun e => negb (beq k (fst e))) t.
Definition store (k v : list Z) (t : table) : table := drop k t ++ [(k, v)].
Definition keys (t : table) : list (list Z) := map fst t.

(** src/wg-quick/darwin.bash:218-219: SERVICE_DNS, SERVICE_DNS_SEARCH *)
Record dvars := mk_dvars { d_dns : table; d_search : table }.
Definition dvars0 : dvars := mk_dvars [] [].
(** src/wg-quick/darwin.bash:229, 232: [[[ -n $get_response ]] && SERVICE_DNS["$service"]="$get_response"] *)
Definition note_dns (k v : list Z) (d : dvars) : dvars := match v with [] => d | _ => mk_dvars (store k v (d_dns d)) (d_search d) end.
Definition note_search (k v : list Z) (d : dvars) : dvars := match v with [] => d | _ => mk_dvars (d_dns d) (store k v (d_search d)) end.
(** src/wg-quick/darwin.bash:235-240: services that are not in the list any more *)
Definition gone (found : list (list Z)) (d : dvars) (k : list Z) : bool := existsb (beq k) (keys (d_dns d)) && negb (existsb (beq k) found).
Definition forget (found : list (list Z)) (d : dvars) : dvars :=
  mk_dvars (filter (fun e => negb (gone found d (fst e))) (d_dns d)) (filter (fun e => negb (gone found d (fst e))) (d_search d)).

(** src/wg-quick/darwin.bash:225: an asterisk marks a disabled service *)
Definition service_name (line : list Z) : list Z := match line with 42 :: n => n | n => n end.
(** src/wg-quick/darwin.bash:228, 231: a sentence means that there are none *)
Definition response (text : list Z) : list Z := if has_char 32 text then !"Empty" else text.

Section Dns.
Variable sys : system.
Variable glob : list Z -> list (list Z).
Variable order : history -> list (list Z) -> list (list Z).
Variables dns search : list (list Z).                (* DNS, DNS_SEARCH *)
(** What bash does after the command of line 227 because of a signal it has a trap for (line 329); nothing if there is none. *)
Variable trapped : act dvars unit.

(** src/wg-quick/darwin.bash:227-228, 230-231: "set -e" is in force, and the status of the assignment is that of the command *)
Definition response_to (option service : list Z) : act dvars (list Z) :=
  a <~ call sys (argv [!"networksetup"; option; service]) ;;
  if a_status a =? 0 then pure (response (captured (a_output a))) else quit (a_status a).
(** src/wg-quick/darwin.bash:224-233: the body of the loop.  An empty name is no subscript of an array (line 226): the script ends. *)
Definition collect_one (line : list Z) : act dvars unit :=
  match service_name line with
  | [] => quit 1
  | name =>
      get (fun d =>
        match look name (d_dns d) with
        | _ :: _ => pure tt
        | [] =>
            r <~ response_to !"-getdnsservers" name ;;
            trapped ;~
            put (note_dns name r) ;~
            r2 <~ response_to !"-getsearchdomains" name ;;
            put (note_search name r2)
        end)
  end.
(** src/wg-quick/darwin.bash:220-241 collect_new_service_dns: the first line of the list is skipped, and if there is none nothing is read *)
Definition collect : act dvars unit :=
  out <~ feed sys [!"networksetup"; !"-listallnetworkservices"] ;;
  let lines := tl (read_complete out) in
  each collect_one lines ;~
  put (forget (map service_name lines)).

(** src/wg-quick/darwin.bash:299-307: in the process substitution "set -e" is in force, but its status is not looked at *)
Definition set_one (service : list Z) : act dvars unit :=
  a <~ call sys (argv (!"networksetup" :: !"-setdnsservers" :: service :: dns)) ;;
  if a_status a =? 0
  then try sys (!"networksetup" :: !"-setsearchdomains" :: service :: match search with [] => [!"Empty"] | _ => search end)
  else pure tt.
(** [for service in "${!SERVICE_DNS[@]}"] *)
Definition each_service (f : dvars -> list Z -> act dvars unit) : act dvars unit := fun s =>
  each (f (s_vars s)) (order (s_hist s) (keys (d_dns (s_vars s)))) s.
(** src/wg-quick/darwin.bash:294-309 set_dns *)
Definition set_dns : act dvars unit := collect ;~ each_service (fun _ => set_one).
(** src/wg-quick/darwin.bash:311-321 del_dns; the elements of the arrays are not quoted *)
Definition del_one (d : dvars) (service : list Z) : act dvars unit :=
  try sys (!"networksetup" :: !"-setdnsservers" :: service :: expand glob (look service (d_dns d))) ;~
  try sys (!"networksetup" :: !"-setsearchdomains" :: service :: expand glob (look service (d_search d))).
Definition del_dns : act dvars unit := each_service del_one.
End Dns.

(** src/wg-quick/darwin.bash:329: trap set_dns ALRM.  [alarm]: does the signal arrive? *)
Definition on_alarm (sys : system) (order : history -> list (list Z) -> list (list Z)) (dns search : list (list Z)) (alarm : history -> bool) : act dvars unit :=
  fun s => if alarm (s_hist s) then set_dns sys order dns search (pure tt) s else pure tt s.
