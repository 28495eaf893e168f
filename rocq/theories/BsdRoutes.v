(** Model of the part of wg-quick that keeps host routes to the endpoints on the BSDs and macOS: src/wg-quick/freebsd.bash:131-153 and 205-299,
    openbsd.bash:120-143 and 188-281, darwin.bash:130-153, 192-216, 243-292 and 323-346.  The three texts differ only in what is a parameter here.
    Not modelled: the echo of commands; redirections to /dev/null; on macOS, DNS and MTU in the monitor (darwin.bash:329, 339-343). *)
From Coq Require Import String ZArith List Bool.
From Verif Require Import Base Cstr Bash Quick QuickRun Sh.
Import ListNotations.
Open Scope Z_scope.

(** The variables of the three scripts that change while commands run. *)
Record vars := mk_vars {
  v_dns : bool;                       (* HAVE_SET_DNS *)
  v_auto4 : bool; v_auto6 : bool;     (* AUTO_ROUTE4, AUTO_ROUTE6 *)
  v_gw4 : list Z; v_gw6 : list Z;     (* GATEWAY4, GATEWAY6 *)
  v_eps : list (list Z);              (* ENDPOINTS *)
  v_tmp : list Z                      (* CLEANUP_TMPDIR *)
}.
Definition vars0 : vars := mk_vars false false false [] [] [] [].
Definition with_dns (v : vars) : vars := mk_vars true (v_auto4 v) (v_auto6 v) (v_gw4 v) (v_gw6 v) (v_eps v) (v_tmp v).
Definition with_auto4 (v : vars) : vars := mk_vars (v_dns v) true (v_auto6 v) (v_gw4 v) (v_gw6 v) (v_eps v) (v_tmp v).
Definition with_auto6 (v : vars) : vars := mk_vars (v_dns v) (v_auto4 v) true (v_gw4 v) (v_gw6 v) (v_eps v) (v_tmp v).
Definition with_gw4 (g : list Z) (v : vars) : vars := mk_vars (v_dns v) (v_auto4 v) (v_auto6 v) g (v_gw6 v) (v_eps v) (v_tmp v).
Definition with_gw6 (g : list Z) (v : vars) : vars := mk_vars (v_dns v) (v_auto4 v) (v_auto6 v) (v_gw4 v) g (v_eps v) (v_tmp v).
Definition with_eps (e : list (list Z)) (v : vars) : vars := mk_vars (v_dns v) (v_auto4 v) (v_auto6 v) (v_gw4 v) (v_gw6 v) e (v_tmp v).
Definition with_tmp (t : list Z) (v : vars) : vars := mk_vars (v_dns v) (v_auto4 v) (v_auto6 v) (v_gw4 v) (v_gw6 v) (v_eps v) t.

(** [read -r a b _ c ...]: the n-th word of a line (a line of bash's read has no newline). *)
Definition field (n : nat) (line : list Z) : list Z := nth n (words line) [].
(** [[[ " ${array[*]} " == *" $e "* ]]] *)
Definition listed_in (e : list Z) (l : list (list Z)) : bool := contains (32 :: e ++ [32]) (32 :: join_sp l ++ [32]).

Section Routes.
Variable sys : system.
Variable ifc : list Z.               (* INTERFACE, or REAL_INTERFACE on OpenBSD and macOS *)
Variable no_link : bool.             (* macOS: gateways that begin with "link#" do not count (darwin.bash:197, 204) *)

(** src/wg-quick/freebsd.bash:205-221 collect_gateways (openbsd.bash:188-204, darwin.bash:192-208) *)
Definition usable (line : list Z) : bool :=
  beq (field 0 line) !"default" && negb (no_link && starts_with !"link#" (field 1 line)).
Fixpoint gateway (lines : list (list Z)) : list Z :=
  match lines with
  | [] => []
  | l :: ls => if usable l then field 1 l else gateway ls
  end.
Definition collect_gateways : act vars unit :=
  t4 <~ feed sys [!"netstat"; !"-nr"; !"-f"; !"inet"] ;;
  put (with_gw4 (gateway (read_complete t4))) ;~
  t6 <~ feed sys [!"netstat"; !"-nr"; !"-f"; !"inet6"] ;;
  put (with_gw6 (gateway (read_complete t6))).

(** src/wg-quick/freebsd.bash:223-229 collect_endpoints (openbsd.bash:206-212, darwin.bash:210-216) *)
Definition hosts (lines : list (list Z)) : list (list Z) :=
  flat_map (fun l => match endpoint_host (second_field l) with Some h => [h] | None => [] end) lines.
Definition collect_endpoints : act vars unit :=
  out <~ feed sys [!"wg"; !"show"; ifc; !"endpoints"] ;;
  put (with_eps (hosts (read_complete out))).

(** src/wg-quick/freebsd.bash:241-245: the endpoints that are not in [old] are appended to it *)
Fixpoint merge (old eps : list (list Z)) : list (list Z) :=
  match eps with
  | [] => old
  | e :: eps' => merge (if listed_in e old then old else old ++ [e]) eps'
  end.
(** src/wg-quick/freebsd.bash:249-253 *)
Definition drop_route (v : vars) (e : list Z) : act vars unit :=
  if has_char 58 e && v_auto6 v then try sys [!"route"; !"-q"; !"-n"; !"delete"; !"-inet6"; e]
  else if v_auto4 v then try sys [!"route"; !"-q"; !"-n"; !"delete"; !"-inet"; e]
  else pure tt.
(** src/wg-quick/freebsd.bash:247-254 *)
Definition drop_old (v : vars) (all : bool) (e : list Z) : act vars unit :=
  if negb all && listed_in e (v_eps v) then pure tt else drop_route v e.
(** src/wg-quick/freebsd.bash:256-278: the loop; the result is the array [added] *)
Definition add_direct (v : vars) (e : list Z) : act vars (list (list Z)) :=
  if has_char 58 e && v_auto6 v then
    (match v_gw6 v with
     | [] => try sys [!"route"; !"-q"; !"-n"; !"add"; !"-inet6"; e; !"::1"; !"-blackhole"]
     | g => try sys [!"route"; !"-q"; !"-n"; !"add"; !"-inet6"; e; !"-gateway"; g]
     end) ;~ pure [e]
  else if v_auto4 v then
    (match v_gw4 v with
     | [] => try sys [!"route"; !"-q"; !"-n"; !"add"; !"-inet"; e; !"127.0.0.1"; !"-blackhole"]
     | g => try sys [!"route"; !"-q"; !"-n"; !"add"; !"-inet"; e; !"-gateway"; g]
     end) ;~ pure [e]
  else pure [].
Fixpoint add_new (v : vars) (all : bool) (old eps : list (list Z)) : act vars (list (list Z)) :=
  match eps with
  | [] => pure []
  | e :: eps' =>
      a <~ (if negb all && listed_in e old then pure [e] else add_direct v e) ;;
      rest <~ add_new v all old eps' ;;
      pure (a ++ rest)
  end.
(** src/wg-quick/freebsd.bash:231-280 set_endpoint_direct_route (openbsd.bash:214-263, darwin.bash:243-292) *)
Definition set_endpoint_direct_route : act vars unit :=
  get (fun v0 =>
    collect_gateways ;~
    collect_endpoints ;~
    get (fun v =>
      let all := negb (beq (v_gw4 v0) (v_gw4 v)) || negb (beq (v_gw6 v0) (v_gw6 v)) in
      let old := if all then merge (v_eps v0) (v_eps v) else v_eps v0 in
      each (drop_old v all) old ;~
      added <~ add_new v all old (v_eps v) ;;
      put (with_eps added))).

(** src/wg-quick/freebsd.bash:131-153 del_routes (openbsd.bash:120-143, darwin.bash:130-153; there only when REAL_INTERFACE is known) *)
Definition deletes4 (lines : list (list Z)) : list (list Z) :=
  flat_map (fun l => if beq (field 5 l) ifc then [field 0 l] else []) lines.
(** [read -r destination gateway _ netif]: the last variable takes the rest of the line, without the blanks around it. *)
Definition rest_from (n : nat) (line : list Z) : list Z := Nat.iter n (fun s => drop_while blankb (drop_while (fun c => negb (blankb c)) s)) line.
Definition deletes6 (lines : list (list Z)) : list (list Z) :=
  flat_map (fun l => if beq (rest_from 3 l) ifc || (starts_with !"lo" (rest_from 3 l) && beq (field 1 l) ifc) then [field 0 l] else []) lines.
Definition del_endpoint (e : list Z) : act vars unit :=
  if has_char 58 e then try sys [!"route"; !"-q"; !"-n"; !"delete"; !"-inet6"; e]
  else try sys [!"route"; !"-q"; !"-n"; !"delete"; !"-inet"; e].
Definition del_routes : act vars unit :=
  t4 <~ feed sys [!"netstat"; !"-nr"; !"-f"; !"inet"] ;;
  each (fun d => try sys [!"route"; !"-q"; !"-n"; !"delete"; !"-inet"; d]) (deletes4 (read_complete t4)) ;~
  t6 <~ feed sys [!"netstat"; !"-nr"; !"-f"; !"inet6"] ;;
  each (fun d => try sys [!"route"; !"-q"; !"-n"; !"delete"; !"-inet6"; d]) (deletes6 (read_complete t6)) ;~
  get (fun v => each del_endpoint (v_eps v)).

(** src/wg-quick/freebsd.bash:293-298 (openbsd.bash:275-280, darwin.bash:334-344): the monitor's loop, for the events it reads.  The loop ends when the
    interface is gone or the events end. *)
Fixpoint monitor_loop (events : list (list Z)) : act vars unit :=
  match events with
  | [] => pure tt
  | ev :: events' =>
      if negb (starts_with !"RTM_" ev) then monitor_loop events'
      else
        up <~ holds sys [!"ifconfig"; ifc] ;;
        if negb up then pure tt
        else
          get (fun v => if v_auto4 v || v_auto6 v then set_endpoint_direct_route else pure tt) ;~
          monitor_loop events'
  end.
End Routes.
