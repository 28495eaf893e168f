(** Independent vocabulary for the host routes wg-quick keeps to the endpoints on the BSDs and macOS. *)
From Coq Require Import String ZArith List Bool.
From Verif Require Import Base Bash QuickRun QuickSpec QuickReloadSpec.
Import ListNotations.
Open Scope Z_scope.

(** ** The routing table, as far as host routes are concerned *)
Inductive fam := F4 | F6.
Definition flag (f : fam) : list Z := match f with F4 => str "-inet" | F6 => str "-inet6" end.
(** Textual addresses of family [f]: those of IPv6 have a colon. *)
Definition fits (f : fam) (e : list Z) : Prop := match f with F6 => In 58 e | F4 => ~ In 58 e end.
Inductive target := Via (gateway : list Z) | Blackhole.
Definition table := fam -> list Z -> option target.
Definition set_route (T : table) (f : fam) (e : list Z) (r : option target) (T' : table) : Prop :=
  T' f e = r /\ forall f1 e1, (f1, e1) <> (f, e) -> T' f1 e1 = T f1 e1.
Definition same (T T' : table) : Prop := forall f e, T' f e = T f e.

(** Commands. *)
Definition adds (f : fam) (e : list Z) (t : target) : command :=
  argv ([str "route"; str "-q"; str "-n"; str "add"; flag f; e] ++
        match t with
        | Via g => [str "-gateway"; g]
        | Blackhole => [match f with F4 => str "127.0.0.1" | F6 => str "::1" end; str "-blackhole"]
        end).
Definition deletes (f : fam) (e : list Z) : command := argv [str "route"; str "-q"; str "-n"; str "delete"; flag f; e].
(** What they do: a route is added where there is none and the address is of the family named; otherwise the command fails. *)
Inductive kernel_step (T : table) : event -> table -> Prop :=
| ks_add : forall f e t a T', T f e = None -> fits f e -> a_status a = 0 -> set_route T f e (Some t) T' -> kernel_step T (adds f e t, a) T'
| ks_add_fails : forall f e t a T', T f e <> None \/ ~ fits f e -> a_status a <> 0 -> same T T' -> kernel_step T (adds f e t, a) T'
| ks_delete : forall f e a T', T f e <> None -> fits f e -> a_status a = 0 -> set_route T f e None T' -> kernel_step T (deletes f e, a) T'
| ks_delete_fails : forall f e a T', T f e = None \/ ~ fits f e -> a_status a <> 0 -> same T T' -> kernel_step T (deletes f e, a) T'
| ks_other : forall c a T', (forall f e t, c <> adds f e t) -> (forall f e, c <> deletes f e) -> same T T' -> kernel_step T (c, a) T'.
Inductive kernel : table -> history -> table -> Prop :=
| kn_nil : forall T T', same T T' -> kernel T [] T'
| kn_cons : forall T ev T1 h T2, kernel_step T ev T1 -> kernel T1 h T2 -> kernel T (ev :: h) T2.

(** ** What the commands asked report *)
(** The words of a line: separated by blanks. *)
Inductive columns : list Z -> list (list Z) -> Prop :=
| co_nil : forall s, Forall blank s -> columns s []
| co_cons : forall a w b ws, Forall blank a -> w <> [] -> Forall (fun c => ~ blank c) w ->
    (b = [] \/ exists c b', b = c :: b' /\ blank c) -> columns b ws -> columns (a ++ w ++ b) (w :: ws).
(** A line of netstat's output that says which way the default route goes.  On macOS ([no_link]) a way that begins with "link#" does not count. *)
Definition default_line (no_link : bool) (l g : list Z) : Prop :=
  exists ws, columns l (str "default" :: ws) /\ g = hd [] ws /\ (no_link = true -> forall x, g <> str "link#" ++ x).
(** The gateway: that of the first such line, or none. *)
Definition reports_gateway (no_link : bool) (text g : list Z) : Prop :=
  exists lines, complete_lines text lines /\
    ((g = [] /\ forall l g', In l lines -> ~ default_line no_link l g') \/
     (exists a l b, lines = a ++ l :: b /\ default_line no_link l g /\ forall l' g', In l' a -> ~ default_line no_link l' g')).

Definition ask_routes (f : fam) : command := argv [str "netstat"; str "-nr"; str "-f"; match f with F4 => str "inet" | F6 => str "inet6" end].
Definition ask_endpoints (ifc : list Z) : command := argv [str "wg"; str "show"; ifc; str "endpoints"].

(** ** Which endpoints get which route *)
(** Addresses as wg prints them, without a scope: small letters, digits, colons and dots. *)
Definition host_word (e : list Z) : Prop := e <> [] /\ Forall (fun c => 97 <= c <= 122 \/ 48 <= c <= 57 \/ c = 58 \/ c = 46) e.
(** A line of "wg show INTERFACE endpoints": the key and HOST:PORT or [HOST]:PORT. *)
Definition endpoint_line (l e : list Z) : Prop := exists k opening closing port,
  columns l [k; opening ++ e ++ closing ++ 58 :: port] /\ (opening = [] \/ opening = [91]) /\ (closing = [] \/ closing = [93]) /\
  host_word e /\ port <> [] /\ Forall (fun c => 48 <= c <= 57) port.
Definition reports_endpoints (text : list Z) (E : list (list Z)) : Prop :=
  exists lines, complete_lines text lines /\ picks (fun _ => endpoint_line) [] lines E.
(** Automatic routing is on for the family of [e]. *)
Definition wanted (auto4 auto6 : bool) (f : fam) (e : list Z) : Prop :=
  fits f e /\ match f with F4 => auto4 = true | F6 => auto6 = true end.
(** The route: by the gateway, or into a black hole when there is none. *)
Definition aim (gateway : list Z) (t : target) : Prop := (gateway = [] /\ t = Blackhole) \/ (gateway <> [] /\ t = Via gateway).
(** [T] is [B] with exactly the routes to the endpoints [eps] added. *)
Definition routed_to (B : table) (auto4 auto6 : bool) (gw4 gw6 : list Z) (eps : list (list Z)) (T : table) : Prop := forall f e,
  (In e eps /\ wanted auto4 auto6 f e -> exists t, aim (match f with F4 => gw4 | F6 => gw6 end) t /\ T f e = Some t) /\
  (~ (In e eps /\ wanted auto4 auto6 f e) -> T f e = B f e).
(** [B] has no host routes of its own to the endpoints reported in [h]. *)
Definition not_occupied (B : table) (ifc : list Z) (h : history) : Prop :=
  forall a E e f, In (ask_endpoints ifc, a) h -> reports_endpoints (a_output a) E -> In e E -> fits f e -> B f e = None.

(** ** Removal *)
(** A line of netstat's output that says that the route to [e] goes by interface [ifc]: the sixth column for IPv4, the fourth for IPv6, or the second if
    the fourth is a loopback interface. *)
Definition goes_by (f : fam) (ifc l e : list Z) : Prop :=
  match f with
  | F4 => exists c2 c3 c4 c5 more, columns l (e :: c2 :: c3 :: c4 :: c5 :: ifc :: more)
  | F6 => (exists c2 c3, columns l [e; c2; c3; ifc]) \/ (exists c3 c4 more, columns l (e :: ifc :: c3 :: c4 :: more) /\ exists x, c4 = str "lo" ++ x)
  end.
Definition names_route (f : fam) (ifc text e : list Z) : Prop := exists lines l, complete_lines text lines /\ In l lines /\ goes_by f ifc l e.
Definition device_word (ifc : list Z) : Prop := ifc <> [] /\ Forall (fun c => ~ blank c /\ c <> 10) ifc.

(** The answers on which the state at the end of [h] rests: the last to have been given. *)
Definition last_asked (ifc : list Z) (h : history) (a4 a6 ae : answer) : Prop := exists before after,
  h = before ++ [(ask_routes F4, a4); (ask_routes F6, a6); (ask_endpoints ifc, ae)] ++ after /\ forall a, ~ In (ask_endpoints ifc, a) after.
