(** Independent vocabulary for DNS settings on macOS: each network service has a list of servers and a list of search domains, which networksetup(8) shows
    and changes. *)
From Coq Require Import String ZArith List Bool Permutation.
From Verif Require Import Base Bash Quick QuickRun QuickSpec QuickRunSpec QuickRouteSpec QuickReloadSpec Sh DarDns.
Import ListNotations.
Open Scope Z_scope.

(** ** Commands *)
Definition list_services : command := argv [str "networksetup"; str "-listallnetworkservices"].
Definition get_servers (s : list Z) : command := argv [str "networksetup"; str "-getdnsservers"; s].
Definition get_domains (s : list Z) : command := argv [str "networksetup"; str "-getsearchdomains"; s].
Definition set_servers (s : list Z) (ws : list (list Z)) : command := argv (str "networksetup" :: str "-setdnsservers" :: s :: ws).
Definition set_domains (s : list Z) (ws : list (list Z)) : command := argv (str "networksetup" :: str "-setsearchdomains" :: s :: ws).

(** ** Settings *)
Record setting := mk_setting { servers : list (list Z); domains : list (list Z) }.
Definition settings : Type := list Z -> setting.
(** The word Empty stands for an empty list. *)
Definition meant (ws : list (list Z)) : list (list Z) := match ws with [w] => if beq w (str "Empty") then [] else ws | _ => ws end.
(** An address or a domain, as networksetup writes it. *)
Definition entry (w : list Z) : Prop := w <> [] /\ plain_word w /\ Forall (fun c => c <> 0 /\ c <> 9 /\ c <> 10 /\ c <> 32) w /\ w <> str "Empty".
(** networksetup writes the elements of a list one on a line, and a sentence if there are none. *)
Definition shown (ws : list (list Z)) (out : list Z) : Prop := (ws = [] /\ In 32 out) \/ (ws <> [] /\ Forall entry ws /\ out = unlines ws).
Definition same_but (s : list Z) (T T' : settings) : Prop := forall x, x <> s -> T' x = T x.
(** What a command has to do with the settings.  A command to change a list does so if it succeeds, may do anything to that list if it does not, and does nothing if it
    is given no values; what shows a list tells the truth if it succeeds; no other command changes the settings. *)
Inductive effect (T : settings) : event -> settings -> Prop :=
| ef_servers : forall s ws a T', ws <> [] -> same_but s T T' -> domains (T' s) = domains (T s) -> (a_status a = 0 -> servers (T' s) = meant ws) -> effect T (set_servers s ws, a) T'
| ef_domains : forall s ws a T', ws <> [] -> same_but s T T' -> servers (T' s) = servers (T s) -> (a_status a = 0 -> domains (T' s) = meant ws) -> effect T (set_domains s ws, a) T'
| ef_no_servers : forall s a T', (forall x, T' x = T x) -> effect T (set_servers s [], a) T'
| ef_no_domains : forall s a T', (forall x, T' x = T x) -> effect T (set_domains s [], a) T'
| ef_shows_servers : forall s a T', (forall x, T' x = T x) -> (a_status a = 0 -> shown (servers (T s)) (a_output a)) -> effect T (get_servers s, a) T'
| ef_shows_domains : forall s a T', (forall x, T' x = T x) -> (a_status a = 0 -> shown (domains (T s)) (a_output a)) -> effect T (get_domains s, a) T'
| ef_other : forall c a T', (forall x, T' x = T x) -> (forall s, c <> get_servers s) -> (forall s, c <> get_domains s) ->
    (forall s ws, c <> set_servers s ws) -> (forall s ws, c <> set_domains s ws) -> effect T (c, a) T'.
Inductive effects (T : settings) : history -> settings -> Prop :=
| es_nil : forall T', (forall x, T' x = T x) -> effects T [] T'
| es_cons : forall ev h T1 T2, effect T ev T1 -> effects T1 h T2 -> effects T (ev :: h) T2.

(** What the configuration asks for. *)
Definition configured (dns search : list (list Z)) : setting := mk_setting (meant dns) (meant search).

(** ** The list of services *)
(** After a first line there is one line for each service, with an asterisk if it is disabled. *)
Definition line_of (s l : list Z) : Prop := l = 42 :: s \/ (l = s /\ hd 0 s <> 42).
Definition lists (out s : list Z) : Prop := exists x ls l, complete_lines out (x :: ls) /\ In l ls /\ line_of s l.
Definition listed (s : list Z) (h : history) : Prop := exists a, In (list_services, a) h /\ lists (a_output a) s.
(** From the first time it is listed on, the service is listed every time. *)
Definition stays (s : list Z) (h : history) : Prop := forall h1 a h2 b h3, h = h1 ++ (list_services, a) :: h2 ++ (list_services, b) :: h3 ->
  lists (a_output a) s -> lists (a_output b) s.

(** ** The life of a tunnel *)
(** The script sets DNS again and again; in between it runs other commands. *)
Definition foreign (c : command) : Prop := forall ws, c <> argv (str "networksetup" :: ws).
Inductive lives (set_dns : act dvars unit) : sh dvars -> sh dvars -> Prop :=
| li_nil : forall s, lives set_dns s s
| li_other : forall s s1 h, lives set_dns s s1 -> Forall (fun ev => foreign (fst ev)) h -> lives set_dns s (mk_sh (s_hist s1 ++ h) (s_vars s1))
| li_set : forall s s1 u s2, lives set_dns s s1 -> set_dns s1 = Fin u s2 -> lives set_dns s s2.
(** It may be stopped while it is doing so, by a failure or by a signal. *)
Definition stops (set_dns : act dvars unit) (s s1 : sh dvars) : Prop := s1 = s \/ exists st, set_dns s = Quit st s1 \/ set_dns s = Hit st s1.
(** The array is gone through in some order. *)
Definition some_order (order : history -> list (list Z) -> list (list Z)) : Prop := forall h l, Permutation (order h l) l.
(** It tries to put the settings back; that too may fail or be stopped by a signal, and is tried again. *)
Definition ends_so {A} (m : act dvars A) (s s1 : sh dvars) : Prop := (exists a, m s = Fin a s1) \/ (exists st, m s = Quit st s1 \/ m s = Hit st s1).
Inductive attempts (del_dns : act dvars unit) : sh dvars -> sh dvars -> Prop :=
| at_nil : forall s, attempts del_dns s s
| at_other : forall s s1 h, attempts del_dns s s1 -> Forall (fun ev => foreign (fst ev)) h -> attempts del_dns s (mk_sh (s_hist s1 ++ h) (s_vars s1))
| at_try : forall s s1 s2, attempts del_dns s s1 -> ends_so del_dns s1 s2 -> attempts del_dns s s2.
Definition succeeds (h : history) : Prop := Forall (fun ev => a_status (snd ev) = 0) h.
