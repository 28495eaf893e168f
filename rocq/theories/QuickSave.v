(** Model of src/wg-quick/linux.bash, part 3: saving the configuration and taking the interface down (lines 254-288 and 345-362). *)
From Coq Require Import String ZArith List Bool.
From Verif Require Import Base Cstr Bash Quick QuickRun.
Import ListNotations.
Open Scope Z_scope.

(** ** Text *)

(** The interface name as the beginning of an extended regular expression (src/wg-quick/linux.bash:256 does not quote it): a dot stands for
    any character, a plus for one or more of what precedes it.  Leading plus: not a regular expression. *)
Definition atom : Type := option Z * bool.           (* [None]: any character; repeated? *)
Fixpoint skip_plus (s : list Z) : list Z := match s with c :: s' => if c =? 43 then skip_plus s' else s | [] => [] end.
Fixpoint name_atoms (fuel : nat) (s : list Z) : list atom :=
  match fuel, s with
  | S n, c :: s' => (if c =? 46 then None else Some c, starts_with [43] s') :: name_atoms n (skip_plus s')
  | _, _ => []
  end.
Definition atom_is (a : option Z) (c : Z) : bool := match a with None => true | Some x => c =? x end.
(** What can follow a match at the beginning, the longest match first. *)
Fixpoint rests_plus (a : option Z) (s : list Z) : list (list Z) :=
  match s with
  | c :: s' => if atom_is a c then rests_plus a s' ++ [s'] else []
  | [] => []
  end.
Definition rests_one (a : atom) (s : list Z) : list (list Z) :=
  if snd a then rests_plus (fst a) s
  else match s with c :: s' => if atom_is (fst a) c then [s'] else [] | [] => [] end.
Fixpoint rests (l : list atom) (s : list Z) : list (list Z) :=
  match l with
  | [] => [s]
  | a :: l' => flat_map (rests l') (rests_one a s)
  end.
(** The rest of the expression: \ +\ [A-Z]+\ +(.+)$.  The result is the group, perhaps with more spaces before it (it is split into words). *)
Definition upper (c : Z) : bool := (65 <=? c) && (c <=? 90).
Definition after_state (s : list Z) : option (list Z) :=
  match s with
  | 32 :: 32 :: _ =>
      let t := drop_while (Z.eqb 32) s in
      match take_while upper t, drop_while upper t with
      | _ :: _, 32 :: ((_ :: _) as r) => Some r
      | _, _ => None
      end
  | _ => None
  end.
Fixpoint first_some {A B} (f : A -> option B) (l : list A) : option B :=
  match l with [] => None | x :: l' => match f x with Some y => Some y | None => first_some f l' end end.
(** The match fails: BASH_REMATCH is empty. *)
Definition listed (ifc out : list Z) : list Z :=
  match ifc with
  | 43 :: _ => []
  | _ => match first_some after_state (rests (name_atoms (length ifc) ifc) out) with Some r => r | None => [] end
  end.

(** src/wg-quick/linux.bash:262: ^nameserver\ ([a-zA-Z0-9_=+:%.-]+)$ *)
Definition ns_char (c : Z) : bool := name_char c || (c =? 58) || (c =? 37).
Definition nameserver (line : list Z) : option (list Z) :=
  match strip_prefix (!"nameserver ") line with
  | Some (x :: v) => if forallb ns_char (x :: v) then Some (x :: v) else None
  | _ => None
  end.

(** [${s/p/$r}] in bash 5.2 and later: in the replacement an ampersand stands for what was matched, and a backslash before an ampersand or a
    backslash quotes it. *)
Fixpoint patsub (matched r : list Z) : list Z :=
  match r with
  | 92 :: ((c :: r') as t) => if (c =? 38) || (c =? 92) then c :: patsub matched r' else 92 :: patsub matched t
  | 38 :: r' => matched ++ patsub matched r'
  | c :: r' => c :: patsub matched r'
  | [] => []
  end.

Definition field_lines (key : string) (vs : list (list Z)) : list Z := concat (map (fun v => str key ++ !" = " ++ v ++ [10]) vs).

Section Save.
Variable sys : system.
Variable glob : list Z -> list (list Z).
Variable fuel : nat.
Variable ifc : list Z.
Variable o : options.
Variable config_file : list Z.                       (* CONFIG_FILE *)
Variable amp : bool.                                 (* bash is 5.2 or later *)

Definition tmp_file : list Z := config_file ++ !".tmp".

(** src/wg-quick/linux.bash:263: what the loop reads. *)
Definition resolver_text : prog (list Z) :=
  p <- resolvconf_iface_prefix sys ;;
  r <- run sys (argv [!"resolvconf"; !"-l"; p ++ ifc]) ;;
  if a_status r =? 0 then ret (a_output r)
  else
    p2 <- resolvconf_iface_prefix sys ;;
    c <- output sys [!"cat"; !"/etc/resolvconf/run/interface/" ++ p2 ++ ifc] ;;
    ret (a_output r ++ c).

(** src/wg-quick/linux.bash:257-278: the text of new_config, from what was found out. *)
Definition new_config (addresses : list (list Z)) (dns : list (list Z)) (mtu : option (list Z)) : list Z :=
  !"[Interface]" ++ [10] ++
  field_lines "Address" addresses ++
  field_lines "DNS" dns ++
  (match mtu with Some m => field_lines "MTU" [m] | None => [] end) ++
  (match o_table o with [] => [] | t => field_lines "Table" [t] end) ++
  (if o_save o then !"SaveConfig = true" ++ [10] else []) ++
  field_lines "PreUp" (o_preup o) ++
  field_lines "PostUp" (o_postup o) ++
  field_lines "PreDown" (o_predown o) ++
  field_lines "PostDown" (o_postdown o).

(** src/wg-quick/linux.bash:255-264. *)
Definition gather : prog (list Z) :=
  out <- query sys [!"ip"; !"-all"; !"-brief"; !"address"; !"show"; !"dev"; ifc] ;;
  ns <- resolver_text ;;
  mtu <- (match o_mtu o with
          | [] => ret None
          | _ => link <- query sys [!"ip"; !"link"; !"show"; !"dev"; ifc] ;; ret (find_field (!"mtu ") digit link)
          end) ;;
  ret (new_config (expand glob (listed ifc out))
                  (flat_map (fun l => match nameserver l with Some v => [v] | None => [] end) (read_complete ns)) mtu).

(** src/wg-quick/linux.bash:283: the text echo writes; [current]: the captured output of wg showconf. *)
Definition head_line : list Z := !"[Interface]" ++ [10].
Definition saved_text (new current : list Z) : list Z :=
  replace_first head_line (if amp then patsub head_line new else new) current ++ [10].

(** src/wg-quick/linux.bash:255-281: before the trap is set; the old umask and the text. *)
Definition prepare : prog (list Z * list Z) :=
  new <- gather ;;
  old <- query sys [!"umask"] ;;
  step sys true [!"umask"; !"077"] ;;;
  c <- run sys (argv [!"wg"; !"showconf"; ifc]) ;;
  if negb (a_status c =? 0) then exit_with (a_status c)
  else ret (old, saved_text new (captured (a_output c))).

(** src/wg-quick/linux.bash:283-285. *)
Definition replace_file (text : list Z) : prog Z :=
  w <- run sys (mk_cmd [!">"; tmp_file] text) ;;
  if negb (a_status w =? 0) then exit_with 1
  else
    step sys true [!"sync"; tmp_file] ;;;
    m <- run sys (argv [!"mv"; tmp_file; config_file]) ;;
    if negb (a_status m =? 0) then exit_with 1 else ret 0.

(** A part without traps, then the rest of the script. *)
Definition followed {A} (m : prog A) (k : A -> shell -> outcome) : shell -> outcome := fun s =>
  match m s with
  | Done a s1 => k a s1
  | Exited st s1 | Signalled st s1 => (Some st, sh_hist s1)
  | Loops s1 => (None, sh_hist s1)
  end.
(** src/wg-quick/linux.bash:254-288 save_config, followed by [rest]. *)
Definition save_config (rest : prog Z) : shell -> outcome :=
  followed prepare (fun r => guarded (step sys true [!"rm"; !"-f"; tmp_file]) (replace_file (snd r))
                                     (fun _ => step sys true [!"umask"; fst r] ;;; rest)).

(** src/wg-quick/linux.bash:346 and 356. *)
Definition is_wireguard : prog bool :=
  out <- query sys [!"wg"; !"show"; !"interfaces"] ;;
  ret (contains (32 :: ifc ++ [32]) (32 :: out ++ [32])).
Definition check_interface : prog Z :=
  ok <- is_wireguard ;;
  if ok then ret 0 else exit_with 1.

(** src/wg-quick/linux.bash:349-352: the second half of cmd_down. *)
Definition down_rest : prog Z :=
  del_if sys fuel ifc o true ;;;
  unset_dns sys ifc o false ;;;
  remove_firewall sys ifc false ;;;
  execute_hooks sys ifc true (o_postdown o).
(** The end of the script without traps: [exit 0] (line 389). *)
Definition finish (m : prog Z) : shell -> outcome := followed m (fun _ s => (Some 0, sh_hist s)).

(** src/wg-quick/linux.bash:345-353 cmd_down. *)
Definition cmd_down : outcome :=
  followed (check_interface ;;; execute_hooks sys ifc true (o_predown o))
    (fun _ => if o_save o then save_config down_rest else finish down_rest) (mk_shell [] false false).
(** src/wg-quick/linux.bash:355-358 cmd_save. *)
Definition cmd_save : outcome := followed check_interface (fun _ => save_config (ret 0)) (mk_shell [] false false).
(** src/wg-quick/linux.bash:360-362 cmd_strip. *)
Definition cmd_strip : list Z := handed o.
End Save.
