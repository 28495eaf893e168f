(** C74: on Windows only system libraries are loaded, and escape sequences are written only where they are understood. *)
From Coq Require Import String ZArith List Bool Lia.
From Verif Require Import Base Terminal TerminalSpec WinInit.
Import ListNotations.
Open Scope Z_scope.

(** What the run time system does when a function of a delay-loaded library is first called: at each step the hook is asked, and what it gives is taken instead of what the
    step would find; first for the function itself, then for the library, then for the function in it. [function]: what the library has. *)
Inductive called (library address : Type) := Called (a : address) | Called_library (l : library) | No_library | No_function | Ended.
Arguments Called {library address}. Arguments Called_library {library address}. Arguments No_library {library address}. Arguments No_function {library address}. Arguments Ended {library address}.
Definition find_in {library address} (h : Z -> list Z -> hooked library) (function : library -> list Z -> option address) (l : library) (name f : list Z) : called library address :=
  match h 2 name with
  | Aborts => Ended
  | Gives x => Called_library x
  | Null => match function l f with Some a => Called a | None => No_function end
  end.
Definition first_call {library address} (h : Z -> list Z -> hooked library) (i : installed library) (function : library -> list Z -> option address) (name f : list Z) : called library address :=
  match h 0 name with
  | Aborts => Ended
  | Gives x => Called_library x
  | Null =>
      match h 1 name with
      | Aborts => Ended
      | Gives l => find_in h function l name f
      | Null => match load_anywhere i name with Some l => find_in h function l name f | None => No_library end
      end
  end.
(** The function called is that of the system's own library, whatever lies in other directories; without it the program ends. *)
Theorem C74_libraries : forall library address (i : installed library) (function : library -> list Z -> option address) name f,
  match in_directory i system32 name with
  | Some l => first_call (hook i) i function name f = match function l f with Some a => Called a | None => No_function end
  | None => first_call (hook i) i function name f = Ended
  end.
Proof.
  intros. unfold first_call, find_in, hook, load_system32, dliNotePreLoadLibrary. cbn [Z.eqb Pos.eqb negb]. destruct (in_directory i system32 name); reflexivity.
Qed.
(** Without the hook, a library lying in the directory of the program would be taken. *)
Definition planted : installed bool := mk_installed bool (fun d n => if beq d system32 then Some true else if beq d (str "C:\Downloads") then Some false else None) [str "C:\Downloads"; system32].
Theorem C74_libraries_case :
  first_call (hook planted) planted (fun l _ => Some l) (str "setupapi.dll") (str "f") = Called true /\
  first_call (fun _ _ => Null) planted (fun l _ => Some l) (str "setupapi.dll") (str "f") = Called false.
Proof. vm_compute. auto. Qed.

(** The program does not go on if the search for libraries cannot be restricted. *)
Theorem C74_restricted : forall w var, init w var = Aborted <-> ~ (w_dll_directory w = true /\ w_default_directories w = true).
Proof.
  intros w var. unfold init. destruct (w_version w) as [major minor]. destruct (w_dll_directory w), (w_default_directories w); cbn [negb orb]; try (split; [intros _ []; congruence|reflexivity]).
  split; [|intro N; exfalso; apply N; auto]. destruct (negb (w_stdout w)); [discriminate|]. destruct (w_mode w); [|discriminate]. destruct (w_set_mode w _); discriminate.
Qed.
(** The console is there and can be switched to interpreting escape sequences. *)
Definition understands (w : windows) (m : Z) : Prop := w_stdout w = true /\ w_mode w = Some m /\ w_set_mode w (Z.lor 4 m) = true.
(** When the program goes on: what it takes the system for, what the console's mode becomes (the old one and the flag for escape sequences, if that is possible), and whether
    it writes escape sequences ([tty]: whether standard output is a terminal). *)
Theorem C74_start : forall w var win7 var' mode tty, init w var = Begun win7 var' mode ->
  (win7 = true <-> fst (w_version w) < 6 \/ (fst (w_version w) = 6 /\ snd (w_version w) <= 1)) /\
  (forall m, mode = Some (Z.lor 4 m) /\ understands w m -> forall k, Z.testbit (Z.lor 4 m) k = (k =? 2) || Z.testbit m k) /\
  ((exists m, understands w m /\ mode = Some (Z.lor 4 m) /\ var' = var) \/ ((forall m, ~ understands w m) /\ mode = None)) /\
  (color_mode var' tty = true <->
     var = Some (str "always") \/ (var <> Some (str "never") /\ tty = true /\ ((exists v, var = Some v) \/ exists m, understands w m))).
Proof.
  intros w var win7 var' mode tty E. unfold init in E. destruct (w_version w) as [major minor]. cbn [fst snd].
  destruct (negb (w_dll_directory w) || negb (w_default_directories w)); [discriminate|].
  assert (W : win7 = ((major =? 6) && (minor <=? 1)) || (major <? 6)).
  { destruct (negb (w_stdout w)); [congruence|]. destruct (w_mode w); [|congruence]. destruct (w_set_mode w _); congruence. }
  assert (U : (exists m, understands w m /\ mode = Some (Z.lor 4 m) /\ var' = var) \/
              ((forall m, ~ understands w m) /\ mode = None /\ var' = match var with None => Some (str "never") | Some v => Some v end)).
  { unfold understands. destruct (w_stdout w); cbn [negb] in E; [|right; repeat split; try congruence; intros m (K & _); discriminate].
    destruct (w_mode w) as [m|]; [|right; repeat split; try congruence; intros m (_ & K & _); discriminate].
    destruct (w_set_mode w (Z.lor 4 m)) eqn:S.
    - left. exists m. repeat split; congruence.
    - right. repeat split; try congruence. intros m2 (_ & K & K2). assert (m2 = m) as -> by congruence. congruence. }
  split; [|split; [|split]].
  - subst win7. rewrite orb_true_iff, andb_true_iff, Z.eqb_eq, Z.leb_le, Z.ltb_lt. tauto.
  - intros m _ k. rewrite Z.lor_spec. f_equal. change 4 with (2 ^ 2). destruct (Z.eqb_spec k 2) as [->|N]; [reflexivity|].
    destruct (Z.ltb_spec k 0); [apply Z.testbit_neg_r; lia|]. apply Z.pow2_bits_false. lia.
  - destruct U as [U|(U & M & _)]; [left; exact U|right; auto].
  - assert (C : forall v, color_mode v tty = true <-> v = Some (str "always") \/ (v <> Some (str "never") /\ tty = true)).
    { intros [v|]; cbn [color_mode].
      - destruct (beq v (str "always")) eqn:A.
        + apply beq_eq in A as ->. split; auto.
        + assert (NA : v <> str "always") by (intros ->; discriminate). destruct (beq v (str "never")) eqn:N.
          * apply beq_eq in N as ->. split; [discriminate|]. intros [H|[H _]]; congruence.
          * assert (NN : v <> str "never") by (intros ->; discriminate). split; [intros ->; right; split; congruence|]. intros [H|[_ H]]; [congruence|exact H].
      - split; [intros ->; right; split; [discriminate|reflexivity]|]. intros [H|[_ H]]; [discriminate|exact H]. }
    rewrite C. destruct U as [(m & U & _ & ->)|(U & _ & ->)].
    + split; [intros [H|[H T]]; [left; exact H|right; repeat split; [exact H|exact T|right; exists m; exact U]]|]. intros [H|(H & T & _)]; auto.
    + destruct var as [v|].
      * split; [intros [H|[H T]]; [left; exact H|right; repeat split; [exact H|exact T|left; exists v; reflexivity]]|]. intros [H|(H & T & _)]; auto.
      * split; [intros [H|[H T]]; [discriminate|congruence]|]. intros [H|(H & T & [[v K]|[m K]])]; [discriminate|discriminate|destruct (U m K)].
Qed.
Definition console (version : Z * Z) (mode : option Z) (can : bool) : windows := mk_windows true true version true mode (fun _ => can).
Theorem C74_start_case :
  init (console (10, 0) (Some 3) true) None = Begun false None (Some 7) /\
  init (console (6, 1) (Some 3) false) None = Begun true (Some (str "never")) None /\
  init (console (6, 1) (Some 3) false) (Some (str "always")) = Begun true (Some (str "always")) None /\
  color_mode (Some (str "never")) true = false.
Proof. vm_compute. auto. Qed.

Print Assumptions C74_libraries.
Print Assumptions C74_restricted.
Print Assumptions C74_start.
