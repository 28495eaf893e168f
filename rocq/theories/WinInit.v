(** Model of src/wincompat/loader.c and src/wincompat/init.c: what happens on Windows before main. *)
From Coq Require Import String ZArith List Bool.
From Verif Require Import Base.
Import ListNotations.
Open Scope Z_scope.

(** What LoadLibraryEx finds: the library of a name in a directory; [directories]: where a plain LoadLibrary looks, in order (the application's, the current one, ...). *)
Record installed (library : Type) := mk_installed { in_directory : list Z -> list Z -> option library; directories : list (list Z) }.
Arguments in_directory {library}. Arguments directories {library}.
Definition system32 : list Z := str "C:\Windows\System32".
(** LoadLibraryExA(name, NULL, LOAD_LIBRARY_SEARCH_SYSTEM32) *)
Definition load_system32 {library} (i : installed library) (name : list Z) : option library := in_directory i system32 name.
(** LoadLibrary(name) *)
Definition load_anywhere {library} (i : installed library) (name : list Z) : option library :=
  fold_right (fun d rest => match in_directory i d name with Some l => Some l | None => rest end) None (directories i).

Inductive hooked (library : Type) := Aborts | Null | Gives (l : library).
Arguments Aborts {library}. Arguments Null {library}. Arguments Gives {library}.
Definition dliStartProcessing : Z := 0.
Definition dliNotePreLoadLibrary : Z := 1.
Definition dliNotePreGetProcAddress : Z := 2.
(** src/wincompat/loader.c:9-18 delayed_load_library_hook *)
Definition hook {library} (i : installed library) (notify : Z) (name : list Z) : hooked library :=
  if negb (notify =? dliNotePreLoadLibrary) then Null
  else match load_system32 i name with None => Aborts | Some l => Gives l end.

(** What Windows replies at the start. *)
Record windows := mk_windows { w_dll_directory : bool; w_default_directories : bool; w_version : Z * Z; w_stdout : bool; w_mode : option Z; w_set_mode : Z -> bool }.
Inductive begun := Aborted | Begun (win7 : bool) (color_var : option (list Z)) (mode : option Z).
(** src/wincompat/init.c:17-44 init: is_win7, WG_COLOR_MODE and the mode the console has been set to, if any; [var]: WG_COLOR_MODE before. *)
Definition init (w : windows) (var : option (list Z)) : begun :=
  if negb (w_dll_directory w) || negb (w_default_directories w) then Aborted
  else
    let '(major, minor) := w_version w in
    let win7 := ((major =? 6) && (minor <=? 1)) || (major <? 6) in
    let no_color := match var with None => Some (str "never") | Some v => Some v end in
    if negb (w_stdout w) then Begun win7 no_color None
    else match w_mode w with
         | None => Begun win7 no_color None
         | Some m => let m' := Z.lor 4 m in if w_set_mode w m' then Begun win7 var (Some m') else Begun win7 no_color None
         end.
