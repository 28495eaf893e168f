(** Independent vocabulary for the command line of wg-quick. *)
From Coq Require Import String ZArith List Bool.
From Verif Require Import Base ConfigSpec QuickSpec.
Import ListNotations.
Open Scope Z_scope.

(** Letters of an interface name, and names (wg-quick(8)). *)
Definition iface_letter (c : Z) : Prop := 97 <= c <= 122 \/ 65 <= c <= 90 \/ 48 <= c <= 57 \/ In c (str "_=+.-").
Definition iface_name (n : list Z) : Prop := (1 <= length n <= 15)%nat /\ Forall iface_letter n.
(** The file an argument stands for: an interface name stands for /etc/wireguard/NAME.conf, anything else for itself. *)
Definition stands_for (arg path : list Z) : Prop :=
  (iface_name arg /\ path = str "/etc/wireguard/" ++ arg ++ str ".conf") \/ (~ iface_name arg /\ path = arg).
(** The interface a file is for: its name, without ".conf". *)
Definition names (path ifc : list Z) : Prop := iface_name ifc /\ (path = ifc ++ str ".conf" \/ exists dir, path = dir ++ str "/" ++ ifc ++ str ".conf").
(** The directory of a file. *)
Definition directory (path dir : list Z) : Prop := exists base, path = dir ++ 47 :: base /\ ~ In 47 base.
(** A command line wg-quick takes. *)
Definition verbs : list (list Z) := [str "up"; str "down"; str "save"; str "strip"].
Definition taken (args : list (list Z)) (verb arg : list Z) : Prop := args = [verb; arg] /\ In verb verbs.
Definition help (args : list (list Z)) : Prop := args = [str "--help"] \/ args = [str "-h"] \/ args = [str "help"].
