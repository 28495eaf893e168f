(** Specification of opening a generic netlink socket: who holds what, and the answers of the kernel's family lookup (genetlink, CTRL_CMD_GETFAMILY). *)
From Coq Require Import ZArith List Bool.
From Verif Require Import Base Types NlSpec NlGetSpec NlOpen.
Import ListNotations.
Open Scope Z_scope.

(** What is held after a sequence of actions that started with [have]; [None] when something is released or used that is not held. *)
Definition same (a b : res) : bool :=
  match a, b with
  | RHandle, RHandle | RBuf, RBuf | RSock, RSock => true
  | RFd x, RFd y => x =? y
  | _, _ => false
  end.
Fixpoint drop (r : res) (l : list res) : option (list res) :=
  match l with
  | [] => None
  | x :: l' => if same r x then Some l' else match drop r l' with Some l'' => Some (x :: l'') | None => None end
  end.
Fixpoint held (l : list ev) (have : list res) : option (list res) :=
  match l with
  | [] => Some have
  | EGot r :: l' => held l' (r :: have)
  | EDrop r :: l' => match drop r have with Some h => held l' h | None => None end
  | EUse fd :: l' => if existsb (same (RFd fd)) have then held l' have else None
  | ESent fd _ :: l' => if existsb (same (RFd fd)) have then held l' have else None
  end.
(** The messages handed to the kernel. *)
Definition sends (l : list ev) : list (list Z) := flat_map (fun e => match e with ESent _ m => [m] | _ => [] end) l.

(** The request: header (to the controller, 16; REQUEST | ACK), command 3 "get family" in version 1, and one attribute: the family's name with its NUL. *)
Definition lookup_request (seq : Z) (name m : list Z) : Prop :=
  Forall is_byte m /\ le_val (firstn 4 m) = len m /\ msg_type m = 16 /\ msg_flags m = 5 /\ msg_seq m = seq /\ msg_port m = 0
  /\ firstn 4 (skipn 16 m) = [3; 1; 0; 0] /\ attrs (skipn 20 m) = [(2, name ++ [0])].

(** The kernel's answer that a family has number [id]: attribute 1 (two bytes); no attribute comes twice; those before it have numbers up to [cmax], the
    largest this program knows. *)
Definition family_answer (cmax seq portid id : Z) (m : list Z) : Prop :=
  answer seq portid m /\ 16 <= msg_type m /\ 20 <= len m
  /\ exists before p after, attrs (skipn 20 m) = before ++ (1, p) :: after /\ once (attrs (skipn 20 m))
       /\ Forall (fun a => fst a <= cmax) before /\ len p = 2 /\ le_val p = id.
(** An acknowledgement (error code 0) or a refusal (a negative errno). *)
Definition signed32 (z : Z) : Z := if z <? 2 ^ 31 then z else z - 2 ^ 32.
Definition verdict_message (seq portid e : Z) (m : list Z) : Prop :=
  answer seq portid m /\ msg_type m = 2 /\ 36 <= len m /\ signed32 (le_val (firstn 4 (skipn 16 m))) = e.

(** System calls that fail set a positive errno. *)
Definition errno_pos (o : os) : Prop :=
  match os_socket o with inr e => 0 < e | inl _ => True end
  /\ match os_bind o with Some e => 0 < e | None => True end
  /\ match os_name o with inr e => 0 < e | inl _ => True end
  /\ (forall m, match os_peer o m with inl e => 0 < e | inr rs => Forall (fun r => match r with Nl.RecvErr e => 0 < e | _ => True end) rs end)
  /\ match os_close o with Some e => 0 < e | None => True end.
(** Up to sending the request nothing fails, and the socket is given [portid]. *)
Definition opens (o : os) (fd portid : Z) (buf : list Z) : Prop :=
  os_handle o = true /\ os_buf o = Some buf /\ os_sock o = true /\ os_socket o = inl fd /\ os_bind o = None /\ os_name o = inl (12, 16, portid).
