(** Independent specification of netlink attributes and of the WireGuard netlink requests, as the documentation
    in src/uapi/linux/linux/wireguard.h:7-129 and netlink(7) describe them.  Byte order: little endian host.
    Nothing here is taken from the code that builds the messages. *)
From Coq Require Import ZArith List Bool Lia.
From Verif Require Import Base Types.
Import ListNotations.
Open Scope Z_scope.

Definition len (l : list Z) : Z := Z.of_nat (length l).

(** Little-endian numbers. *)
Fixpoint le (n : nat) (v : Z) : list Z :=
  match n with O => [] | S n' => v mod 256 :: le n' (v / 256) end.
Fixpoint le_val (l : list Z) : Z :=
  match l with [] => 0 | b :: l' => b + 256 * le_val l' end.

(** Round up to a multiple of 4. *)
Definition up4 (n : Z) : Z := (n + 3) / 4 * 4.

(** An attribute stream: length (2 bytes, counting the 4 byte header), type (2 bytes, the top two bits are
    flags), payload, zero to three bytes of padding.  A stream ends at the first place where no well-formed
    attribute fits. *)
Fixpoint stream (fuel : nat) (b : list Z) : list (Z * list Z) :=
  match fuel with
  | O => []
  | S f =>
      match b with
      | l0 :: l1 :: t0 :: t1 :: rest =>
          let n := l0 + 256 * l1 in
          if (4 <=? n) && (n <=? len b)
          then ((t0 + 256 * t1) mod 2 ^ 14, firstn (Z.to_nat (n - 4)) rest)
               :: stream f (skipn (Z.to_nat (up4 n)) b)
          else []
      | _ => []
      end
  end.
Definition attrs (b : list Z) : list (Z * list Z) := stream (S (length b)) b.

(** The payload of the attribute of type [t]: the last one counts (nla_parse in the kernel). *)
Fixpoint find_attr (t : Z) (l : list (Z * list Z)) : option (list Z) :=
  match l with
  | [] => None
  | (t', p) :: l' =>
      match find_attr t l' with
      | Some q => Some q
      | None => if t' =? t then Some p else None
      end
  end.

(** A request to change an interface (wireguard.h:72-129). *)
Record rq_peer := mk_rq_peer {
  rp_pub : list Z;
  rp_remove : bool;
  rp_replace : bool;
  rp_psk : option (list Z);
  rp_endpoint : option endpoint;
  rp_ka : option Z;
  rp_aips : list allowedip
}.
Record request := mk_request {
  rq_name : list Z;
  rq_priv : option (list Z);
  rq_port : option Z;
  rq_fwmark : option Z;
  rq_replace : bool;
  rq_peers : list rq_peer
}.

(** Reading a request from the attributes. *)
Definition all_some {A B} (f : A -> option B) : list A -> option (list B) :=
  fix go l := match l with
              | [] => Some []
              | x :: l' => match f x, go l' with Some y, Some ys => Some (y :: ys) | _, _ => None end
              end.

Definition flag_word (o : option (list Z)) : option Z :=
  match o with
  | None => Some 0
  | Some p => if len p =? 4 then Some (le_val p) else None
  end.

(** An optional attribute whose payload must have [n] bytes. *)
Definition sized {A} (n : Z) (f : list Z -> A) (o : option (list Z)) : option (option A) :=
  match o with
  | None => Some None
  | Some p => if len p =? n then Some (Some (f p)) else None
  end.

(** One allowed IP: the address length has to fit the family, and the prefix length too. *)
Definition read_aip (b : list Z) : option allowedip :=
  let l := attrs b in
  match find_attr 1 l, find_attr 2 l, find_attr 3 l with
  | Some f, Some ip, Some c =>
      if (len f =? 2) && (len c =? 1) then
        let fam := le_val f in let cidr := le_val c in
        if ((fam =? AF_INET) && (len ip =? 4) && (cidr <=? 32)) || ((fam =? AF_INET6) && (len ip =? 16) && (cidr <=? 128))
        then Some (mk_aip fam ip cidr) else None
      else None
  | _, _, _ => None
  end.

(** struct sockaddr_in: family, port (big endian), address, 8 unused bytes; struct sockaddr_in6: family, port (big
    endian), flow information, address, scope. *)
Definition read_endpoint (b : list Z) : option endpoint :=
  match b with
  | f0 :: f1 :: p0 :: p1 :: rest =>
      let fam := f0 + 256 * f1 in
      let port := 256 * p0 + p1 in
      if (fam =? AF_INET) && (len b =? 16) then Some (Ep4 (firstn 4 rest) port)
      else if (fam =? AF_INET6) && (len b =? 28)
           then Some (Ep6 (firstn 16 (skipn 4 rest)) port (le_val (firstn 4 rest)) (le_val (skipn 20 rest)))
           else None
  | _ => None
  end.

Definition read_nested {A} (f : list Z -> option A) (o : option (list Z)) : option (list A) :=
  match o with
  | None => Some []
  | Some b => all_some (fun a => f (snd a)) (attrs b)
  end.

Definition read_peer (b : list Z) : option rq_peer :=
  let l := attrs b in
  match find_attr 1 l, flag_word (find_attr 3 l), sized 32 (fun k => k) (find_attr 2 l),
        sized 2 le_val (find_attr 5 l), read_nested read_aip (find_attr 9 l),
        match find_attr 4 l with None => Some None | Some e => match read_endpoint e with Some x => Some (Some x) | None => None end end with
  | Some pub, Some fl, Some psk, Some ka, Some aips, Some ep =>
      if len pub =? 32 then Some (mk_rq_peer pub (Z.testbit fl 0) (Z.testbit fl 1) psk ep ka aips) else None
  | _, _, _, _, _, _ => None
  end.

Definition until_nul : list Z -> list Z :=
  fix go l := match l with [] => [] | c :: l' => if c =? 0 then [] else c :: go l' end.

(** A whole message: 16 byte header (length, type, flags, sequence number, port), 4 byte generic netlink header
    (command 1 is "set device"), attributes. *)
Definition read_request (m : list Z) : option request :=
  if (20 <=? len m) && (le_val (firstn 4 m) =? len m) && (nth 16 m 0 =? 1) then
    let l := attrs (skipn 20 m) in
    match find_attr 2 l, flag_word (find_attr 5 l), sized 32 (fun k => k) (find_attr 3 l),
          sized 2 le_val (find_attr 6 l), sized 4 le_val (find_attr 7 l), read_nested read_peer (find_attr 8 l) with
    | Some name, Some fl, Some priv, Some port, Some mark, Some peers =>
        Some (mk_request (until_nul name) priv port mark (Z.testbit fl 0) peers)
    | _, _, _, _, _, _ => None
    end
  else None.

(** The request a device update stands for. *)
Definition opt {A} (b : bool) (x : A) : option A := if b then Some x else None.
Definition rq_peer_of (p : peer) : rq_peer :=
  mk_rq_peer (p_pub p) (p_remove p) (p_replace_aips p) (opt (p_has_psk p) (p_psk p))
    (match p_endpoint p with EpNone => None | e => Some e end) (opt (p_has_ka p) (p_ka p)) (p_aips p).
Definition request_of (d : device) : request :=
  mk_request (d_name d) (opt (d_has_priv d) (d_priv d)) (opt (d_has_port d) (d_port d))
    (opt (d_has_fwmark d) (d_fwmark d)) (d_replace_peers d) (map rq_peer_of (d_peers d)).

(** A netlink acknowledgement (type 2, NLMSG_ERROR): [e] is 0 or a negative errno; [x] is the part of the request that
    is quoted (at least its 16 byte header). *)
Definition ack (seq portid flags e : Z) (x : list Z) : list Z :=
  le 4 (20 + len x) ++ le 2 2 ++ le 2 flags ++ le 4 seq ++ le 4 portid ++ le 4 (e mod 2 ^ 32) ++ x.
(** The sequence number of a message. *)
Definition msg_seq (m : list Z) : Z := le_val (firstn 4 (skipn 8 m)).

(** The header of a "set device" request to the family [id]: REQUEST | ACK (5), numbered by the clock, from port 0 (the kernel fills it in), command 1 in
    version 1. *)
Definition set_header (id : Z) (now : nat -> Z) (m : list Z) : Prop :=
  le_val (firstn 2 (skipn 4 m)) = id /\ le_val (firstn 2 (skipn 6 m)) = 5 /\ (exists i, le_val (firstn 4 (skipn 8 m)) = now i)
  /\ le_val (firstn 4 (skipn 12 m)) = 0 /\ firstn 4 (skipn 16 m) = [1; 1; 0; 0].

(** How a sequence of requests fares at a receiver that may refuse a message (errno [e] > 0, before looking at it) or answer it with
    an error code: [delivers r ms k ret k' done]: starting in state [k], the sender stops with result [ret] and state
    [k'] having delivered [done]. *)
Inductive verdict := Refused (e : Z) | Answer (e : Z).
Inductive delivers {K : Type} (r : K -> list Z -> verdict * K) : list (list Z) -> K -> Z -> K -> list (list Z) -> Prop :=
| D_all : forall k, delivers r [] k 0 k []
| D_refused : forall m ms k e k', r k m = (Refused e, k') -> delivers r (m :: ms) k (- e) k []
| D_rejected : forall m ms k e k', r k m = (Answer e, k') -> e < 0 -> delivers r (m :: ms) k e k' [m]
| D_accepted : forall m ms k k1 ret k' done, r k m = (Answer 0, k1) -> delivers r ms k1 ret k' done -> delivers r (m :: ms) k ret k' (m :: done).
