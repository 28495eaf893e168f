(** Model of src/showconf.c. *)
From Coq Require Import String ZArith List Bool.
From Verif Require Import Base Encoding Cstr Inet Types Config Uapi Setconf.
Import ListNotations.
Open Scope Z_scope.

Section Showconf.
(** Names of IPv6 scopes, see Uapi.nameinfo (the same getnameinfo call). *)
Variable scope_name : list Z -> Z -> list Z.

(** src/showconf.c:59-73: the allowed IPs of a peer; [more]: another one follows. *)
Fixpoint conf_aips (l : list allowedip) : list Z :=
  match l with
  | [] => []
  | a :: l' =>
      (if a_family a =? AF_INET then
         inet_ntop4 (a_ip a) ++ 47 :: print_dec (a_cidr a) ++ (match l' with [] => [] | _ => str ", " end)
       else if a_family a =? AF_INET6 then
         inet_ntop6 (a_ip a) ++ 47 :: print_dec (a_cidr a) ++ (match l' with [] => [] | _ => str ", " end)
       else []) ++ conf_aips l'
  end.

(** src/showconf.c:77-92: the endpoint line. *)
Definition conf_endpoint (ep : endpoint) : list Z :=
  match nameinfo scope_name ep with
  | None => []
  | Some (host, service) =>
      if match ep with Ep6 _ _ _ _ => true | _ => false end && has_char 58 host
      then str "Endpoint = [" ++ host ++ str "]:" ++ service ++ [10]
      else str "Endpoint = " ++ host ++ 58 :: service ++ [10]
  end.

(** src/showconf.c:51-95: one peer. *)
Definition conf_peer (p : peer) : list Z :=
  str "[Peer]" ++ [10] ++ str "PublicKey = " ++ key_to_base64 (p_pub p) ++ [10] ++
  (if p_has_psk p then str "PresharedKey = " ++ key_to_base64 (p_psk p) ++ [10] else []) ++
  (match p_aips p with [] => [] | _ => str "AllowedIPs = " end) ++ conf_aips (p_aips p) ++ (match p_aips p with [] => [] | _ => [10] end) ++
  conf_endpoint (p_endpoint p) ++
  (if p_ka p =? 0 then [] else str "PersistentKeepalive = " ++ print_dec (p_ka p) ++ [10]).

(** src/showconf.c:50-98: peers, an empty line between them. *)
Fixpoint conf_peers (l : list peer) : list Z :=
  match l with
  | [] => []
  | p :: l' => conf_peer p ++ (match l' with [] => [] | _ => [10] end) ++ conf_peers l'
  end.

(** src/showconf.c:40-98: the output. *)
Definition conf_text (d : device) : list Z :=
  str "[Interface]" ++ [10] ++
  (if d_port d =? 0 then [] else str "ListenPort = " ++ print_dec (d_port d) ++ [10]) ++
  (if d_fwmark d =? 0 then [] else str "FwMark = 0x" ++ print_hex (d_fwmark d) ++ [10]) ++
  (if d_has_priv d then str "PrivateKey = " ++ key_to_base64 (d_priv d) ++ [10] else []) ++
  [10] ++ conf_peers (d_peers d).

(** src/showconf.c:21-103 [showconf_main]: exit status, output, world. (A NULL device with result 0 would be dereferenced; no backend
    does that.) *)
Definition showconf_main {W} (B : backend W) (argv : list (list Z)) (w : W) : Z * list Z * W :=
  match argv with
  | [_; iface] =>
      let '(ret, r, w1) := b_get B iface w in
      if negb (ret =? 0) then (1, [], w1)
      else match r with
           | None => (1, [], w1)
           | Some d => (0, conf_text d, w1)
           end
  | _ => (1, [], w)
  end.
End Showconf.
