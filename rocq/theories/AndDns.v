(** Model of src/wg-quick/android.c, part 3: what the addresses and DNS entries of the configuration become (set_dnses, set_addr, add_addr).

    malloc and the like succeed.  Not modelled: the Binder calls themselves (what they are given is), and that a failing command ends the program (AndQuick.v). *)
From Coq Require Import String ZArith List Bool.
From Verif Require Import Base Cstr Uapi AndUsers.
Import ListNotations.
Open Scope Z_scope.

(** strtok(s, ", \t\n") until NULL *)
Definition delim (c : Z) : bool := (c =? 44) || (c =? 32) || (c =? 9) || (c =? 10).
Fixpoint strtok (cur s : list Z) : list (list Z) :=
  let flush := match cur with [] => [] | _ => [cur] end in
  match s with
  | [] => flush
  | c :: s' => if delim c then flush ++ strtok [] s' else strtok (cur ++ [c]) s'
  end.
(** src/wg-quick/android.c:861, 884, 950: strchr(x, '\'') || strchr(x, '\\') *)
Definition skipped (t : list Z) : bool := has_char 39 t || has_char 92 t.
(** src/wg-quick/android.c:858, 863, 886: (^[0-9.]+$)|(^.*:.*$) *)
Definition is_ip (t : list Z) : bool :=
  (forallb (fun c => ((48 <=? c) && (c <=? 57)) || (c =? 46)) t && negb (beq t [])) || has_char 58 t.

(** snprintf(arg, size, ...): the text without its NUL *)
Definition snprintf (size : nat) (text : list Z) : list Z := firstn (size - 1) text.
(** strncat(buf, arg, len * 4 - 1), where the buffer has len * 4 + 1 bytes *)
Definition strncat (len : nat) (buf arg : list Z) : option (list Z) :=
  let r := buf ++ firstn (4 * len - 1) arg in if (4 * len <? length r)%nat then None else Some r.

(** src/wg-quick/android.c:841-847: dns_list, dns_search_list, dns_shell_arglist, dns_search_shell_arglist, dns_function_arglist, dns_search_function_arglist *)
Record dns_texts := mk_texts { x_servers : list (list Z); x_domains : list (list Z); x_shell : list Z; x_search_shell : list Z; x_function : list Z; x_search_function : list Z }.
(** src/wg-quick/android.c:887, 889: the formats *)
Definition quoted (t : list Z) : list Z := 39 :: t ++ [39; 32].
Definition commaed (before t : list Z) : list Z := match before with [] => t | _ => 44 :: 32 :: t end.
(** src/wg-quick/android.c:883-892, for the lists' sizes [ns] and [nd] (lines 868-869: one more element than entries) *)
Fixpoint fill (len ns nd : nat) (x : dns_texts) (ts : list (list Z)) : memory_result dns_texts :=
  match ts with
  | [] => Is x
  | t :: ts' =>
      if skipped t then fill len ns nd x ts' else
      if is_ip t then
        match strncat len (x_shell x) (snprintf (len + 3) (quoted t)), strncat len (x_function x) (snprintf (len + 2) (commaed (x_function x) t)) with
        | Some sh, Some fn =>
            if (length (x_servers x) <? ns)%nat then fill len ns nd (mk_texts (x_servers x ++ [t]) (x_domains x) sh (x_search_shell x) fn (x_search_function x)) ts' else Writes_past
        | _, _ => Writes_past
        end
      else
        match strncat len (x_search_shell x) (snprintf (len + 3) (quoted t)), strncat len (x_search_function x) (snprintf (len + 2) (commaed (x_search_function x) t)) with
        | Some sh, Some fn =>
            if (length (x_domains x) <? nd)%nat then fill len ns nd (mk_texts (x_servers x) (x_domains x ++ [t]) (x_shell x) sh (x_function x) fn) ts' else Writes_past
        | _, _ => Writes_past
        end
  end.
(** src/wg-quick/android.c:837-892, up to the choice between Binder and ndc; None: nothing is set. *)
Definition dns_parts (dnses : list Z) : memory_result (option dns_texts) :=
  let len := length dnses in
  if 65536 <? Z.of_nat len then Is None else
  match dnses with
  | [] => Is None
  | _ =>
      let ts := filter (fun t => negb (skipped t)) (strtok [] dnses) in
      match filter is_ip ts with
      | [] => Is None
      | ips => match fill len (length ips) (length (filter (fun t => negb (is_ip t)) ts)) (mk_texts [] [] [] [] [] []) (strtok [] dnses) with
               | Is x => Is (Some x)
               | Reads_past => Reads_past | Writes_past => Writes_past | Fails => Fails
               end
      end
  end.
(** src/wg-quick/android.c:931: the command where there is no Binder (with the "ndc " of line 222) *)
Definition dns_command (netid : Z) (x : dns_texts) : list Z :=
  str "ndc resolver setnetdns " ++ print_dec netid ++ str " '" ++ x_search_shell x ++ str "' " ++ x_shell x.

(** src/wg-quick/android.c:927-943 add_addr: the commands *)
Definition atoi_uchar (s : list Z) : Z := u8 (fst (strtoll s)).
Definition add_addr (iface addr : list Z) : list (list Z) :=
  if has_char 58 addr then
    [str "ndc interface ipv6 " ++ iface ++ str " enable"; str "ip -6 addr add '" ++ addr ++ str "' dev " ++ iface]
  else
    let '(ip, mask) := match split_first 47 addr with Some (a, m) => (a, atoi_uchar m) | None => (addr, 32) end in
    [str "ndc interface setcfg " ++ iface ++ str " '" ++ ip ++ str "' " ++ print_dec mask].
(** src/wg-quick/android.c:945-954 *)
Definition set_addr (iface addrs : list Z) : list (list Z) :=
  flat_map (fun a => if skipped a then [] else add_addr iface a) (strtok [] addrs).
