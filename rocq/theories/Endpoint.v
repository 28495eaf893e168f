(** Model of src/config.c:177-280 at memory level: the splitting of an endpoint inside its buffer, and the
    look-up loop.  Allocation failure is not modelled. *)
From Coq Require Import String ZArith List Bool.
From Verif Require Import Base Cstr Types.
Import ListNotations.
Open Scope Z_scope.

(** A heap buffer; [None] from an access means that it is outside the buffer (undefined behaviour). *)
Definition rd (buf : list Z) (i : nat) : option Z := nth_error buf i.
Definition wr (buf : list Z) (i : nat) (v : Z) : option (list Z) :=
  if Nat.ltb i (length buf) then Some (firstn i buf ++ v :: skipn (S i) buf) else None.

(** strchr and strrchr from index [i]: [None] if they run off the buffer before a NUL. *)
Fixpoint strchr_from (c : Z) (rest : list Z) (i : nat) : option (option nat) :=
  match rest with
  | [] => None
  | x :: r => if x =? c then Some (Some i) else if x =? 0 then Some None else strchr_from c r (S i)
  end.
Fixpoint strrchr_from (c : Z) (rest : list Z) (i : nat) (found : option nat) : option (option nat) :=
  match rest with
  | [] => None
  | x :: r => if x =? 0 then Some found
              else strrchr_from c r (S i) (if x =? c then Some i else found)
  end.
(** The C string that starts at index [i]. *)
Fixpoint cstr_in (rest : list Z) : option (list Z) :=
  match rest with
  | [] => None
  | x :: r => if x =? 0 then Some [] else option_map (cons x) (cstr_in r)
  end.
Definition cstr_at (buf : list Z) (i : nat) : option (list Z) := cstr_in (skipn i buf).

Inductive split_result := SUb | SReject | SSplit (host port : list Z).

Definition finish_split (buf : list Z) (b e : nat) : split_result :=
  match cstr_at buf b, cstr_at buf e with Some h, Some p => SSplit h p | _, _ => SUb end.

(** src/config.c:206-238. [strdup] gives the bytes of the value and a NUL. *)
Definition split_mem (value : list Z) : split_result :=
  let buf := value ++ [0] in
  match rd buf 0 with
  | None => SUb
  | Some c0 =>
      if c0 =? 0 then SReject                                       (* !strlen(value) *)
      else if c0 =? 91 then
        match strchr_from 93 buf 0 with
        | None => SUb
        | Some None => SReject
        | Some (Some i) =>
            match wr buf i 0 with                                   (* *end++ = '\0' *)
            | None => SUb
            | Some buf1 =>
                match rd buf1 (i + 1) with                          (* *end++ != ':' *)
                | None => SUb
                | Some c1 =>
                    if negb (c1 =? 58) then SReject
                    else match rd buf1 (i + 2) with                 (* !*end *)
                         | None => SUb
                         | Some c2 => if c2 =? 0 then SReject else finish_split buf1 1 (i + 2)
                         end
                end
            end
        end
      else
        match strrchr_from 58 buf 0 None with
        | None => SUb
        | Some None => SReject
        | Some (Some i) =>
            match rd buf (i + 1) with                               (* !*(end + 1) *)
            | None => SUb
            | Some c1 =>
                if c1 =? 0 then SReject
                else match wr buf i 0 with                          (* *end++ = '\0' *)
                     | None => SUb
                     | Some buf1 => finish_split buf1 0 (i + 1)
                     end
            end
        end
  end.

(** src/config.c:177-193 [parse_dns_retries]: [None] is exit(1). *)
Definition INT_MAX : Z := 2147483647.
Definition parse_dns_retries (ulmax : Z) (env : option (list Z)) : option Z :=
  match env with
  | None => Some 15
  | Some s =>
      if beq s (str "infinity") then Some (-1)
      else let '(ret, rest) := strtoul ulmax 10 s in
           match rest with
           | [] => if INT_MAX <? ret then None else Some ret
           | _ => None
           end
  end.

(** Outcomes of getaddrinfo: success with the first address (family, address length and contents); a permanent
    failure (EAI_NONAME, EAI_FAIL, EAI_NODATA); any other failure. *)
Inductive lookup := LOk (family addrlen : Z) (ep : endpoint) | LPerm | LTemp.

Inductive loop_result := LrFail | LrOk (family addrlen : Z) (ep : endpoint).

(** src/config.c:240-266: the loop. [f i] is the outcome of the [i]-th look-up from now; the result carries the
    number of look-ups and the delays slept, in order. [None]: still running after [fuel] look-ups.
    [timeout] is an unsigned int. *)
Fixpoint lookup_loop (fuel : nat) (f : nat -> lookup) (retries timeout : Z) : option (loop_result * nat * list Z) :=
  match fuel with
  | O => None
  | S fuel' =>
      match f 0%nat with
      | LOk fam len ep => Some (LrOk fam len ep, 1%nat, [])
      | LPerm => Some (LrFail, 1%nat, [])
      | LTemp =>
          if (0 <=? retries) && (retries =? 0) then Some (LrFail, 1%nat, [])
          else
            let retries' := if 0 <=? retries then retries - 1 else retries in
            let timeout' := Z.min 20000000 (u32 (timeout * 6) / 5) in
            match lookup_loop fuel' (fun i => f (S i)) retries' timeout' with
            | None => None
            | Some (r, n, ds) => Some (r, S n, timeout :: ds)
            end
      end
  end.

Definition lookups (fuel : nat) (f : nat -> lookup) (retries : Z) : option (loop_result * nat * list Z) :=
  lookup_loop fuel f retries 1000000.

(** src/config.c:268-279: only proper IPv4 and IPv6 addresses are copied. *)
Definition take_addr (r : loop_result) : option endpoint :=
  match r with
  | LrFail => None
  | LrOk fam len ep => if ((fam =? AF_INET) && (len =? 16)) || ((fam =? AF_INET6) && (len =? 28)) then Some ep else None
  end.

(** src/config.c:195-280 [parse_endpoint]: with a resolver whose outcomes for (host, port) are [f host port]. *)
Inductive ep_result := EpUb | EpReject (lookups : nat) | EpRunning | EpSet (ep : endpoint) (lookups : nat).
Definition parse_endpoint_mem (fuel : nat) (f : list Z -> list Z -> nat -> lookup) (retries : Z) (value : list Z) : ep_result :=
  match split_mem value with
  | SUb => EpUb
  | SReject => EpReject 0
  | SSplit h p =>
      match lookups fuel (f h p) retries with
      | None => EpRunning
      | Some (r, n, _) => match take_addr r with Some ep => EpSet ep n | None => EpReject n end
      end
  end.
