(** What the theorems about colours are stated with. *)
From Coq Require Import ZArith List Bool.
From Verif Require Import Base.
Import ListNotations.
Open Scope Z_scope.

Definition letter (c : Z) : bool := ((65 <=? c) && (c <=? 90)) || ((97 <=? c) && (c <=? 122)).

(** A text made of pieces: plain text without escape characters, and escape sequences: ESC [ parameters letter. *)
Inductive piece := Plain (t : list Z) | Code (params : list Z) (final : Z).
Definition piece_ok (p : piece) : Prop :=
  match p with
  | Plain t => ~ In 27 t
  | Code ps f => Forall (fun c => letter c = false) ps /\ letter f = true
  end.
Definition piece_text (p : piece) : list Z := match p with Plain t => t | Code ps f => 27 :: 91 :: ps ++ [f] end.
Definition plain_text (p : piece) : list Z := match p with Plain t => t | Code _ _ => [] end.
Definition coloured (l : list piece) : list Z := flat_map piece_text l.
Definition uncoloured (l : list piece) : list Z := flat_map plain_text l.

(** The text without escape sequences, for any text: a sequence that is not ended is cut; the two characters ESC [ at the very end
    stay. *)
Fixpoint after_letter (s : list Z) : list Z :=
  match s with
  | [] => []
  | c :: s' => if letter c then s' else after_letter s'
  end.
Inductive stripped : list Z -> list Z -> Prop :=
| st_end : stripped [] []
| st_keep : forall c s t, (c <> 27 \/ hd 0 s <> 91 \/ length s = 1%nat) -> stripped s t -> stripped (c :: s) (c :: t)
| st_code : forall s t, s <> [] -> stripped (after_letter s) t -> stripped (27 :: 91 :: s) t.
