(** Where a text of 8-bit or UCS-2 units is cut (C82, C89), by a program that takes
    the unit 27 for the escape of the GSM alphabet.  Nothing here refers to the
    model. *)
From Coq Require Import ZArith List.
Import ListNotations.
Open Scope Z_scope.

(** Parts of at most [w] units: full ones, unless the last unit of a full one would
    be 27, which then starts the next part. *)
Inductive Cuts (w : nat) : list Z -> list (list Z) -> Prop :=
| cuts_last t : t <> [] -> (length t <= w)%nat -> (length t = w -> last t 0 <> 27) ->
    Cuts w t [t]
| cuts_full p r ps : length p = w -> last p 0 <> 27 -> Cuts w r ps -> Cuts w (p ++ r) (p :: ps)
| cuts_short p r ps : S (length p) = w -> Cuts w (27 :: r) ps -> Cuts w (p ++ 27 :: r) (p :: ps).

(** The number of parts that were cut short. *)
Definition cut_short (w : nat) (parts : list (list Z)) : nat :=
  length (filter (fun p => Nat.eqb (S (length p)) w) (removelast parts)).

(** The unit number [i] of the text is the last one of a part. *)
Definition ends (parts : list (list Z)) (i : nat) : Prop :=
  exists a b, parts = a ++ b /\ S i = length (concat a).
