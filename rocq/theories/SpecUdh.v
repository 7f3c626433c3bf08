(** Specification of what is found in octets that are to be a user data header but
    need not be a well-formed one (C106). *)
From Verif Require Import Py SpecPack SpecDeliver.
Open Scope Z_scope.

(** The elements found in octets, each one an identifier, a length and that many
    octets of data; the data of the last may be shorter than its length says. *)
Inductive found : list Z -> list element -> Prop :=
| found_none : found [] []
| found_element i d rest els : found rest els ->
    found (i :: Z.of_nat (length d) :: d ++ rest) ((i, d) :: els)
| found_cut i n d : Z.of_nat (length d) < n -> found (i :: n :: d) [(i, d)].

(** Enough data for what the element says. *)
Definition right_size (e : element) : Prop :=
  let '(i, d) := e in
  (i = 0 -> length d = 3%nat) /\ (i = 8 -> (4 <= length d)%nat) /\
  (i = 4 -> length d = 2%nat) /\ (i = 5 -> (4 <= length d)%nat).

(** An element without what stands behind a 16-bit reference or 16-bit ports. *)
Definition essence (e : element) : element :=
  let '(i, d) := e in if (i =? 8) || (i =? 5) then (i, firstn 4 d) else (i, d).
