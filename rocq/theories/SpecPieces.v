(** Specification: pieces of the data, one after the other. *)
From Coq Require Import List ZArith.
Import ListNotations.
Open Scope Z_scope.

(** [Pieces k ds l]: the [ds] are pieces of [l], in order, not overlapping, with at
    least [k] octets before each of them. *)
Inductive Pieces (k : nat) : list (list Z) -> list Z -> Prop :=
| pieces_nil : forall l, Pieces k [] l
| pieces_cons : forall before d ds l, (k <= length before)%nat -> Pieces k ds l ->
    Pieces k (d :: ds) (before ++ d ++ l).
