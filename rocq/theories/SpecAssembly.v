(** How a receiver puts together the messages whose parts have arrived
    (GSM 03.40, 9.2.3.24.1): parts with the same reference number belong together,
    in the order of their positions.  Nothing here refers to the model. *)
From Coq Require Import ZArith List.
Import ListNotations.
Open Scope Z_scope.

(** A part that has arrived: its text, the reference number of the message, the
    number of its parts and the position of this one, counted from 1. *)
Record arrived := Arrived { a_text : list Z; a_ref : Z; a_count : Z; a_place : Z }.

(** All parts of one message with the reference [ref] have arrived, and no other
    parts with that reference; they make up [text]. *)
Definition assembled (ref : Z) (parts : list arrived) (text : list Z) : Prop :=
  exists texts, texts <> [] /\ concat texts = text /\
    forall t n k, In (Arrived t ref n k) parts <->
      n = Z.of_nat (length texts) /\ 1 <= k /\ nth_error texts (Z.to_nat (k - 1)) = Some t.
