(** Specification: the ways a text can be sent in short messages (TS 23.040): in
    one that holds it, or in several that have room for the concatenation header.
    In the GSM alphabet no part ends within an escape sequence, every part being
    the GSM form of a piece of the text. *)
From Coq Require Import List ZArith.
From Verif Require Import SpecGsm SpecSubmit.
Import ListNotations.
Open Scope Z_scope.

Definition message_split (coding : Z) (text : list Z) (parts : list (list Z)) : Prop :=
  parts_of coding text parts /\
  match parts with
  | [] => False
  | [p] => Z.of_nat (length p) <= capacity coding
  | _ => Forall (fun p => Z.of_nat (length p) <= part_capacity coding) parts
  end.
