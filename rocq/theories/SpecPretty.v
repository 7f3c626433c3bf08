(** How Python's minidom writes a tree of elements as text, line by line.  Elements are
    built with the [xml] type of the model; nothing else of the model is used. *)
From Coq Require Import ZArith List Permutation Sorted.
Import ListNotations.
From Verif Require Import Py Message.
Open Scope Z_scope.

(** The order of the dictionary, by character numbers. *)
Inductive before : list Z -> list Z -> Prop :=
| before_end c b : before [] (c :: b)
| before_char x y a b : x < y -> before (x :: a) (y :: b)
| before_same x a b : before a b -> before (x :: a) (x :: b).

(** The four characters written as references: ampersand, less than, greater than and
    the quotation mark. *)
Definition shown_char (c : Z) : list Z :=
  if c =? 38 then str "&amp;" else if c =? 60 then str "&lt;"
  else if c =? 62 then str "&gt;" else if c =? 34 then str "&quot;" else [c].

(** A blank, the name, an equals sign and the value between quotation marks. *)
Definition attribute_text (a : list Z * list Z) : list Z :=
  [32] ++ fst a ++ [61; 34] ++ flat_map shown_char (snd a) ++ [34].

(** The attributes are written in the order of their names. *)
Definition attributes_text (attrs : list (list Z * list Z)) (s : list Z) : Prop :=
  exists sorted, Permutation attrs sorted /\
    StronglySorted (fun a b => before (fst a) (fst b)) sorted /\
    s = flat_map attribute_text sorted.

(** [pretty d x s]: the element [x], inside [d] others, is written as the lines [s]: one
    line if it is empty, otherwise a line for its start, those of its children with one
    tab more, and a line for its end. *)
Inductive pretty : nat -> xml -> list Z -> Prop :=
| pretty_empty d tag attrs s : attributes_text attrs s ->
    pretty d (Elem tag attrs []) (repeat 9 d ++ [60] ++ tag ++ s ++ [47; 62; 10])
| pretty_full d tag attrs s kids lines : attributes_text attrs s -> kids <> [] ->
    Forall2 (pretty (S d)) kids lines ->
    pretty d (Elem tag attrs kids)
      (repeat 9 d ++ [60] ++ tag ++ s ++ [62; 10] ++ concat lines ++
       repeat 9 d ++ [60; 47] ++ tag ++ [62; 10]).
