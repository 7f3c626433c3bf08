(** Specification for C89 and C90: characters outside the 16-bit range.

    A text is a list of 16-bit units.  A character beyond the Basic Multilingual
    Plane takes two of them (Unicode 3.9, D91): a high surrogate, 0xD800-0xDBFF,
    and a low one, 0xDC00-0xDFFF.  Nothing here mentions the program. *)
From Coq Require Import ZArith List.
Import ListNotations.
Open Scope Z_scope.

Definition high (u : Z) : Prop := 55296 <= u < 56320.
Definition low (u : Z) : Prop := 56320 <= u < 57344.

(** A list of units is text: surrogates come in pairs only. *)
Inductive Utf16 : list Z -> Prop :=
| utf16_nil : Utf16 []
| utf16_one u l : 0 <= u < 65536 -> ~ high u -> ~ low u -> Utf16 l -> Utf16 (u :: l)
| utf16_two a b l : high a -> low b -> Utf16 l -> Utf16 (a :: b :: l).

(** The character at position [i] takes the units [i] and [i + 1]. *)
Definition pair_at (t : list Z) (i : nat) : Prop :=
  exists a b, nth_error t i = Some a /\ nth_error t (S i) = Some b /\ high a /\ low b.
