(** Specification: telephone numbers and their semi-octet representation
    (3GPP TS 23.040, 9.1.2.3 and 9.1.2.5). *)
From Coq Require Import List ZArith.
Import ListNotations.
Open Scope Z_scope.

(** A digit character and its value. *)
Definition digit_char (c : Z) : Prop := 48 <= c <= 57.
Definition digit_value (c : Z) : Z := c - 48.

(** [number_syntax intl ds s]: the string [s] is an optional plus sign (present
    when [intl]), the digit characters [ds], 3 to 20 of them, and possibly a
    final newline. *)
Definition number_syntax (intl : bool) (ds s : list Z) : Prop :=
  Forall digit_char ds /\ 3 <= Z.of_nat (length ds) <= 20 /\
  exists nl, (nl = [] \/ nl = [10]) /\
    s = (if intl then [43] else []) ++ ds ++ nl.

(** [semi_octets ds os]: the octets [os] carry the digits [ds], first digit in
    the low half, with a filler of all ones after an odd last digit. *)
Inductive semi_octets : list Z -> list Z -> Prop :=
| semi_nil : semi_octets [] []
| semi_one a : 0 <= a <= 9 -> semi_octets [a] [a + 16 * 15]
| semi_two a b ds os : 0 <= a <= 9 -> 0 <= b <= 9 ->
    semi_octets ds os -> semi_octets (a :: b :: ds) (a + 16 * b :: os).

(** Type-of-address octets: international and unknown, ISDN numbering plan. *)
Definition address_type (intl : bool) : Z := if intl then 0x91 else 0x81.
