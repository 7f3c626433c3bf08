(** Specification of all the digits an address can have (3GPP TS 23.040, 9.1.2.3):
    besides the decimal ones the asterisk, the number sign and the letters a, b, c
    (C107). *)
From Coq Require Import List ZArith.
From Verif Require Import SpecAddress SpecDeliver.
Import ListNotations.
Open Scope Z_scope.

(** The character of a digit: 10 is an asterisk, 11 a number sign, 12 to 14 are the
    letters a, b and c; 15 is the filler. *)
Definition digit_sign (d : Z) : Z :=
  if d <=? 9 then 48 + d else if d =? 10 then 42 else if d =? 11 then 35 else 97 + (d - 12).

(** The octets [os] carry the digits [ds], as in SpecAddress.v but with all digits. *)
Inductive all_semi_octets : list Z -> list Z -> Prop :=
| all_semi_nil : all_semi_octets [] []
| all_semi_one a : 0 <= a <= 14 -> all_semi_octets [a] [a + 16 * 15]
| all_semi_two a b ds os : 0 <= a <= 14 -> 0 <= b <= 14 ->
    all_semi_octets ds os -> all_semi_octets (a :: b :: ds) (a + 16 * b :: os).

(** The number, as it is written. *)
Definition written (ty : Z) (ds : list Z) : list Z :=
  (if type_of_number ty =? 1 then [43] else []) ++ map digit_sign ds.

(** An address with that number. *)
Definition all_numeric_field (ty : Z) (ds f : list Z) : Prop :=
  exists os, all_semi_octets ds os /\ f = Z.of_nat (length ds) :: ty :: os.
