(** Specification: packing of septets into octets (3GPP TS 23.038, 6.1.2.1).
    The octets, read as one little-endian bit stream, are the septets one after
    the other, least significant bit first, followed by zero fill bits. *)
From Coq Require Import List ZArith.
Import ListNotations.
Open Scope Z_scope.

(** The number whose base-[b] digits are the list, least significant first. *)
Fixpoint le_value (b : Z) (l : list Z) : Z :=
  match l with
  | [] => 0
  | d :: r => d + b * le_value b r
  end.

Definition octet (x : Z) : Prop := 0 <= x < 256.
Definition septet (x : Z) : Prop := 0 <= x < 128.

(** Octets needed for [n] septets. *)
Definition octets_for (n : Z) : Z := (7 * n + 7) / 8.

(** [packed s o]: the octets [o] are the packed form of the septets [s]. *)
Definition packed (s o : list Z) : Prop :=
  Forall octet o /\
  Z.of_nat (length o) = octets_for (Z.of_nat (length s)) /\
  le_value 256 o = le_value 128 s.

(** Septets taken by a header of [h] octets: the text starts on the next septet
    boundary (3GPP TS 23.040, 9.2.3.24). *)
Definition header_septets (h : Z) : Z := (8 * h + 6) / 7.

(** [packed_with_header hd s o]: [o] starts with the octets [hd]; after the fill
    bits up to the next septet boundary come the septets [s]. *)
Definition packed_with_header (hd s o : list Z) : Prop :=
  let hs := header_septets (Z.of_nat (length hd)) in
  Forall octet o /\
  Z.of_nat (length o) = octets_for (hs + Z.of_nat (length s)) /\
  le_value 256 o = le_value 256 hd + 2 ^ (7 * hs) * le_value 128 s.

(** Hexadecimal notation of octets, two digits each, lower case. *)
Definition hex_digit (d : Z) : Z := if d <? 10 then 48 + d else 97 + (d - 10).
Fixpoint hex_of (l : list Z) : list Z :=
  match l with
  | [] => []
  | b :: r => hex_digit (b / 16) :: hex_digit (b mod 16) :: hex_of r
  end.
