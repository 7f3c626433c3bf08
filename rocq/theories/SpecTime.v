(** Specification: validity periods and time stamps of GSM 03.40 / 3GPP 23.040,
    and the proleptic Gregorian calendar. *)
From Coq Require Import List ZArith Bool.
Import ListNotations.
Open Scope Z_scope.

(** 9.2.3.12.1: the period, in seconds, that a relative validity octet denotes. *)
Definition relative_period (v : Z) : Z :=
  if v <=? 143 then (v + 1) * 5 * 60
  else if v <=? 167 then 12 * 3600 + (v - 143) * 30 * 60
  else if v <=? 196 then (v - 166) * 86400
  else (v - 192) * 7 * 86400.

(** Semi-octet representation: the low nibble is the first decimal digit. *)
Definition swapped_bcd (o : Z) : Z := (o mod 16) * 10 + o / 16.

(** 9.2.3.11: the time zone octet, in quarters of an hour; bit 3 is the sign. *)
Definition zone_quarters (o : Z) : Z :=
  let q := (o mod 8) * 10 + o / 16 in
  if Z.odd (o / 8) then - q else q.

(** Days of a month and day number of a date, counting 1970-01-01 as day 0, by
    adding up the lengths of the years and months before it. *)
Definition leap (y : Z) : bool :=
  (y mod 4 =? 0) && (negb (y mod 100 =? 0) || (y mod 400 =? 0)).
Definition month_length (y m : Z) : Z :=
  match m with
  | 2 => if leap y then 29 else 28
  | 4 | 6 | 9 | 11 => 30
  | _ => 31
  end.
Definition year_length (y : Z) : Z := if leap y then 366 else 365.
Fixpoint sum_from (f : Z -> Z) (a : Z) (n : nat) : Z :=
  match n with O => 0 | S n' => f a + sum_from f (a + 1) n' end.
(** Days from 1970-01-01 to the date, for years from 1970 on, and back from it
    for earlier years. *)
Definition day_number (y m d : Z) : Z :=
  (if 1970 <=? y then sum_from year_length 1970 (Z.to_nat (y - 1970))
   else - sum_from year_length y (Z.to_nat (1970 - y)))
  + sum_from (month_length y) 1 (Z.to_nat (m - 1)) + (d - 1).

(** Seconds since 1970-01-01 00:00:00 of a civil date and time. *)
Definition civil_seconds (y m d hh mm ss : Z) : Z :=
  day_number y m d * 86400 + hh * 3600 + mm * 60 + ss.

(** A civil date and time that exists. *)
Definition valid_civil (y m d hh mm ss : Z) : Prop :=
  1 <= m <= 12 /\ 1 <= d <= month_length y m /\
  0 <= hh <= 23 /\ 0 <= mm <= 59 /\ 0 <= ss <= 59.

(** The time zone string [+hhmm] or [-hhmm], as character codes. *)
Definition tz_string (negative : bool) (hh mm : Z) : list Z :=
  (if negative then 45 else 43) ::
  [48 + hh / 10; 48 + hh mod 10; 48 + mm / 10; 48 + mm mod 10].
