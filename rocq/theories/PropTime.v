(** C08-C11: validity periods and time zones.  A [timedelta] is its number of
    microseconds. *)
From Coq Require Import Lia.
From Verif Require Import Py SpecTime Utils ValidityFacts.
Open Scope Z_scope.

(** C08: the octet denotes the longest expressible period not above [t]. *)
Theorem C08_relative_validity : forall t : timedelta,
  5 * 60 * 1000000 <= t <= 63 * 7 * 86400 * 1000000 ->
  exists v, timedelta_to_relative_validity t = Ok (Some v) /\ 0 <= v <= 255 /\
    relative_period v * 1000000 <= t /\
    forall w, 0 <= w <= 255 -> relative_period w * 1000000 <= t -> w <= v.
Proof. exact relative_floor. Qed.
Print Assumptions C08_relative_validity.
Example C08_case : timedelta_to_relative_validity (33 * 86400 * 1000000 + 7) = Ok (Some 196).
Proof. reflexivity. Qed.

(** C08: larger octets denote longer periods, so "largest octet" above is
    "longest period". *)
Theorem C08_period_increasing : forall v w,
  0 <= v -> v < w -> w <= 255 -> relative_period v < relative_period w.
Proof. exact period_increasing. Qed.
Print Assumptions C08_period_increasing.

(** C09: ValueError exactly outside the range. *)
Theorem C09_relative_error : forall t : timedelta,
  (t < 5 * 60 * 1000000 \/ 63 * 7 * 86400 * 1000000 < t) <->
  timedelta_to_relative_validity t = Err ValueError.
Proof. exact relative_error. Qed.
Print Assumptions C09_relative_error.
Example C09_case : timedelta_to_relative_validity (5 * 60 * 1000000 - 1) = Err ValueError.
Proof. reflexivity. Qed.

(** C10: each octet read as swapped BCD is the corresponding field; the last is
    the offset in quarters of an hour.  A naive datetime has offset 0. *)
Theorem C10_absolute_validity : forall y mo d hh mi ss (off : option Z),
  1900 <= y -> valid_civil y mo d hh mi ss ->
  match off with Some m => -1200 < m < 1200 | None => True end ->
  exists oy om od oh oi os oz,
    datetime_to_absolute_validity (Datetime y mo d hh mi ss off)
      = Ok [oy; om; od; oh; oi; os; oz] /\
    Forall (fun o => 0 <= o < 256) [oy; om; od; oh; oi; os; oz] /\
    swapped_bcd oy = y mod 100 /\ swapped_bcd om = mo /\
    swapped_bcd od = d /\ swapped_bcd oh = hh /\
    swapped_bcd oi = mi /\ swapped_bcd os = ss /\
    zone_quarters oz = match off with Some m => Z.quot m 15 | None => 0 end.
Proof. exact absolute_valid. Qed.
Print Assumptions C10_absolute_validity.
Example C10_case : datetime_to_absolute_validity (Datetime 2012 2 29 23 59 58 (Some (-210)))
  = Ok [0x21; 0x20; 0x92; 0x32; 0x95; 0x85; 0x49].
Proof. reflexivity. Qed.
Example C10_case_valid : valid_civil 2012 2 29 23 59 58.
Proof. unfold valid_civil. cbn. lia. Qed.

(** C10 fails for offsets of 20 hours and more: they read as negative. *)
Theorem C10_large_offset_refuted : exists y mo d hh mi ss off l,
  1900 <= y /\ valid_civil y mo d hh mi ss /\ -1440 < off < 1440 /\
  datetime_to_absolute_validity (Datetime y mo d hh mi ss (Some off)) = Ok l /\
  zone_quarters (nth 6 l 0) <> Z.quot off 15.
Proof. exact large_offset. Qed.
Print Assumptions C10_large_offset_refuted.

(** C11 holds for positive offsets. *)
Theorem C11_from_timezone_partial : forall hh mm, 0 <= hh <= 23 -> 0 <= mm <= 59 ->
  from_timezone (tz_string false hh mm) = Ok ((hh * 60 + mm) * 60 * 1000000).
Proof. exact (from_timezone_string false). Qed.
Print Assumptions C11_from_timezone_partial.

(** C11 for negative strings: the result is one day minus too much; it is the
    denoted offset only for [-1200]. *)
Theorem C11_from_timezone_negative : forall hh mm, 0 <= hh <= 23 -> 0 <= mm <= 59 ->
  from_timezone (tz_string true hh mm) = Ok ((hh * 60 + mm - 1440) * 60 * 1000000).
Proof. exact (from_timezone_string true). Qed.
Print Assumptions C11_from_timezone_negative.
Theorem C11_from_timezone_refuted : exists hh mm, 0 <= hh <= 23 /\ 0 <= mm <= 59 /\
  from_timezone (tz_string true hh mm) <> Ok (- (hh * 60 + mm) * 60 * 1000000).
Proof. exact negative_timezone. Qed.
Print Assumptions C11_from_timezone_refuted.
Example C11_case : tz_string true 3 0 = str "-0300" /\
  from_timezone (str "-0300") = Ok (-21 * 3600 * 1000000) /\
  from_timezone (str "+0530") = Ok (330 * 60 * 1000000).
Proof. repeat split. Qed.
