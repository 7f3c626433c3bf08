(** What makes [SmsSubmit.to_pdu] raise, and the exception it raises (C115).  Only the
    attributes of the message, the GSM alphabet and the places where a text is cut
    ([Cuts]) are used, none of the functions of the model. *)
From Verif Require Import Py Utils Submit SpecGsm SpecPack SpecTime SpecSubmit SpecCuts.
Open Scope Z_scope.

(** The text is in the GSM alphabet; of byte strings only ASCII is compared with it. *)
Definition in_gsm (t : pystr) : Prop :=
  Forall (fun u => gsm_char u /\ (is_uni t = true \/ u < 128)) (chars t).

(** The coding the message is sent in: as asked for, else as the text needs. *)
Definition sent_in (s : submit) (coding : Z) : Prop :=
  s_fmt s = Some coding \/
  (s_fmt s = None /\ in_gsm (s_text s) /\ coding = 0) \/
  (s_fmt s = None /\ ~ in_gsm (s_text s) /\ coding = 8).

(** More than [n] parts of [w] units. *)
Definition parts_beyond (n : nat) (w : nat) (units : list Z) : Prop :=
  exists parts, Cuts w units parts /\ (n < length parts)%nat.

Inductive unsendable (s : submit) : exn -> Prop :=
| un_nobody : s_number s = None -> unsendable s AttributeError
| un_empty : s_number s = Some [] -> unsendable s IndexError
| un_pid : ~ octet (s_pid s) -> unsendable s ValueError
| un_coding : forall c, sent_in s c -> c <> 0 -> c <> 4 -> c <> 8 -> unsendable s ValueError
| un_relative : forall t, s_validity s = Relative t ->
    t < 5 * 60 * 1000000 \/ 63 * 7 * 86400 * 1000000 < t -> unsendable s ValueError
| un_absolute : forall d, s_validity s = Absolute d -> dt_year d < 1900 -> unsendable s ValueError
(* 7 bits *)
| un_gsm : sent_in s 0 -> ~ in_gsm (s_text s) -> unsendable s UnicodeError
| un_gsm_parts : forall g, sent_in s 0 -> gsm_text (chars (s_text s)) g -> (160 < length g)%nat ->
    parts_beyond 255 153 g -> unsendable s ValueError
(* 8 bits *)
| un_8bit_unicode : sent_in s 4 -> is_uni (s_text s) = true -> (128 <= length (chars (s_text s)))%nat ->
    unsendable s UnicodeError
| un_8bit_bytes : forall c, sent_in s 4 -> is_uni (s_text s) = false -> (140 < length (chars (s_text s)))%nat ->
    In c (chars (s_text s)) -> 128 <= c -> unsendable s UnicodeError
| un_8bit_parts : sent_in s 4 -> parts_beyond (Z.to_nat 4351) 134 (chars (s_text s)) ->
    unsendable s ValueError
(* UCS-2 *)
| un_ucs2 : forall c, sent_in s 8 -> In c (chars (s_text s)) -> ~ unit16 c -> unsendable s ValueError
| un_ucs2_bytes : forall c, sent_in s 8 -> is_uni (s_text s) = false -> (70 < length (chars (s_text s)))%nat ->
    In c (chars (s_text s)) -> 128 <= c -> unsendable s UnicodeError
| un_ucs2_parts : sent_in s 8 -> parts_beyond 255 67 (chars (s_text s)) -> unsendable s ValueError.

(** Dates Python can hold. *)
Definition python_date (v : validity) : Prop :=
  forall d, v = Absolute d ->
    valid_civil (dt_year d) (dt_month d) (dt_day d) (dt_hour d) (dt_minute d) (dt_second d) /\
    forall m, dt_offset d = Some m -> -1440 < m < 1440.
