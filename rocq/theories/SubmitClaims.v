(** Vocabulary of the theorems about SmsSubmit: which objects can occur, and what
    it means that a PDU carries what an object asks for.  The readers and
    relations come from SpecSubmit.v. *)
From Verif Require Import Py SpecGsm SpecPack SpecAddress SpecTime SpecSubmit Utils Gsm Submit.
Open Scope Z_scope.

(** * States that can occur *)

(** Numbers the property setters let through. *)
Definition settable (n : option (list Z)) : Prop :=
  match n with
  | None | Some [] => True
  | Some n => exists intl ds, number_syntax intl ds n
  end.

(** What holds of every SmsSubmit object built through its API. *)
Definition wf_submit (s : submit) : Prop :=
  settable (s_number s) /\ settable (s_csca s) /\
  match s_klass s with None => True | Some k => 0 <= k <= 3 end /\
  Forall (fun i => 0 <= i < 255) (s_id_list s).

(** A date [datetime] can hold, with an offset below twenty hours (C10). *)
Definition validity_ok (v : validity) : Prop :=
  match v with
  | Absolute d =>
      valid_civil (dt_year d) (dt_month d) (dt_day d) (dt_hour d) (dt_minute d) (dt_second d) /\
      match dt_offset d with Some m => -1200 < m < 1200 | None => True end
  | _ => True
  end.

Definition validity_request (v : validity) : validity_req :=
  match v with
  | NoValidity => vNone
  | Relative t => vRelative t
  | Absolute d => vAbsolute (dt_year d) (dt_month d) (dt_day d) (dt_hour d) (dt_minute d)
                    (dt_second d) (match dt_offset d with Some m => m | None => 0 end)
  end.

(** The service centre a csca attribute asks for, and the destination. *)
Definition smsc_of (csca : option (list Z)) (v : option (Z * list Z)) : Prop :=
  match csca with
  | None | Some [] => v = None
  | Some n => exists intl ds, number_syntax intl ds n /\
                v = Some (address_type intl, map digit_value ds)
  end.
Definition destination_of (number : option (list Z)) (a : Z * list Z) : Prop :=
  match number with
  | None => False
  | Some n => exists intl ds, number_syntax intl ds n /\
                a = (address_type intl, map digit_value ds)
  end.

(** [carries s coding mr udhi udl ud p]: [p] is an SMS-SUBMIT in upper-case
    hexadecimal that asks for exactly what the attributes of [s] say, with the
    given coding, message reference, header indicator and user data; its
    [length] counts the octets after the service centre part. *)
Definition carries (s : submit) (coding mr : Z) (udhi : bool) (udl : Z) (ud : list Z)
  (p : pdu) : Prop :=
  exists o smsc da vpf vp,
    p_pdu p = hex_upper o /\ Forall octet o /\
    parse_submit o =
      Some (SubmitPdu smsc 1 false vpf (s_request_status s) udhi false mr da (s_pid s)
                      (dcs_octet coding (s_klass s)) vp udl ud) /\
    smsc_of (s_csca s) smsc /\ destination_of (s_number s) da /\
    validity_octets (validity_request (s_validity s)) vpf vp /\
    p_length p = zlen o - (1 + hd 0 o).

(** The coding a message is sent with: the one asked for, or else the GSM
    alphabet when the text is GSM text and UCS-2 when it is not. *)
Definition coding_of (s : submit) : Z :=
  match s_fmt s with
  | Some f => f
  | None => if is_gsm_text (Some (s_text s)) then 0 else 8
  end.

(** The message reference: the one asked for, modulo 256, or the next id. *)
Definition next_id (s : submit) : Z :=
  match s_id_list s with i :: _ => i | [] => 0 end.
Definition message_ref (s : submit) : Z :=
  match s_ref s with Some r => r mod 256 | None => next_id s end.

(** Objects that a program can obtain through the API: constructing one,
    assigning attributes (the setters that validate may refuse) and calling
    [to_pdu], whether or not it raises. *)
Inductive reachable : submit -> Prop :=
| r_new n t s : new_submit n t = Ok s -> reachable s
| r_number v s : reachable s -> reachable (snd (set_number v s))
| r_csca v s : reachable s -> reachable (snd (set_csca v s))
| r_klass k s : reachable s -> reachable (snd (set_klass k s))
| r_validity v s : reachable s -> reachable (with_validity v s)
| r_status v s : reachable s -> reachable (with_request_status v s)
| r_ref v s : reachable s -> reachable (with_ref v s)
| r_rand_id v s : reachable s -> reachable (with_rand_id v s)
| r_pid v s : reachable s -> reachable (with_pid v s)
| r_text v s : reachable s -> reachable (with_text v s)
| r_fmt v s : reachable s -> reachable (with_fmt v s)
| r_to_pdu s : reachable s -> reachable (snd (to_pdu s)).

(** Everything [to_pdu] needs apart from the text: a destination, an octet as
    protocol identifier, an expressible validity and a known coding. *)
Definition ready (s : submit) : Prop :=
  (exists n intl ds, s_number s = Some n /\ number_syntax intl ds n) /\
  octet (s_pid s) /\
  (coding_of s = 0 \/ coding_of s = 4 \/ coding_of s = 8) /\
  validity_ok (s_validity s) /\
  match s_validity s with
  | NoValidity => True
  | Relative t => 5 * 60 * 1000000 <= t <= 63 * 7 * 86400 * 1000000
  | Absolute d => 1900 <= dt_year d
  end.

(** The text can be represented in a coding.  A byte string counts as text only
    as far as it is ASCII. *)
Definition encodable (coding : Z) (t : pystr) : Prop :=
  if coding =? 0
  then Forall (fun u => gsm_char u /\ (is_uni t = true \/ u < 128)) (chars t)
  else if coding =? 4 then Forall octet (chars t)
  else Forall unit16 (chars t).

(** [to_pdu] called [n] times in a row. *)
Fixpoint to_pdu_times (n : nat) (s : submit) : submit :=
  match n with O => s | S n => to_pdu_times n (snd (to_pdu s)) end.

(** The result of the [n]-th of consecutive reference draws, counted from 0. *)
Fixpoint nth_draw (n : nat) (s : submit) : res Z :=
  match n with
  | O => fst (get_rand_id s)
  | S n => nth_draw n (snd (get_rand_id s))
  end.
