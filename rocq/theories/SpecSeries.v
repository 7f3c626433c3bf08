(** What an [SmsDeliver] shows after its [pdu] attribute was assigned any number of
    strings, some of them refused (C129).  A string is read from the front, and what was
    read before it was refused is shown.  Nothing here refers to the model. *)
From Coq Require Import List ZArith.
From Verif Require Import Py SpecPack SpecTime SpecSubmit SpecDeliver SpecUdh SpecUnread SpecShown.
Import ListNotations.
Open Scope Z_scope.

(** The value in the last string that has one. *)
Inductive last_in {A} (P : list Z -> A -> Prop) : list (list Z) -> option A -> Prop :=
| li_never ps : (forall p a, In p ps -> ~ P p a) -> last_in P ps None
| li_last before p a after : P p a -> (forall p' a', In p' after -> ~ P p' a') ->
    last_in P (before ++ p :: after) (Some a).

(** ** Where things stand *)

(** The string is one of octets. *)
Inductive the_octets (strict : bool) (p : list Z) : list Z -> Prop :=
| to_octets s o : kept strict p s -> numbers s o -> Forall octet o -> the_octets strict p o.

Inductive centre_in (strict : bool) (p : list Z) : option (list Z) -> Prop :=
| ci_centre o c : the_octets strict p o -> centre_shown o c -> centre_in strict p c.

(** The first octet behind the service centre, and what follows it. *)
Inductive first_in (strict : bool) (p : list Z) : Z -> list Z -> Prop :=
| fi_first o fo r : the_octets strict p o -> behind_centre o (fo :: r) -> first_in strict p fo r.
Definition octet_in (strict : bool) (p : list Z) (fo : Z) : Prop := exists r, first_in strict p fo r.

(** A delivered message whose sender's octets are [sender], as many of them as there are,
    and what follows them. *)
Inductive message_in (strict : bool) (p : list Z) : Z -> Z -> list Z -> list Z -> Prop :=
| mi_message fo n ty r : first_in strict p fo (n :: ty :: r) -> message_type fo = 0 \/ message_type fo = 3 ->
    message_in strict p fo ty (firstn (Z.to_nat ((n + 1) / 2)) r) (skipn (Z.to_nat ((n + 1) / 2)) r).

(** A status report with the octets of the recipient and what follows them; all of these
    may be missing. *)
Inductive report_in (strict : bool) (p : list Z) : Z -> list Z -> list Z -> Prop :=
| ri_report fo mr n ty r : first_in strict p fo (mr :: n :: ty :: r) -> message_type fo = 2 ->
    report_in strict p ty (firstn (Z.to_nat ((n + 1) / 2)) r) (skipn (Z.to_nat ((n + 1) / 2)) r).

(** ** What they show *)

Inductive number_in (strict : bool) (p : list Z) : list Z -> Prop :=
| ni_message fo ty sender r t : message_in strict p fo ty sender r -> sender_shown ty sender t ->
    number_in strict p t
| ni_report ty to r : report_in strict p ty to r -> number_in strict p (state_name (nth_error r 14)).

Inductive pid_in (strict : bool) (p : list Z) : Z -> Prop :=
| pi_message fo ty sender pid r : message_in strict p fo ty sender (pid :: r) -> pid_in strict p pid.

Inductive dcs_in (strict : bool) (p : list Z) : Z -> Prop :=
| di_message fo ty sender pid dcs r : message_in strict p fo ty sender (pid :: dcs :: r) -> dcs_in strict p dcs.

Inductive coding_in (strict : bool) (p : list Z) : Z -> Prop :=
| co_message dcs : dcs_in strict p dcs -> coding_in strict p (coding_taken dcs)
| co_report ty to r : report_in strict p ty to r -> coding_in strict p 8.

(** A message whose date exists, at local time [t]; what follows its time zone. *)
Inductive dated_in (strict : bool) (p : list Z) : Z -> Z -> Z -> Z -> list Z -> Prop :=
| da_message fo ty sender pid dcs r t oz r' : message_in strict p fo ty sender (pid :: dcs :: r) ->
    stamp (firstn 6 r) t -> skipn 6 r = oz :: r' -> dated_in strict p fo dcs t oz r'.

Inductive date_in (strict : bool) (p : list Z) : Z -> Prop :=
| dt_message fo dcs t oz r : dated_in strict p fo dcs t oz r -> date_in strict p (t - 900 * zone_quarters oz)
| dt_report ty to r t : report_in strict p ty to r -> stamp (firstn 6 r) t -> date_in strict p t.

(** The header: that of a message, or one for the reference of a report. *)
Inductive header_source := HeaderOctets (h : list Z) | ReportReference (mr : Z).
Inductive header_in (strict : bool) (p : list Z) : header_source -> Prop :=
| he_message fo dcs t oz udl n r : dated_in strict p fo dcs t oz (udl :: n :: r) -> udhi fo = true ->
    (forall e, ~ header_broken (firstn (Z.to_nat n) r) e) ->
    header_in strict p (HeaderOctets (firstn (Z.to_nat n) r))
| he_report fo mr r : first_in strict p fo (mr :: r) -> message_type fo = 2 ->
    header_in strict p (ReportReference mr).

(** The text, the type and the report come last, so the string is not refused. *)
Inductive text_in (strict : bool) (p : list Z) : list Z -> Prop :=
| te_message fo dcs t oz udl ud text : dated_in strict p fo dcs t oz (udl :: ud) ->
    (forall e, ~ data_broken (udhi fo) dcs ud e) -> text_shown (udhi fo) dcs udl ud text ->
    text_in strict p text
| te_report ty to r scts s1 dt s2 : report_in strict p ty to r ->
    date_shown (firstn 6 r) scts s1 -> date_shown (firstn 6 (skipn 7 r)) dt s2 ->
    text_in strict p (address_text ty to ++ str "|" ++ s1 ++ str "|" ++
                      match nth_error r 14 with None | Some 0 => s2 | _ => [] end).

Inductive type_in (strict : bool) (p : list Z) : Z -> Prop :=
| ty_report ty to r : report_in strict p ty to r -> type_in strict p 3.

(** Recipient, date of discharge and state. *)
Inductive result_in (strict : bool) (p : list Z) : list Z * option Z * option Z -> Prop :=
| re_report ty to r dt s : report_in strict p ty to r -> date_shown (firstn 6 (skipn 7 r)) dt s ->
    result_in strict p (address_text ty to, dt, nth_error r 14).
