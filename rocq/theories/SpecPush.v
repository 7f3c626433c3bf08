(** Specification: WSP Push units (WAP-230-WSP 8.2.4.1) and their transport in
    short messages of 8-bit data (TS 23.040).  Nothing here refers to the model. *)
From Coq Require Import ZArith List.
Import ListNotations.
From Verif Require Import SpecWsp SpecMms SpecSubmit SpecDeliver.
Open Scope Z_scope.

(** [Push header body l]: [l] is a push unit with the headers [header] (content
    type first) and the content [body]: transaction number, type 6, length of the
    headers in the shortest uintvar, headers, content. *)
Inductive Push (header body : list Z) : list Z -> Prop :=
| push : forall tid ds d, 0 <= tid < 256 -> Forall digit128 ds -> digit128 d ->
    minimal128 ds -> base128 (ds ++ [d]) = n_octets header ->
    Push header body (tid :: 6 :: uintvar_octets ds d ++ header ++ body).

(** [carries pdu piece]: [pdu] is the hexadecimal notation of some SMS-DELIVER
    whose user data is [piece] in 8-bit data, after any user data header. *)
Definition carries (pdu piece : list Z) : Prop :=
  exists hdr udl ud o,
    SpecDeliver.delivers 4 (match hdr with Some _ => true | None => false end) udl ud o /\
    deliver_ud hdr 4 piece udl ud /\ reads_hex pdu o.
