(** Vocabulary of the theorems about all that [SmsDeliver] shows (C122). *)
From Verif Require Import Py SpecPack SpecTime SpecSubmit SpecDeliver SpecUdh SpecUnread SpecShown
  Udh Deliver UdhFacts.
Open Scope Z_scope.

(** The header on the object shows the elements found in the octets [h]. *)
Definition header_shown (h : list Z) (u : option udh) : Prop :=
  exists v els, u = Some v /\ found h els /\ Forall right_size els /\
    concat_view v = concatenation (map essence els) /\
    ports_view v = port_addresses (map essence els) /\
    forall i, d_get Z.eqb i (h_headers v) = element_data i els.

(** A delivered message behind its first octet [fo]. *)
Definition message_shown (fo : Z) (r : list Z) (d : deliver) : Prop :=
  exists n ty sender pid dcs ts t oz udl ud snd text,
    r = n :: ty :: sender ++ pid :: dcs :: ts ++ oz :: udl :: ud /\
    Z.of_nat (length sender) = (n + 1) / 2 /\ stamp ts t /\
    sender_shown ty sender snd /\ text_shown (udhi fo) dcs udl ud text /\
    d_number d = Some snd /\ d_pid d = Some pid /\ d_dcs d = Some dcs /\
    d_fmt d = Some (coding_taken dcs) /\ d_date d = Some (t - 900 * zone_quarters oz) /\
    d_text d = Some text /\ d_type d = None /\ d_sr d = None /\
    if udhi fo then exists k more, ud = k :: more /\ header_shown (firstn (Z.to_nat k) more) (d_udh d)
    else d_udh d = None.

(** A status report behind its first octet; everything behind the type of the
    recipient's number may be missing. *)
Definition report_shown (r : list Z) (d : deliver) : Prop :=
  exists mr n ty q scts s1 dt s2,
    r = mr :: n :: ty :: q /\
    let k := Z.to_nat ((n + 1) / 2) in
    let recipient := address_text ty (firstn k q) in
    let rest := skipn k q in
    let st := nth_error rest 14 in
    date_shown (firstn 6 rest) scts s1 /\ date_shown (firstn 6 (skipn 7 rest)) dt s2 /\
    d_number d = Some (state_name st) /\ d_pid d = None /\ d_dcs d = None /\
    d_fmt d = Some 8 /\ d_type d = Some 3 /\ d_date d = scts /\
    d_text d = Some (recipient ++ str "|" ++ s1 ++ str "|" ++
                     match st with None | Some 0 => s2 | _ => [] end) /\
    d_sr d = Some (SReport recipient scts dt st) /\
    exists u, d_udh d = Some u /\ concat_view u = Some (mr, 0, 0) /\ ports_view u = None /\
      forall i, d_get Z.eqb i (h_headers u) = None.
