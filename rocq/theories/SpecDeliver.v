(** Specification: SMS-DELIVER and SMS-STATUS-REPORT PDUs and user data headers,
    written from 3GPP TS 23.040 and TS 23.038.  It shares nothing with the
    model. *)
From Coq Require Import List ZArith Bool.
From Verif Require Import SpecGsm SpecPack SpecAddress SpecTime SpecSubmit.
Import ListNotations.
Open Scope Z_scope.

(** Value of a hexadecimal digit character of either case. *)
Definition hex_value (c : Z) : option Z :=
  if (48 <=? c) && (c <=? 57) then Some (c - 48)
  else if (97 <=? c) && (c <=? 102) then Some (c - 97 + 10)
  else if (65 <=? c) && (c <=? 70) then Some (c - 65 + 10)
  else None.

(** [reads_hex s o]: [s] is a hexadecimal notation of the octets [o]. *)
Inductive reads_hex : list Z -> list Z -> Prop :=
| hex_nil : reads_hex [] []
| hex_cons c1 c2 h l s o : hex_value c1 = Some h -> hex_value c2 = Some l ->
    reads_hex s o -> reads_hex (c1 :: c2 :: s) (16 * h + l :: o).

(** * User data header (TS 23.040, 9.2.3.24) *)

(** An information element: identifier and data.  The elements follow each other
    with a length octet between identifier and data. *)
Definition element : Type := Z * list Z.
Fixpoint serial (els : list element) : list Z :=
  match els with
  | [] => []
  | (i, d) :: r => i :: Z.of_nat (length d) :: d ++ serial r
  end.

(** Elements that can be serialised and whose data has the length TS 23.040
    prescribes: 0 is concatenation
    with an 8-bit reference, 8 the same with 16 bits, 4 and 5 are application
    ports of 8 and 16 bits. *)
Definition element_ok (e : element) : Prop :=
  let '(i, d) := e in
  octet i /\ Forall octet d /\ Z.of_nat (length d) <= 255 /\
  (i = 0 -> length d = 3%nat) /\ (i = 8 -> length d = 4%nat) /\
  (i = 4 -> length d = 2%nat) /\ (i = 5 -> length d = 4%nat).

(** The last element satisfying a test. *)
Definition last_such (p : element -> bool) (els : list element) : option element :=
  find p (rev els).

(** Concatenation: reference, number of parts, number of this part. *)
Definition concatenation (els : list element) : option (Z * Z * Z) :=
  match last_such (fun e => (fst e =? 0) || (fst e =? 8)) els with
  | Some (_, [r; c; s]) => Some (r, c, s)
  | Some (_, [r1; r0; c; s]) => Some (256 * r1 + r0, c, s)
  | _ => None
  end.

(** Ports: destination and originator. *)
Definition port_addresses (els : list element) : option (Z * Z) :=
  match last_such (fun e => (fst e =? 4) || (fst e =? 5)) els with
  | Some (_, [d; o]) => Some (d, o)
  | Some (_, [d1; d0; o1; o0]) => Some (256 * d1 + d0, 256 * o1 + o0)
  | _ => None
  end.

(** Data of the last element with a given identifier. *)
Definition element_data (i : Z) (els : list element) : option (list Z) :=
  option_map snd (last_such (fun e => fst e =? i) els).

(** * Fields *)

(** An octet of two decimal digits. *)
Definition bcd (o : Z) : Prop := o mod 16 <= 9 /\ o / 16 <= 9.

(** The century is not transmitted; Python's convention is 1969..2068. *)
Definition full_year (y : Z) : Z := if y <=? 68 then 2000 + y else 1900 + y.

(** [stamp ts t]: six octets of a time stamp that denote the local time [t], in
    seconds since 1970 on the sender's clock. *)
Definition stamp (ts : list Z) (t : Z) : Prop :=
  exists oy om od oh oi os, ts = [oy; om; od; oh; oi; os] /\ Forall bcd ts /\
    let y := full_year (swapped_bcd oy) in
    valid_civil y (swapped_bcd om) (swapped_bcd od) (swapped_bcd oh)
      (swapped_bcd oi) (swapped_bcd os) /\
    t = civil_seconds y (swapped_bcd om) (swapped_bcd od) (swapped_bcd oh)
          (swapped_bcd oi) (swapped_bcd os).

(** How a number is written: a plus sign when the type of number is
    international (1), then the digits. *)
Definition type_of_number (ty : Z) : Z := (ty / 16) mod 8.
Definition number_text (ty : Z) (ds : list Z) : list Z :=
  (if type_of_number ty =? 1 then [43] else []) ++ map (fun d => 48 + d) ds.

(** Service centre in front of the TPDU: the length counts octets. *)
Definition smsc_field (smsc : option (Z * list Z)) (f : list Z) : Prop :=
  match smsc with
  | None => f = [0]
  | Some (ty, ds) => exists os, semi_octets ds os /\
      f = 1 + Z.of_nat (length os) :: ty :: os
  end.
Definition smsc_text (smsc : option (Z * list Z)) : option (list Z) :=
  option_map (fun '(ty, ds) => number_text ty ds) smsc.

(** Numeric address: the length counts digits. *)
Definition numeric_field (ty : Z) (ds f : list Z) : Prop :=
  exists os, semi_octets ds os /\ f = Z.of_nat (length ds) :: ty :: os.

(** Alphanumeric address (type of number 5): packed septets; the length counts
    the semi-octets in use. *)
Definition alphanumeric_field (ty : Z) (text f : list Z) : Prop :=
  type_of_number ty = 5 /\
  exists g os, gsm_text text g /\ packed g os /\
    f = (7 * Z.of_nat (length g) + 3) / 4 :: ty :: os.

(** The sender of a message, as text: a number or a name.  The flag says which. *)
Inductive sender_field : bool -> list Z -> list Z -> Prop :=
| sender_number ty ds f : type_of_number ty <> 5 -> numeric_field ty ds f ->
    sender_field false (number_text ty ds) f
| sender_name ty text f : alphanumeric_field ty text f ->
    sender_field true text f.

(** Alphabet of a data coding scheme (TS 23.038, section 4): 0 GSM, 4 8-bit
    data, 8 UCS-2; [None] for compressed text.  Reserved codings are to be taken
    as the GSM alphabet. *)
Definition alphabet (dcs : Z) : option Z :=
  let bits := (dcs / 4) mod 4 in
  if dcs <? 128 then
    if Z.odd (dcs / 32) then None
    else Some (if bits =? 1 then 4 else if bits =? 2 then 8 else 0)
  else if dcs <? 192 then Some 0
  else if dcs <? 224 then Some 0
  else if dcs <? 240 then Some 8
  else Some (if Z.odd (dcs / 4) then 4 else 0).

(** Schemes that are neither reserved nor message waiting indications: the
    general groups with a defined alphabet, and the message class group. *)
Definition common_scheme (dcs : Z) : Prop :=
  (0 <= dcs < 128 /\ Z.odd (dcs / 32) = false /\ (dcs / 4) mod 4 <> 3) \/
  (240 <= dcs < 248).

(** [deliver_ud hdr coding text udl ud]: user data of a delivered message, with
    the header elements if there is a header. *)
Inductive deliver_ud : option (list element) -> Z -> list Z -> Z -> list Z -> Prop :=
| dud_plain coding text udl ud :
    single_ud coding text udl ud -> deliver_ud None coding text udl ud
| dud_gsm els text g ud :
    let hd := Z.of_nat (length (serial els)) :: serial els in
    let hs := header_septets (Z.of_nat (length hd)) in
    Forall element_ok els -> gsm_text text g ->
    hs + Z.of_nat (length g) <= 160 -> packed_with_header hd g ud ->
    deliver_ud (Some els) 0 text (hs + Z.of_nat (length g)) ud
| dud_8bit els text :
    let hd := Z.of_nat (length (serial els)) :: serial els in
    Forall element_ok els -> Forall octet text ->
    Z.of_nat (length (hd ++ text)) <= 140 ->
    deliver_ud (Some els) 4 text (Z.of_nat (length (hd ++ text))) (hd ++ text)
| dud_ucs2 els text :
    let hd := Z.of_nat (length (serial els)) :: serial els in
    Forall element_ok els -> Forall unit16 text ->
    Z.of_nat (length (hd ++ be16 text)) <= 140 ->
    deliver_ud (Some els) 8 text (Z.of_nat (length (hd ++ be16 text))) (hd ++ be16 text).

(** * PDUs *)

(** The octets of an SMS-DELIVER (9.2.2.1): service centre, first octet, sender,
    protocol identifier, coding scheme, time stamp and zone, user data. *)
Definition deliver_octets (sc : list Z) (fo : Z) (oa : list Z) (pid dcs : Z)
    (ts : list Z) (oz udl : Z) (ud : list Z) : list Z :=
  sc ++ [fo] ++ oa ++ [pid; dcs] ++ ts ++ [oz; udl] ++ ud.

(** The octets of an SMS-STATUS-REPORT (9.2.2.3): service centre, first octet,
    message reference, recipient, time stamp, discharge time, status; optional
    parameters may follow. *)
Definition report_octets (sc : list Z) (fo mr : Z) (ra ts1 : list Z) (oz1 : Z)
    (ts2 : list Z) (oz2 st : Z) (more : list Z) : list Z :=
  sc ++ [fo; mr] ++ ra ++ ts1 ++ [oz1] ++ ts2 ++ [oz2; st] ++ more.

(** User data header indicator and message type of the first octet. *)
Definition udhi (fo : Z) : bool := Z.odd (fo / 64).
Definition message_type (fo : Z) : Z := fo mod 4.

(** [delivers coding hdr udl ud o]: [o] is some SMS-DELIVER from a number or a
    name with the given coding, header indicator and user data.  The field of a name
    has 12 octets at most. *)
Definition delivers (coding : Z) (hdr : bool) (udl : Z) (ud o : list Z) : Prop :=
  exists smsc sc fo name snd oa pid dcs ts t oz,
    smsc_field smsc sc /\ message_type fo = 0 /\ udhi fo = hdr /\
    sender_field name snd oa /\ (name = true -> Z.of_nat (length oa) <= 12) /\
    common_scheme dcs /\ alphabet dcs = Some coding /\
    stamp ts t /\ o = deliver_octets sc fo oa pid dcs ts oz udl ud.

(** [yy/mm/dd hh:mm:ss] as the digits stand in the time stamp. *)
Definition stamp_text (ts : list Z) : list Z :=
  let p o := [48 + o mod 16; 48 + o / 16] in
  match ts with
  | [oy; om; od; oh; oi; os] =>
      p oy ++ [47] ++ p om ++ [47] ++ p od ++ [32] ++ p oh ++ [58] ++ p oi ++ [58] ++ p os
  | _ => []
  end.
