(** What [SmsSubmit.to_pdu] returns (C124): the text of every PDU with its length, number
    and count.  Only the attributes of the message are used, none of the functions of the
    model. *)
From Verif Require Import Py Utils Submit SpecGsm SpecPack SpecAddress SpecTime SpecSubmit SpecCuts SpecUnsent.
Open Scope Z_scope.

(** * The octets before the user data *)

(** The service centre: its length in octets, the type, the digits. *)
Inductive centre_written (csca : option (list Z)) : list Z -> Prop :=
| cw_none : csca = None \/ csca = Some [] -> centre_written csca [0]
| cw_number n intl ds os : csca = Some n -> number_syntax intl ds n ->
    semi_octets (map digit_value ds) os ->
    centre_written csca (1 + Z.of_nat (length os) :: address_type intl :: os).

(** The destination: the number of digits, the type, the digits. *)
Inductive destination_written (number : option (list Z)) : list Z -> Prop :=
| dw_number n intl ds os : number = Some n -> number_syntax intl ds n ->
    semi_octets (map digit_value ds) os ->
    destination_written number (Z.of_nat (length ds) :: address_type intl :: os).

(** Submit, the validity format, the request for a status report, the header. *)
Definition first_written (s : submit) (several : bool) : Z :=
  1 + match s_validity s with NoValidity => 0 | Relative _ => 16 | Absolute _ => 24 end
    + (if s_request_status s then 32 else 0) + (if several then 64 else 0).

(** Two decimal digits, the first in the low half. *)
Definition swapped_decimal (n : Z) : Z := n / 10 + 16 * (n mod 10).
(** The offset from UTC, in minutes, as quarters of an hour; bit 3 is the sign, and for
    twenty hours and more part of the number as well. *)
Definition zone_written (m : Z) : Z :=
  let q := Z.abs m / 15 in
  16 * (q mod 10) + q / 10 + (if (m <? 0) && (q <? 80) then 8 else 0).

Inductive validity_written : validity -> list Z -> Prop :=
| vw_none : validity_written NoValidity []
| vw_relative t o : octet o -> relative_period o * 1000000 <= t ->
    (forall o', octet o' -> relative_period o' * 1000000 <= t -> o' <= o) ->
    validity_written (Relative t) [o]
| vw_absolute d : validity_written (Absolute d)
    [swapped_decimal (dt_year d mod 100); swapped_decimal (dt_month d); swapped_decimal (dt_day d);
     swapped_decimal (dt_hour d); swapped_decimal (dt_minute d); swapped_decimal (dt_second d);
     zone_written (match dt_offset d with Some m => m | None => 0 end)].

(** The references that will be drawn: those left, then 0 to 254. *)
Definition to_draw (s : submit) : list Z := s_id_list s ++ map Z.of_nat (seq 0 255).
Definition reference_written (s : submit) : Z :=
  match s_ref s with Some r => r mod 256 | None => nth 0 (to_draw s) 0 end.
Definition part_reference (s : submit) : Z :=
  match s_rand_id s with
  | Some r => r mod 256
  | None => match s_ref s with Some _ => nth 0 (to_draw s) 0 | None => nth 1 (to_draw s) 0 end
  end.

Inductive front_written (s : submit) (several : bool) (coding : Z) : list Z -> list Z -> Prop :=
| front_is centre dest vp :
    centre_written (s_csca s) centre -> destination_written (s_number s) dest ->
    validity_written (s_validity s) vp ->
    front_written s several coding centre
      ([first_written s several; reference_written s] ++ dest ++
       [s_pid s; dcs_octet coding (s_klass s)] ++ vp).

(** * The user data, with its length in front, in hexadecimal notation *)

(** A number in base 16, in two digits or more. *)
Definition base16 (ds : list Z) : Z := fold_left (fun a d => 16 * a + d) ds 0.
Inductive in_hex (n : Z) : list Z -> Prop :=
| hex_is ds : Forall (fun d => 0 <= d < 16) ds -> base16 ds = n ->
    length ds = 2%nat \/ ((2 < length ds)%nat /\ hd 0 ds <> 0) ->
    in_hex n (map hex_digit_upper ds).

(** Of a message in one PDU. *)
Inductive data_written (text : list Z) : Z -> list Z -> Prop :=
| data_gsm g ud : gsm_text text g -> (length g <= 160)%nat -> packed g ud ->
    data_written text 0 (hex_upper (Z.of_nat (length g) :: ud))
| data_8bit hs : (length text <= 140)%nat -> Forall2 in_hex text hs ->
    data_written text 4 (hex_upper [Z.of_nat (length text)] ++ concat hs)
| data_ucs2 : (length text <= 70)%nat -> Forall unit16 text ->
    data_written text 8 (hex_upper (2 * Z.of_nat (length text) :: be16 text)).

(** The parts of a longer one. *)
Inductive cut_into (text : list Z) : Z -> list (list Z) -> Prop :=
| cut_gsm g parts : gsm_text text g -> (160 < length g)%nat -> Cuts 153 g parts -> cut_into text 0 parts
| cut_8bit parts : (140 < length text)%nat -> Cuts 134 text parts -> cut_into text 4 parts
| cut_ucs2 parts : (70 < length text)%nat -> Cuts 67 text parts -> cut_into text 8 parts.

(** Of a part.  In 8 bits there is no header, and the length is three too large. *)
Inductive part_user_data (ref total i : Z) (part : list Z) : Z -> list Z -> Prop :=
| pd_gsm ud : packed_with_header (concat_header ref total i) part ud ->
    part_user_data ref total i part 0 (hex_upper (7 + Z.of_nat (length part) :: ud))
| pd_8bit hs : Forall2 in_hex part hs ->
    part_user_data ref total i part 4 (hex_upper [3 + Z.of_nat (length part)] ++ concat hs)
| pd_ucs2 : Forall unit16 part ->
    part_user_data ref total i part 8
      (hex_upper (6 + 2 * Z.of_nat (length part) :: concat_header ref total i ++ be16 part)).

(** * The PDUs *)

(** The octets of the notation [centre ++ front ++ data]; the length is that of all but
    the service centre, half the number of digits. *)
Definition pdu_with (centre front data : list Z) (cnt seq : Z) : pdu :=
  Pdu (hex_upper (centre ++ front) ++ data)
      (Z.of_nat (length (hex_upper (centre ++ front) ++ data)) / 2 - Z.of_nat (length centre)) cnt seq.

Inductive pdus_written (s : submit) : list pdu -> Prop :=
| pdus_one coding centre front data :
    sent_in s coding -> front_written s false coding centre front ->
    data_written (chars (s_text s)) coding data ->
    pdus_written s [pdu_with centre front data 1 1]
| pdus_several coding centre front parts pdus :
    sent_in s coding -> front_written s true coding centre front ->
    cut_into (chars (s_text s)) coding parts ->
    length pdus = length parts ->
    (forall k part p, nth_error parts k = Some part -> nth_error pdus k = Some p ->
       exists data, part_user_data (part_reference s) (Z.of_nat (length parts)) (1 + Z.of_nat k) part coding data /\
         p = pdu_with centre front data (Z.of_nat (length parts)) (1 + Z.of_nat k)) ->
    pdus_written s pdus.
