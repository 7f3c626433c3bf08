(** Model of messaging/sms/deliver.py. *)
From Verif Require Import Py Utils Gsm Udh.
Open Scope Z_scope.

(** * The calendar of [datetime] (standard library) *)

(** [calendar.isleap]. *)
Definition is_leap (y : Z) : bool :=
  (y mod 4 =? 0) && (negb (y mod 100 =? 0) || (y mod 400 =? 0)).

Definition days_in_month (y m : Z) : Z :=
  if m =? 2 then (if is_leap y then 29 else 28)
  else if (m =? 4) || (m =? 6) || (m =? 9) || (m =? 11) then 30 else 31.

(** Days in the months before month [m]. *)
Definition days_before_month (y m : Z) : Z :=
  nth (Z.to_nat (m - 1)) [0; 31; 59; 90; 120; 151; 181; 212; 243; 273; 304; 334] 0
  + (if (2 <? m) && is_leap y then 1 else 0).

(** Days before January 1st of year [y], counted from year 1. *)
Definition days_before_year (y : Z) : Z :=
  let y := y - 1 in y * 365 + y / 4 - y / 100 + y / 400.

(** A naive [datetime] value is the number of seconds since 1970-01-01 00:00:00
    (ordinal 719163). *)
Definition epoch_seconds (y m d hh mm ss : Z) : Z :=
  (days_before_year y + days_before_month y m + d - 719163) * 86400
  + hh * 3600 + mm * 60 + ss.

(** Two decimal digit characters, as the strptime directives read them. *)
Definition two_digits (a b : Z) : option Z :=
  if ((48 <=? a) && (a <=? 57)) && ((48 <=? b) && (b <=? 57))
  then Some ((a - 48) * 10 + (b - 48)) else None.

(** [datetime.strptime("%s%s/%s%s/%s%s %s%s:%s%s:%s%s" % tuple(date),
    '%y/%m/%d %H:%M:%S')]: TypeError unless there are twelve characters,
    ValueError unless they form a date and time.  The two-digit year is in
    1969..2068. *)
Definition strptime (date : list Z) : res Z :=
  match date with
  | [y1; y2; m1; m2; d1; d2; h1; h2; n1; n2; s1; s2] =>
      match two_digits y1 y2, two_digits m1 m2, two_digits d1 d2,
            two_digits h1 h2, two_digits n1 n2, two_digits s1 s2 with
      | Some y, Some m, Some d, Some hh, Some mm, Some ss =>
          let y := if y <=? 68 then 2000 + y else 1900 + y in
          if (1 <=? m) && (m <=? 12) && (1 <=? d) && (d <=? days_in_month y m)
             && (hh <=? 23) && (mm <=? 59) && (ss <=? 59)
          then Ok (epoch_seconds y m d hh mm ss)
          else Err ValueError
      | _, _, _, _, _, _ => Err ValueError
      end
  | _ => Err TypeError
  end.

(** ["%s%s/%s%s/%s%s %s%s:%s%s:%s%s" % tuple(date)] for twelve characters. *)
Definition date_str (date : list Z) : list Z :=
  match date with
  | [y1; y2; m1; m2; d1; d2; h1; h2; n1; n2; s1; s2] =>
      [y1; y2; 47; m1; m2; 47; d1; d2; 32; h1; h2; 58; n1; n2; 58; s1; s2]
  | _ => []
  end.

(** * The object *)

(** deliver.py 258-263: the [sr] dictionary. *)
Record sreport := SReport {
  sr_recipient : list Z; sr_scts : option Z; sr_dt : option Z;
  sr_status : option Z }.

(** deliver.py 16-24 and base.py 6-14: the attributes of [SmsDeliver].  Texts
    are the codes of their characters (str for 8-bit data, unicode otherwise);
    dates are seconds since 1970. *)
Record deliver := Deliver {
  d_strict : bool;
  d_pdu : option (list Z);
  d_udh : option udh;
  d_number : option (list Z);
  d_text : option (list Z);
  d_fmt : option Z;
  d_dcs : option Z;
  d_pid : option Z;
  d_csca : option (list Z);
  d_type : option Z;
  d_date : option Z;
  d_mtype : option Z;
  d_sr : option sreport }.

(** deliver.py 16-22: the object before the pdu is assigned. *)
Definition deliver0 (strict : bool) : deliver :=
  Deliver strict None None None None None None None None None None None None.

(** Attribute assignments. *)
Definition set_d_pdu v o := Deliver (d_strict o) v (d_udh o) (d_number o)
  (d_text o) (d_fmt o) (d_dcs o) (d_pid o) (d_csca o) (d_type o) (d_date o)
  (d_mtype o) (d_sr o).
Definition set_d_udh v o := Deliver (d_strict o) (d_pdu o) v (d_number o)
  (d_text o) (d_fmt o) (d_dcs o) (d_pid o) (d_csca o) (d_type o) (d_date o)
  (d_mtype o) (d_sr o).
Definition set_d_number v o := Deliver (d_strict o) (d_pdu o) (d_udh o) v
  (d_text o) (d_fmt o) (d_dcs o) (d_pid o) (d_csca o) (d_type o) (d_date o)
  (d_mtype o) (d_sr o).
Definition set_d_text v o := Deliver (d_strict o) (d_pdu o) (d_udh o)
  (d_number o) v (d_fmt o) (d_dcs o) (d_pid o) (d_csca o) (d_type o) (d_date o)
  (d_mtype o) (d_sr o).
Definition set_d_fmt v o := Deliver (d_strict o) (d_pdu o) (d_udh o)
  (d_number o) (d_text o) v (d_dcs o) (d_pid o) (d_csca o) (d_type o) (d_date o)
  (d_mtype o) (d_sr o).
Definition set_d_dcs v o := Deliver (d_strict o) (d_pdu o) (d_udh o)
  (d_number o) (d_text o) (d_fmt o) v (d_pid o) (d_csca o) (d_type o) (d_date o)
  (d_mtype o) (d_sr o).
Definition set_d_pid v o := Deliver (d_strict o) (d_pdu o) (d_udh o)
  (d_number o) (d_text o) (d_fmt o) (d_dcs o) v (d_csca o) (d_type o) (d_date o)
  (d_mtype o) (d_sr o).
Definition set_d_csca v o := Deliver (d_strict o) (d_pdu o) (d_udh o)
  (d_number o) (d_text o) (d_fmt o) (d_dcs o) (d_pid o) v (d_type o) (d_date o)
  (d_mtype o) (d_sr o).
Definition set_d_type v o := Deliver (d_strict o) (d_pdu o) (d_udh o)
  (d_number o) (d_text o) (d_fmt o) (d_dcs o) (d_pid o) (d_csca o) v (d_date o)
  (d_mtype o) (d_sr o).
Definition set_d_date v o := Deliver (d_strict o) (d_pdu o) (d_udh o)
  (d_number o) (d_text o) (d_fmt o) (d_dcs o) (d_pid o) (d_csca o) (d_type o) v
  (d_mtype o) (d_sr o).
Definition set_d_mtype v o := Deliver (d_strict o) (d_pdu o) (d_udh o)
  (d_number o) (d_text o) (d_fmt o) (d_dcs o) (d_pid o) (d_csca o) (d_type o)
  (d_date o) v (d_sr o).
Definition set_d_sr v o := Deliver (d_strict o) (d_pdu o) (d_udh o) (d_number o)
  (d_text o) (d_fmt o) (d_dcs o) (d_pid o) (d_csca o) (d_type o) (d_date o)
  (d_mtype o) v.

(** Run an effect on an attribute. *)
Definition assign (f : deliver -> deliver) : ST deliver unit := st_upd f.

(** deliver.py 101-104 and 194-197: address length in octets;
    [int(n / 2.0)] of an even non-negative number. *)
Definition addr_octets (sndlen : Z) : Z :=
  (if negb (sndlen mod 2 =? 0) then sndlen + 1 else sndlen) / 2.

(** deliver.py 168-170: [while headlen % 7: headlen += 1], with fuel. *)
Fixpoint round_up7 (fuel : nat) (h : Z) : Z :=
  match fuel with
  | O => h
  | S f => if negb (h mod 7 =? 0) then round_up7 f (h + 1) else h
  end.

(** deliver.py 185-187: pairs of octets as 16-bit characters. *)
Fixpoint ucs2_chars (l : list Z) : res (list Z) :=
  match l with
  | [] => Ok []
  | [_] => Err IndexError
  | a :: b :: r =>
      n <- py_int 16 (py_upper (hex02 a) ++ py_upper (hex02 b)) ;;
      u <- py_unichr n ;;
      rest <- ucs2_chars r ;;
      Ok (u :: rest)
  end.

(** deliver.py 156-187: [_process_message].  [mtype] and [fmt] were just set by
    [_set_pdu] and are passed as arguments. *)
Definition process_message (mtype fmt : Z) (data : list Z) : ST deliver unit :=
  '(msgl, data) <~ st_lift (pop0 data) ;;
  let msg := encode_bytes (py_to data msgl) in
  '(headlen, ud_len, data) <~
    (if negb (Z.land mtype 64 =? 0) then
       '(ud_len, data) <~ st_lift (pop0 data) ;;
       u <~ st_lift (from_bytes (py_to data ud_len)) ;;
       _ <~ assign (set_d_udh (Some u)) ;;
       let headlen := (ud_len + 1) * 8 in
       let headlen := if fmt =? 0 then round_up7 7 headlen / 7 else headlen in
       st_ret (headlen, ud_len, data)
     else st_ret (0, 0, data)) ;;
  if fmt =? 0 then
    t <~ st_lift (unpack_msg msg) ;;
    t <~ st_lift (gsm_decode (py_slice t headlen msgl)) ;;
    assign (set_d_text (Some t))
  else if fmt =? 4 then
    assign (set_d_text (Some (py_from data ud_len)))
  else if fmt =? 8 then
    t <~ st_lift (ucs2_chars (py_from data ud_len)) ;;
    assign (set_d_text (Some t))
  else st_ret tt.

(** deliver.py 207-212 and 217-223: a time stamp of a status report; the
    exceptions caught are ValueError and TypeError. *)
Definition report_date (octets : list Z) : list Z * option Z :=
  let date := py_to (swap (encode_bytes octets)) 12 in
  match strptime date with
  | Ok t => (date_str date, Some t)
  | Err _ => ([], None)
  end.

(** deliver.py 191-263: [_decode_status_report_pdu]. *)
Definition decode_status_report_pdu (data : list Z) : ST deliver unit :=
  '(ref, data) <~ st_lift (pop0 data) ;;
  _ <~ assign (set_d_udh (Some (from_status_report_ref ref))) ;;
  '(sndlen, data) <~ st_lift (pop0 data) ;;
  let sndlen := addr_octets sndlen in
  '(sndtype, data) <~ st_lift (pop0 data) ;;
  let recipient := swap_number (encode_bytes (py_to data sndlen)) in
  let recipient := if Z.land (Z.shiftr sndtype 4) 7 =? 1 then 43 :: recipient
                   else recipient in
  let data := py_from data sndlen in
  let '(scts_str, scts) := report_date (py_to data 7) in
  _ <~ (match scts with
        | Some t => assign (set_d_date (Some t))
        | None => st_ret tt
        end) ;;
  let data := py_from data 7 in
  let '(dt_str, dt) := report_date (py_to data 7) in
  let data := py_from data 7 in
  let '(status, third, sender) :=
    match pop0 data with
    | Err _ => (None, dt_str, str "SR-UNKNOWN")
    | Ok (st, _) =>
        (Some st,
         (if st =? 0 then dt_str else []),
         (if st =? 0 then str "SR-OK"
          else if st =? 1 then str "SR-UNKNOWN"
          else if st =? 48 then str "SR-STORED"
          else str "SR-UNKNOWN"))
    end in
  _ <~ assign (set_d_number (Some sender)) ;;
  _ <~ assign (set_d_text
         (Some (recipient ++ str "|" ++ scts_str ++ str "|" ++ third))) ;;
  _ <~ assign (set_d_fmt (Some 8)) ;;
  _ <~ assign (set_d_type (Some 3)) ;;
  o <~ st_get ;;
  assign (set_d_sr (Some (SReport recipient (d_date o) dt status))).

(** deliver.py 123-128: the coding from the data coding scheme. *)
Definition fmt_of_dcs (dcs : Z) : Z :=
  if Z.land dcs (Z.lor 4 8) =? 0 then 0
  else if negb (Z.land dcs 4 =? 0) then 4 else 8.

(** deliver.py 141-143: minutes from the time zone octet. *)
Definition tz_minutes (tz : Z) : Z :=
  let offset := (Z.land tz 7 * 10 + Z.shiftr (Z.land tz 240) 4) * 15 in
  if negb (Z.land tz 8 =? 0) then offset * -1 else offset.

(** deliver.py 106-116: the sender. *)
Definition sender_of (sndtype : Z) (octets : list Z) : res (list Z) :=
  if sndtype =? 5 then gsm_decode (unpack_msg2 octets)
  else
    let s := swap_number (encode_bytes octets) in
    Ok (if sndtype =? 1 then 43 :: s else s).

(** deliver.py 70-80: the service centre address; returns the octets after it. *)
Definition decode_smsc (data : list Z) : ST deliver (list Z) :=
  '(smscl, data) <~ st_lift (pop0 data) ;;
  if 0 <? smscl then
    '(smscertype, data) <~ st_lift (pop0 data) ;;
    let smscl := smscl - 1 in
    let csca := swap_number (encode_bytes (py_to data smscl)) in
    _ <~ assign (set_d_csca (Some csca)) ;;
    _ <~ (if Z.land (Z.shiftr smscertype 4) 7 =? 1
          then assign (set_d_csca (Some (43 :: csca))) else st_ret tt) ;;
    st_ret (py_from data smscl)
  else
    _ <~ assign (set_d_csca None) ;; st_ret data.

(** deliver.py 101-154: the part of [_set_pdu] for an SMS-DELIVER, from the
    sender on. *)
Definition decode_deliver (mtype : Z) (data : list Z) : ST deliver unit :=
  '(sndlen, data) <~ st_lift (pop0 data) ;;
  let sndlen := addr_octets sndlen in
  '(t, data) <~ st_lift (pop0 data) ;;
  let sndtype := Z.land (Z.shiftr t 4) 7 in
  sender <~ st_lift (sender_of sndtype (py_to data sndlen)) ;;
  _ <~ assign (set_d_number (Some sender)) ;;
  let data := py_from data sndlen in
  '(pid, data) <~ st_lift (pop0 data) ;;
  _ <~ assign (set_d_pid (Some pid)) ;;
  '(dcs, data) <~ st_lift (pop0 data) ;;
  _ <~ assign (set_d_dcs (Some dcs)) ;;
  let fmt := fmt_of_dcs dcs in
  _ <~ assign (set_d_fmt (Some fmt)) ;;
  let date := swap (encode_bytes (py_to data 6)) in
  let data := py_from data 6 in
  '(tz, data) <~ st_lift (pop0 data) ;;
  local <~ st_lift (strptime date) ;;
  _ <~ assign (set_d_date (Some (local - tz_minutes tz * 60))) ;;
  process_message mtype fmt data.

(** deliver.py 55-154: [_set_pdu]. *)
Definition set_pdu (pdu : list Z) : ST deliver unit :=
  o <~ st_get ;;
  let pdu := if negb (d_strict o) && negb (zlen pdu mod 2 =? 0)
             then removelast pdu else pdu in
  if negb (zlen pdu mod 2 =? 0) then st_err ValueError
  else
    _ <~ assign (set_d_pdu (Some pdu)) ;;
    data <~ st_lift (to_array pdu) ;;
    data <~ decode_smsc data ;;
    '(mtype, data) <~ st_lift (pop0 data) ;;
    _ <~ assign (set_d_mtype (Some mtype)) ;;
    let mt := Z.land mtype 3 in
    if mt =? 2 then decode_status_report_pdu data
    else if mt =? 1 then st_err ValueError
    else decode_deliver mtype data.

(** deliver.py 16-24: [SmsDeliver(pdu, strict)]. *)
Definition new_deliver (pdu : list Z) (strict : bool) : res deliver :=
  match set_pdu pdu (deliver0 strict) with
  | (Ok _, o) => Ok o
  | (Err e, _) => Err e
  end.

(** deliver.py 45-51: the three extra keys of [data], if present. *)
Definition concat_data (o : deliver) : option (Z * Z * Z) :=
  match d_udh o with
  | Some u => match h_concat u with
              | Some c => Some (c_ref c, c_cnt c, c_seq c)
              | None => None
              end
  | None => None
  end.
