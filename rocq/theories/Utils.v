(** Model of messaging/utils.py. *)
From Verif Require Import Py.
Open Scope Z_scope.

(** * Time values *)

(** [datetime.timedelta]: a number of microseconds.  Python keeps it normalised
    as days, [0 <= seconds < 86400], [0 <= microseconds < 10^6]; the attributes
    are recovered by floor division. *)
Definition timedelta := Z.
Definition us_sec : Z := 1000000.
Definition us_day : Z := 86400 * us_sec.
Definition td_minutes (m : Z) : timedelta := m * 60 * us_sec.
Definition td_hours (h : Z) : timedelta := h * 3600 * us_sec.
Definition td_of_days (d : Z) : timedelta := d * us_day.
Definition td_weeks (w : Z) : timedelta := w * 7 * us_day.
(** Attributes [t.days] and [t.seconds]. *)
Definition td_days (t : timedelta) : Z := t / us_day.
Definition td_seconds (t : timedelta) : Z := (t mod us_day) / us_sec.

(** [datetime.datetime] with an optional fixed UTC offset in minutes, which
    Python 2 requires to be within (-1440, 1440).  Microseconds are left out:
    no modelled function reads them. *)
Record datetime := Datetime {
  dt_year : Z; dt_month : Z; dt_day : Z;
  dt_hour : Z; dt_minute : Z; dt_second : Z;
  dt_offset : option Z }.

(** utils.py 18-35: [FixedOffset.from_timezone(tz_str, name).offset].  The name
    is not observable through the offset and is left out. *)
Definition from_timezone (tz : list Z) : res timedelta :=
  match tz with
  | [] => Ok 0
  | _ =>
      let sign := if existsb (Z.eqb 43) tz then 1 else -1 in
      let offset := filter (fun c => negb ((c =? 43) || (c =? 45))) tz in
      hours <- py_int 10 (py_to offset 2) ;;
      minutes <- py_int 10 (py_from offset 2) ;;
      let minutes := minutes + hours * 60 in
      if sign =? 1 then Ok (td_minutes minutes)
      else Ok (td_of_days (-1) + td_minutes minutes)
  end.

(** * Hexadecimal and number helpers *)

(** utils.py 54-55: [to_array].  [array('B', l)] raises OverflowError for an
    element outside 0..255, after the whole list has been computed. *)
Definition to_array (pdu : list Z) : res (list Z) :=
  l <- mapM (py_int 16) (chunks2 pdu) ;;
  if forallb (fun b => (0 <=? b) && (b <? 256)) l then Ok l
  else Err OverflowError.

(** utils.py 71-77: [swap]. *)
Fixpoint swap {A} (s : list A) : list A :=
  match s with
  | a :: b :: r => b :: a :: swap r
  | l => l
  end.

(** utils.py 80-82: [swap_number]; the character 'f' is 102. *)
Definition swap_number (n : list Z) : list Z :=
  swap (filter (fun c => negb (c =? 102)) n).

(** utils.py 85-86: [clean_number]. *)
Definition clean_number (n : list Z) : list Z :=
  filter (fun c => negb (c =? 32)) (py_strip n).

(** utils.py 89-91: [encode_str] on the codes of the characters. *)
Definition encode_str (s : list Z) : list Z := concat (map hex02 s).

(** utils.py 94-95: [encode_bytes]. *)
Definition encode_bytes (b : list Z) : list Z := concat (map hex02 b).

(** * Packing *)

(** utils.py 109-117 and 129-137: the packing loop.  [k] iterations remain, [n]
    is the loop variable. *)
Fixpoint pack_loop (txt : list Z) (k : nat) (n c shift : Z) : res (list Z) :=
  match k with
  | O => Ok []
  | S k' =>
      let c := if shift =? 6 then c + 1 else c in
      let shift := n mod 7 in
      x <- py_index txt c ;;
      y <- py_index txt (c + 1) ;;
      let lb := Z.shiftr x shift in
      let hb := Z.land (Z.shiftl y (7 - shift)) 255 in
      rest <- pack_loop txt k' (n + 1) (c + 1) shift ;;
      Ok (lb + hb :: rest)
  end.

(** utils.py 139-140: [for i, char in enumerate(udh): op[i] = ord(char)]. *)
Fixpoint overwrite (op udh : list Z) : res (list Z) :=
  match udh, op with
  | [], _ => Ok op
  | _ :: _, [] => Err IndexError
  | u :: udh', _ :: op' => r <- overwrite op' udh' ;; Ok (u :: r)
  end.

(** utils.py 98-144: [pack_8bits_to_7bits].  Both branches share the loop; the
    result is the hexadecimal string. *)
Definition pack_8bits_to_7bits (message : list Z) (udh : option (list Z))
  : res (list Z) :=
  let txt := match udh with
             | None => message
             | Some _ => [0; 0; 0; 0; 0; 0] ++ message
             end in
  let tl := zlen txt in
  let txt := txt ++ [0] in
  let msgl := zlen txt * 7 / 8 in
  op <- pack_loop txt (Z.to_nat msgl) 0 0 0 ;;
  op <- match udh with None => Ok op | Some u => overwrite op u end ;;
  c <- py_chr tl ;;
  cs <- mapM py_chr op ;;
  Ok (encode_str (c :: cs)).

(** utils.py 147-154: [pack_8bits_to_8bit].  The [udh] argument only enters the
    length. *)
Definition pack_8bits_to_8bit (message : pystr) (udh : option pystr)
  : res (list Z) :=
  text <- match udh with None => Ok message | Some u => pystr_add u message end ;;
  let mlen := zlen (chars text) in
  c <- py_chr mlen ;;
  m <- pystr_add (PyStr false [c]) message ;;
  Ok (encode_str (chars m)).

(** utils.py 165-166: two octets per character. *)
Definition ucs2_char (n : Z) : res (list Z) :=
  a <- py_chr (Z.shiftr n 8) ;;
  b <- py_chr (Z.land n 255) ;;
  Ok [a; b].

(** utils.py 157-170: [pack_8bits_to_ucs2]. *)
Definition pack_8bits_to_ucs2 (message : pystr) (udh : option pystr)
  : res (list Z) :=
  text <- match udh with None => Ok message | Some u => pystr_add u message end ;;
  nmesg <- mapM ucs2_char (chars text) ;;
  let mlen := zlen (chars text) * 2 in
  c <- py_chr mlen ;;
  Ok (encode_str (c :: concat nmesg)).

(** * Unpacking *)

(** utils.py 204-217: the unpacking loop on bytes; [len] is [len(result)]. *)
Fixpoint unpack_loop (l : list Z) (count last len : Z) : list Z :=
  match l with
  | [] => []
  | byte :: r =>
      let mask := Z.shiftr 127 count in
      let out := Z.shiftl (Z.land byte mask) count + last in
      let last := Z.shiftr byte (7 - count) in
      if 160 <=? len + 1 then [out]
      else if count =? 6 then
        out :: last :: unpack_loop r ((count + 1) mod 7) 0 (len + 2)
      else out :: unpack_loop r ((count + 1) mod 7) last (len + 1)
  end.

(** utils.py 198-219: [unpack_msg2]; [to_bytes] (58-62) maps each septet to the
    unicode character of the same code, so codes are returned. *)
Definition unpack_msg2 (l : list Z) : list Z := unpack_loop l 0 0 0.

(** utils.py 179-193: the same loop parsing each byte from two characters. *)
Fixpoint unpack_hex_loop (l : list (list Z)) (count last len : Z)
  : res (list Z) :=
  match l with
  | [] => Ok []
  | h :: r =>
      byte <- py_int 16 h ;;
      let mask := Z.shiftr 127 count in
      let out := Z.shiftl (Z.land byte mask) count + last in
      let last := Z.shiftr byte (7 - count) in
      if 160 <=? len + 1 then Ok [out]
      else if count =? 6 then
        rest <- unpack_hex_loop r ((count + 1) mod 7) 0 (len + 2) ;;
        Ok (out :: last :: rest)
      else
        rest <- unpack_hex_loop r ((count + 1) mod 7) last (len + 1) ;;
        Ok (out :: rest)
  end.

(** utils.py 173-195: [unpack_msg]. *)
Definition unpack_msg (pdu : list Z) : res (list Z) :=
  unpack_hex_loop (chunks2 pdu) 0 0 0.

(** * Validity periods *)

(** utils.py 222-250: [timedelta_to_relative_validity].  [None] is the implicit
    return value after the last [if]. *)
Definition timedelta_to_relative_validity (t : timedelta) : res (option Z) :=
  if t <? td_minutes 5 then Err ValueError
  else if td_weeks 63 <? t then Err ValueError
  else if t <=? td_hours 12 then Ok (Some (td_seconds t / (60 * 5) - 1))
  else if t <=? td_hours 24 then
    let t := t - td_hours 12 in
    Ok (Some (td_seconds t / (60 * 30) + 143))
  else if t <=? td_of_days 30 then Ok (Some (td_days t + 166))
  else if t <=? td_weeks 63 then Ok (Some (td_days t / 7 + 192))
  else Ok None.

(** [d.strftime("%z")]: empty for a naive datetime. *)
Definition strftime_z (off : option Z) : list Z :=
  match off with
  | None => []
  | Some m =>
      let a := Z.abs m in
      (if m <? 0 then 45 else 43) :: dec02 (a / 60) ++ dec02 (a mod 60)
  end.

(** utils.py 253-267: [datetime_to_absolute_validity].  Python 2's [strftime]
    raises ValueError before 1900. *)
Definition datetime_to_absolute_validity (d : datetime) : res (list Z) :=
  if dt_year d <? 1900 then Err ValueError
  else
    offset <- from_timezone (strftime_z (dt_offset d)) ;;
    let s := dec02 (td_seconds offset / (60 * 15)) in
    s <- (if td_days offset <? 0 then
            a <- py_index s 0 ;; b <- py_index s 1 ;;
            a <- py_int 10 [a] ;; b <- py_int 10 [b] ;;
            Ok (hex02 (Z.lor (Z.lor (Z.shiftl a 4) b) 128))
          else Ok s) ;;
    let n := [dec02 (dt_year d mod 100); dec02 (dt_month d); dec02 (dt_day d);
              dec02 (dt_hour d); dec02 (dt_minute d); dec02 (dt_second d); s] in
    mapM (fun c => py_int 16 (rev c)) n.
