(** Model of the class [Decoder] of messaging/mms/wsp_pdu.py (lines 316-1402).

    Every decoder runs on a [PreviewIterator].  The iterator wraps an
    [array('B')] or a list of its elements, so its elements are octets and
    [chr(byte)] is the identity on codes.  [except DecodeError: raise
    DecodeError(...)] only changes the message of the exception, which is not
    represented, and is left out. *)
From Verif Require Import Py Iter Tables.
Open Scope Z_scope.

(** Values of content type parameters.  [PRatio n d] is the float nearest to the
    quotient n / d (wsp_pdu.py 1119-1122); rounding is not modelled.  [PDate] is
    a naive datetime given as seconds since 1970. *)
Inductive pval := PStr (s : list Z) | PInt (n : Z) | PRatio (n d : Z) | PDate (t : Z).

(** Values of headers: a plain value, a boolean, the pair of
    [decode_delivery_time_value], a content type with its parameter dictionary,
    or the pair of [decode_pragma_value]. *)
Inductive hval :=
| HP (v : pval)
| HBool (b : bool)
| HTime (kind : list Z) (n : Z)
| HType (media : list Z) (params : list (list Z * pval))
| HPragma (name : list Z) (v : pval).

Definition HStr (s : list Z) : hval := HP (PStr s).
Definition HInt (n : Z) : hval := HP (PInt n).
Definition HDate (t : Z) : hval := HP (PDate t).

(** Decimal digits of a non-negative integer: ["%d" % n] and [str(n)]. *)
Fixpoint dec_fuel (fuel : nat) (n : Z) (acc : list Z) : list Z :=
  match fuel with
  | O => acc
  | S f =>
      let acc := 48 + n mod 10 :: acc in
      if n / 10 =? 0 then acc else dec_fuel f (n / 10) acc
  end.
Definition py_dec (n : Z) : list Z := dec_fuel (S (Z.to_nat (Z.log2 n))) n [].

(** [xrange(n)] raises OverflowError above [sys.maxint] (64-bit build). *)
Definition maxint : Z := 9223372036854775807.
Definition xrange_check (n : Z) : ST piter unit :=
  if maxint <? n then st_err OverflowError else st_ret tt.

(** [[it.next() for i in xrange(n)]], with fuel. *)
Fixpoint read_loop (fuel : nat) (n : Z) : ST piter (list Z) :=
  if 0 <? n then
    match fuel with
    | O => st_err OutOfFuel
    | S f => b <~ next ;; l <~ read_loop f (n - 1) ;; st_ret (b :: l)
    end
  else st_ret [].
Definition read_n (n : Z) : ST piter (list Z) :=
  _ <~ xrange_check n ;; fuelled (fun f => read_loop f n).

(** wsp_pdu.py 320-334: [decode_uint_8]. *)
Definition decode_uint_8 : ST piter Z := b <~ next ;; st_ret (Z.land b 15).

(** wsp_pdu.py 357-364: the loop of [decode_uint_var]; [byte] was just read. *)
Fixpoint uint_var_loop (fuel : nat) (uint byte : Z) : ST piter Z :=
  let uint' := Z.lor (Z.shiftl uint 7) (Z.land byte 127) in
  if Z.shiftr byte 7 =? 1 then
    match fuel with
    | O => st_err OutOfFuel
    | S f => byte <~ next ;; uint_var_loop f uint' byte
    end
  else st_ret uint'.

(** wsp_pdu.py 337-364: [decode_uint_var]. *)
Definition decode_uint_var : ST piter Z :=
  byte <~ next ;; fuelled (fun f => uint_var_loop f 0 byte).

(** wsp_pdu.py 367-392: [decode_short_integer]. *)
Definition decode_short_integer : ST piter Z :=
  byte <~ preview ;;
  if Z.land byte 128 =? 0 then
    _ <~ reset_preview ;; st_err DecodeError
  else
    byte <~ next ;; st_ret (Z.land byte 127).

(** wsp_pdu.py 395-409: [decode_short_integer_from_byte]. *)
Definition decode_short_integer_from_byte (byte : Z) : res Z :=
  if Z.land byte 128 =? 0 then Err DecodeError else Ok (Z.land byte 127).

(** wsp_pdu.py 596-617: [decode_short_length]. *)
Definition decode_short_length : ST piter Z :=
  byte <~ preview ;;
  if 30 <? byte then _ <~ reset_preview ;; st_err DecodeError
  else next.

(** wsp_pdu.py 448-454: the octets of a long integer, most significant first. *)
Definition long_of (l : list Z) : Z :=
  fold_left (fun acc b => Z.lor (Z.shiftl acc 8) b) l 0.

(** wsp_pdu.py 412-454: [decode_long_integer]. *)
Definition decode_long_integer : ST piter Z :=
  n <~ decode_short_length ;;
  l <~ read_n n ;;
  st_ret (long_of l).

(** wsp_pdu.py 482-486 and 565-569: read up to the terminating zero, [byte]
    having been read. *)
Fixpoint text_loop (fuel : nat) (byte : Z) : ST piter (list Z) :=
  if byte =? 0 then st_ret []
  else match fuel with
       | O => st_err OutOfFuel
       | S f => b <~ next ;; l <~ text_loop f b ;; st_ret (byte :: l)
       end.

(** wsp_pdu.py 457-486: [decode_text_string]. *)
Definition decode_text_string : ST piter (list Z) :=
  byte <~ next ;;
  byte <~ (if byte =? 127 then next else st_ret byte) ;;
  fuelled (fun f => text_loop f byte).

(** wsp_pdu.py 489-511: [decode_quoted_string]. *)
Definition decode_quoted_string : ST piter (list Z) :=
  byte <~ preview ;;
  if negb (byte =? 34) then _ <~ reset_preview ;; st_err DecodeError
  else _ <~ next ;; decode_text_string.

(** wsp_pdu.py 523-524 and 1702-1703: [separators]. *)
Definition separators : list Z :=
  [11; 32; 40; 41; 44; 47; 58; 59; 60; 61; 62; 63; 64; 91; 92; 93; 123; 125].
Definition is_separator (b : Z) : bool := existsb (Z.eqb b) separators.
Definition token_char (b : Z) : bool := negb ((b <=? 31) || is_separator b).

(** wsp_pdu.py 532-536: the loop of [decode_token_text]. *)
Fixpoint token_loop (fuel : nat) (byte : Z) : ST piter (list Z) :=
  if token_char byte then
    match fuel with
    | O => st_err OutOfFuel
    | S f => b <~ next ;; l <~ token_loop f b ;; st_ret (byte :: l)
    end
  else st_ret [].

(** wsp_pdu.py 514-536: [decode_token_text]. *)
Definition decode_token_text : ST piter (list Z) :=
  byte <~ preview ;;
  if negb (token_char byte) then _ <~ reset_preview ;; st_err DecodeError
  else byte <~ next ;; fuelled (fun f => token_loop f byte).

(** wsp_pdu.py 539-569: [decode_extension_media]. *)
Definition decode_extension_media : ST piter (list Z) :=
  byte <~ preview ;;
  if (byte <? 32) || (byte =? 127) then _ <~ reset_preview ;; st_err DecodeError
  else byte <~ next ;; fuelled (fun f => text_loop f byte).

(** wsp_pdu.py 572-593: [decode_constrained_encoding]. *)
Definition decode_constrained_encoding : ST piter pval :=
  st_catch (n <~ decode_short_integer ;; st_ret (PInt n)) DecodeError
           (s <~ decode_extension_media ;; st_ret (PStr s)).

(** wsp_pdu.py 620-656: [decode_value_length]. *)
Definition decode_value_length : ST piter Z :=
  st_catch decode_short_length DecodeError
    (byte <~ preview ;;
     if byte =? 31 then _ <~ next ;; decode_uint_var
     else _ <~ reset_preview ;; st_err DecodeError).

(** wsp_pdu.py 659-689: [decode_integer_value]. *)
Definition decode_integer_value : ST piter Z :=
  st_catch decode_short_integer DecodeError decode_long_integer.

(** [well_known_content_types[value]] with IndexError turned into DecodeError
    (wsp_pdu.py 761-765 and 811-815); [value] is never negative. *)
Definition content_type_at (value : Z) : ST piter (list Z) :=
  if value <? zlen well_known_content_types
  then st_ret (nth (Z.to_nat value) well_known_content_types [])
  else st_err DecodeError.

(** wsp_pdu.py 725-765: [decode_well_known_media]. *)
Definition decode_well_known_media : ST piter (list Z) :=
  value <~ decode_integer_value ;; content_type_at value.

(** wsp_pdu.py 768-787: [decode_media_type]. *)
Definition decode_media_type : ST piter (list Z) :=
  st_catch decode_well_known_media DecodeError decode_extension_media.

(** wsp_pdu.py 790-817: [decode_constrained_media].  A constrained encoding is a
    str or an int. *)
Definition decode_constrained_media : ST piter (list Z) :=
  v <~ decode_constrained_encoding ;;
  match v with
  | PInt n => content_type_at n
  | PStr s => st_ret s
  | _ => st_err DecodeError
  end.

(** wsp_pdu.py 1067-1083: [decode_date_value].  [utcfromtimestamp] raises
    ValueError after 9999-12-31 23:59:59. *)
Definition decode_date_value : ST piter Z :=
  t <~ decode_long_integer ;;
  if t <=? 253402300799 then st_ret t else st_err ValueError.

(** wsp_pdu.py 1086-1099: [decode_delta_seconds_value]. *)
Definition decode_delta_seconds_value : ST piter Z := decode_integer_value.

(** [float(n)] of a large integer: from here on it would round to 2^1024, which
    is no double, and raises OverflowError. *)
Definition beyond_float (n : Z) : bool := 2 ^ 1024 - 2 ^ 970 <=? n.

(** wsp_pdu.py 1102-1122: [decode_q_value].  Rounding to a float is not
    modelled. *)
Definition decode_q_value : ST piter pval :=
  q <~ decode_uint_var ;;
  if 100 <? q then
    if beyond_float (q - 100) then st_err OverflowError
    else st_ret (PRatio (q - 100) 1000)
  else st_ret (PRatio (q - 1) 100).

(** wsp_pdu.py 1125-1143: [decode_version_value]. *)
Definition decode_version_value : ST piter (list Z) :=
  st_catch
    (b <~ decode_short_integer ;;
     let major := Z.shiftr (Z.land b 112) 4 in
     let minor := Z.land b 15 in
     st_ret (py_dec major ++ str "." ++ py_dec minor))
    DecodeError decode_text_string.

(** wsp_pdu.py 1146-1150: [decode_uri_value]. *)
Definition decode_uri_value : ST piter (list Z) := decode_text_string.

(** wsp_pdu.py 1153-1174: [decode_text_value]. *)
Definition decode_text_value : ST piter (list Z) :=
  st_catch decode_token_text DecodeError
    (st_catch decode_quoted_string DecodeError (st_ret [])).

(** wsp_pdu.py 1177-1194: [decode_no_value].  Unpacking the integer returned by
    [next] into two names raises TypeError. *)
Definition decode_no_value : ST piter Z :=
  _ <~ next ;; st_err TypeError.

(** wsp_pdu.py 1274-1300: [decode_well_known_charset]. *)
Definition decode_well_known_charset : ST piter (list Z) :=
  byte <~ preview ;;
  _ <~ reset_preview ;;
  if byte =? 127 then _ <~ next ;; st_ret (str "*")
  else
    v <~ decode_integer_value ;;
    st_ret (match d_get Z.eqb v well_known_charsets with
            | Some s => s
            | None => py_dec v
            end).

(** wsp_pdu.py 933-950: [decode_untyped_value]. *)
Definition decode_untyped_value : ST piter pval :=
  st_catch (n <~ decode_integer_value ;; st_ret (PInt n)) DecodeError
           (s <~ decode_text_value ;; st_ret (PStr s)).

(** wsp_pdu.py 1034-1064: [decode_compact_value]. *)
Definition decode_compact_value : ST piter pval :=
  st_catch (n <~ decode_integer_value ;; st_ret (PInt n)) DecodeError
           (s <~ decode_uri_value ;; st_ret (PStr s)).

(** wsp_pdu.py 1004-1029: [decode_typed_value]. *)
Definition decode_typed_value : ST piter pval :=
  st_catch decode_compact_value DecodeError
           (s <~ decode_text_value ;; st_ret (PStr s)).

(** wsp_pdu.py 953-999: [decode_well_known_parameter]. *)
Definition decode_well_known_parameter_in (version : list Z) : ST piter (list Z * vtype) :=
  n <~ decode_integer_value ;;
  d <~ st_lift (get_well_known_parameters version) ;;
  match d_get Z.eqb n d with
  | Some p => st_ret p
  | None => st_err DecodeError
  end.
(** wsp_pdu.py 953: the same with the default version, which its only caller uses. *)
Definition decode_well_known_parameter : ST piter (list Z * vtype) :=
  decode_well_known_parameter_in (str "1.2").

(** wsp_pdu.py 899-906: [getattr(Decoder, 'decode_%s' % value_type)(byte_iter)];
    a missing method raises AttributeError. *)
Definition decode_by_type (t : vtype) : ST piter pval :=
  match t with
  | TQ => decode_q_value
  | TCharset => s <~ decode_well_known_charset ;; st_ret (PStr s)
  | TVersion => s <~ decode_version_value ;; st_ret (PStr s)
  | TInteger => n <~ decode_integer_value ;; st_ret (PInt n)
  | TTextString => s <~ decode_text_string ;; st_ret (PStr s)
  | TFieldName => st_err AttributeError
  | TShort => n <~ decode_short_integer ;; st_ret (PInt n)
  | TConstrained => decode_constrained_encoding
  | TDelta => n <~ decode_delta_seconds_value ;; st_ret (PInt n)
  | TNo => n <~ decode_no_value ;; st_ret (PInt n)
  | TTextValue => s <~ decode_text_value ;; st_ret (PStr s)
  | TDate => t <~ decode_date_value ;; st_ret (PDate t)
  end.

(** wsp_pdu.py 880-908: [decode_typed_parameter]. *)
Definition decode_typed_parameter : ST piter (list Z * pval) :=
  '(token, value_type) <~ decode_well_known_parameter ;;
  v <~ decode_by_type value_type ;;
  st_ret (token, v).

(** wsp_pdu.py 911-930: [decode_untyped_parameter]. *)
Definition decode_untyped_parameter : ST piter (list Z * pval) :=
  token <~ decode_token_text ;;
  value <~ decode_untyped_value ;;
  st_ret (token, value).

(** wsp_pdu.py 864-877: [decode_parameter]. *)
Definition decode_parameter : ST piter (list Z * pval) :=
  st_catch decode_typed_parameter DecodeError decode_untyped_parameter.

(** wsp_pdu.py 853-861: parameters until StopIteration. *)
Fixpoint parameter_loop (fuel : nat) (params : list (list Z * pval))
  : ST piter (list (list Z * pval)) :=
  match fuel with
  | O => st_err OutOfFuel
  | S f =>
      fun it =>
        match decode_parameter it with
        | (Ok (p, v), it') => parameter_loop f (d_set leqb p v params) it'
        | (Err StopIteration, it') => (Ok params, it')
        | (Err e, it') => (Err e, it')
        end
  end.

(** wsp_pdu.py 849-861: media type and parameters of the octets read. *)
Definition decode_media_and_params (l : list Z)
  : res (list Z * list (list Z * pval)) :=
  fst ((m <~ decode_media_type ;;
        ps <~ fuelled (fun f => parameter_loop f []) ;;
        st_ret (m, ps)) (new_iter l)).

(** wsp_pdu.py 820-861: [decode_content_general_form]. *)
Definition decode_content_general_form
  : ST piter (list Z * list (list Z * pval)) :=
  n <~ decode_value_length ;;
  l <~ read_n n ;;
  st_lift (decode_media_and_params l).

(** wsp_pdu.py 692-722: [decode_content_type_value]. *)
Definition decode_content_type_value
  : ST piter (list Z * list (list Z * pval)) :=
  st_catch (m <~ decode_constrained_media ;; st_ret (m, [])) DecodeError
           decode_content_general_form.

(** wsp_pdu.py 1197-1240: [decode_accept_value]; the quality factor and the
    extension are decoded and discarded. *)
Definition decode_accept_value : ST piter (list Z) :=
  st_catch decode_constrained_media DecodeError
    (_ <~ decode_value_length ;;
     media <~ st_catch decode_well_known_media DecodeError
                       decode_extension_media ;;
     b <~ preview ;;
     _ <~ (if b =? 128 then
             _ <~ next ;;
             _ <~ decode_q_value ;;
             st_catch (_ <~ decode_parameter ;; st_ret tt) DecodeError
                      (st_ret tt)
           else st_ret tt) ;;
     _ <~ reset_preview ;;
     st_ret media).

(** wsp_pdu.py 1243-1271: [decode_pragma_value]. *)
Definition decode_pragma_value : ST piter (list Z * pval) :=
  byte <~ preview ;;
  if byte =? 128 then
    _ <~ next ;; st_ret (str "Cache-control", PStr (str "No-cache"))
  else
    _ <~ reset_preview ;;
    _ <~ decode_value_length ;;
    decode_parameter.

(** wsp_pdu.py 1303-1347: [decode_well_known_header]. *)
Definition decode_well_known_header : ST piter (list Z * hval) :=
  n <~ decode_short_integer ;;
  names <~ st_lift (get_header_field_names (str "1.2")) ;;
  match nth_error names (Z.to_nat n) with
  | None => st_err DecodeError
  | Some name =>
      v <~ (match header_field_encoding name with
            | AcceptValue => s <~ decode_accept_value ;; st_ret (HStr s)
            | PragmaValue => '(p, v) <~ decode_pragma_value ;; st_ret (HPragma p v)
            | OtherValue => s <~ decode_text_string ;; st_ret (HStr s)
            end) ;;
      st_ret (name, v)
  end.

(** wsp_pdu.py 1350-1375: [decode_application_header]. *)
Definition decode_application_header : ST piter (list Z * hval) :=
  h <~ st_catch decode_token_text DecodeError decode_text_string ;;
  v <~ decode_text_string ;;
  st_ret (h, HStr v).

(** wsp_pdu.py 1378-1402: [Decoder.decode_header]. *)
Definition wsp_decode_header : ST piter (list Z * hval) :=
  st_catch decode_well_known_header DecodeError decode_application_header.
