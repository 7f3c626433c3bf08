(** Model of the class [MMSDecoder] of messaging/mms/mms_pdu.py (lines 63-586). *)
From Verif Require Import Py Iter Tables WspDec Message.
Open Scope Z_scope.

(** mms_pdu.py 295-326: [decode_encoded_string_value].  An unreadable character
    set raises a plain Exception, which [except DecodeError] does not catch. *)
Definition decode_encoded_string_value : ST piter (list Z) :=
  st_catch
    (_ <~ decode_value_length ;;
     _ <~ st_catch decode_well_known_charset DecodeError
                   (st_err GenericException) ;;
     decode_text_string)
    DecodeError decode_text_string.

(** mms_pdu.py 329-354: [decode_boolean_value]. *)
Definition decode_boolean_value : ST piter bool :=
  byte <~ preview ;;
  if negb ((byte =? 128) || (byte =? 129)) then
    _ <~ reset_preview ;; st_err DecodeError
  else byte <~ next ;; st_ret (byte =? 128).

(** mms_pdu.py 357-368: [decode_delivery_time_value]. *)
Definition decode_delivery_time_value : ST piter (list Z * Z) :=
  _ <~ decode_value_length ;;
  token <~ next ;;
  value <~ decode_long_integer ;;
  if token =? 128 then st_ret (str "absolute", value)
  else if token =? 129 then st_ret (str "relative", value)
  else st_err DecodeError.

(** mms_pdu.py 371-390: [decode_from_value]. *)
Definition decode_from_value : ST piter (list Z) :=
  _ <~ decode_value_length ;;
  byte <~ next ;;
  if byte =? 129 then st_ret (str "<not inserted>")
  else decode_encoded_string_value.

(** mms_pdu.py 410-415: [class_identifiers]. *)
Definition class_identifiers : list (Z * list Z) :=
  [(128, str "Personal"); (129, str "Advertisement");
   (130, str "Informational"); (131, str "Auto")].

(** mms_pdu.py 393-423: [decode_message_class_value]. *)
Definition decode_message_class_value : ST piter (list Z) :=
  byte <~ preview ;;
  match d_get Z.eqb byte class_identifiers with
  | Some s => _ <~ next ;; st_ret s
  | None => _ <~ reset_preview ;; decode_token_text
  end.

(** mms_pdu.py 435-443: [message_types]. *)
Definition message_types_dec : list (Z * list Z) :=
  [(128, str "m-send-req"); (129, str "m-send-conf");
   (130, str "m-notification-ind"); (131, str "m-notifyresp-ind");
   (132, str "m-retrieve-conf"); (133, str "m-acknowledge-ind");
   (134, str "m-delivery-ind")].

(** mms_pdu.py 426-451: [decode_message_type_value]. *)
Definition decode_message_type_value : ST piter (list Z) :=
  byte <~ preview ;;
  match d_get Z.eqb byte message_types_dec with
  | Some s => _ <~ next ;; st_ret s
  | None => _ <~ reset_preview ;; st_ret (str "<unknown>")
  end.

(** mms_pdu.py 466: [priorities]. *)
Definition priorities : list (Z * list Z) :=
  [(128, str "Low"); (129, str "Normal"); (130, str "High")].

(** mms_pdu.py 454-475: [decode_priority_value]. *)
Definition decode_priority_value : ST piter (list Z) :=
  byte <~ preview ;;
  match d_get Z.eqb byte priorities with
  | Some s => _ <~ next ;; st_ret s
  | None => _ <~ reset_preview ;; st_err DecodeError
  end.

(** mms_pdu.py 478-503: [decode_sender_visibility_value]. *)
Definition decode_sender_visibility_value : ST piter (list Z) :=
  byte <~ preview ;;
  if negb ((byte =? 128) || (byte =? 129)) then
    _ <~ reset_preview ;; st_err DecodeError
  else
    byte <~ next ;;
    st_ret (if byte =? 128 then str "Hide" else str "Show").

(** mms_pdu.py 520-530: [response_status_values]. *)
Definition response_status_values : list (Z * list Z) :=
  [(128, str "Ok"); (129, str "Error-unspecified");
   (130, str "Error-service-denied"); (131, str "Error-message-format-corrupt");
   (132, str "Error-sending-address-unresolved");
   (133, str "Error-message-not-found"); (134, str "Error-network-problem");
   (135, str "Error-content-not-accepted");
   (136, str "Error-unsupported-message")].

(** mms_pdu.py 506-534: [decode_response_status_value]. *)
Definition decode_response_status_value : ST piter pval :=
  byte <~ preview ;;
  _ <~ next ;;
  st_ret (match d_get Z.eqb byte response_status_values with
          | Some s => PStr s
          | None => PInt 129
          end).

(** mms_pdu.py 550-556: [status_values]. *)
Definition status_values_dec : list (Z * list Z) :=
  [(128, str "Expired"); (129, str "Retrieved"); (130, str "Rejected");
   (131, str "Deferred"); (132, str "Unrecognised")].

(** mms_pdu.py 537-560: [decode_status_value]. *)
Definition decode_status_value : ST piter pval :=
  byte <~ next ;;
  st_ret (match d_get Z.eqb byte status_values_dec with
          | Some s => PStr s
          | None => PInt 132
          end).

(** mms_pdu.py 563-586: [decode_expiry_value]. *)
Definition decode_expiry_value : ST piter pval :=
  _ <~ decode_value_length ;;
  token <~ next ;;
  if token =? 128 then t <~ decode_date_value ;; st_ret (PDate t)
  else if token =? 129 then n <~ decode_delta_seconds_value ;; st_ret (PInt n)
  else st_err DecodeError.

(** mms_pdu.py 281-282: [getattr(MMSDecoder, 'decode_%s' % name)(byte_iter)];
    every type of the table has a decoder. *)
Definition decode_mms_value (t : mtype) : ST piter hval :=
  match t with
  | MEncodedString => s <~ decode_encoded_string_value ;; st_ret (HStr s)
  | MUri => s <~ decode_uri_value ;; st_ret (HStr s)
  | MContentType => '(m, ps) <~ decode_content_type_value ;; st_ret (HType m ps)
  | MDate => t <~ decode_date_value ;; st_ret (HDate t)
  | MBoolean => b <~ decode_boolean_value ;; st_ret (HBool b)
  | MDeliveryTime => '(k, n) <~ decode_delivery_time_value ;; st_ret (HTime k n)
  | MExpiry => v <~ decode_expiry_value ;; st_ret (HP v)
  | MFrom => s <~ decode_from_value ;; st_ret (HStr s)
  | MMessageClass => s <~ decode_message_class_value ;; st_ret (HStr s)
  | MTextString => s <~ decode_text_string ;; st_ret (HStr s)
  | MMessageType => s <~ decode_message_type_value ;; st_ret (HStr s)
  | MVersion => s <~ decode_version_value ;; st_ret (HStr s)
  | MLong => n <~ decode_long_integer ;; st_ret (HInt n)
  | MPriority => s <~ decode_priority_value ;; st_ret (HStr s)
  | MResponseStatus => v <~ decode_response_status_value ;; st_ret (HP v)
  | MSenderVisibility => s <~ decode_sender_visibility_value ;; st_ret (HStr s)
  | MStatus => v <~ decode_status_value ;; st_ret (HP v)
  end.

(** mms_pdu.py 280-290: DecodeError is raised again, everything else becomes
    RuntimeError.  Running out of fuel is no Python exception and passes. *)
Definition as_runtime_error {A} (m : ST piter A) : ST piter A :=
  fun it => match m it with
            | (Ok a, it') => (Ok a, it')
            | (Err DecodeError, it') => (Err DecodeError, it')
            | (Err OutOfFuel, it') => (Err OutOfFuel, it')
            | (Err _, it') => (Err RuntimeError, it')
            end.

(** mms_pdu.py 245-292: [decode_mms_header].  When the byte is no short integer
    the exception leaves the look-ahead where it is. *)
Definition decode_mms_header : ST piter (list Z * hval) :=
  p <~ preview ;;
  byte <~ st_lift (decode_short_integer_from_byte p) ;;
  match d_get Z.eqb byte mms_field_names with
  | None => _ <~ reset_preview ;; st_err DecodeError
  | Some (name, t) =>
      _ <~ next ;;
      v <~ as_runtime_error (decode_mms_value t) ;;
      st_ret (name, v)
  end.

(** mms_pdu.py 213-242: [MMSDecoder.decode_header]. *)
Definition decode_header : ST piter (list Z * hval) :=
  st_catch decode_mms_header DecodeError wsp_decode_header.

(** mms_pdu.py 134-151: headers into a dictionary until the content type or the
    end of the data. *)
Fixpoint header_loop (fuel : nat) (d : list (list Z * hval))
  : ST piter (list (list Z * hval)) :=
  match fuel with
  | O => st_err OutOfFuel
  | S f =>
      fun it =>
        match decode_header it with
        | (Ok (h, v), it') =>
            if leqb h (str "Content-Type") then (Ok (d_set leqb h v d), it')
            else header_loop f (d_set leqb h v d) it'
        | (Err StopIteration, it') => (Ok d, it')
        | (Err e, it') => (Err e, it')
        end
  end.

(** mms_pdu.py 112-153: [decode_message_header] into the headers of a new
    message. *)
Definition decode_message_header : ST piter (list (list Z * hval)) :=
  fuelled (fun f => header_loop f default_headers).

(** mms_pdu.py 192-198: the headers of a part until the end of its octets. *)
Fixpoint part_header_loop (fuel : nat) (d : list (list Z * hval))
  : ST piter (list (list Z * hval)) :=
  match fuel with
  | O => st_err OutOfFuel
  | S f =>
      fun it =>
        match decode_header it with
        | (Ok (h, v), it') => part_header_loop f (d_set leqb h v d) it'
        | (Err StopIteration, it') => (Ok d, it')
        | (Err e, it') => (Err e, it')
        end
  end.

(** mms_pdu.py 184-198: content type and headers of a part. *)
Definition decode_part_headers (l : list Z)
  : res (list (list Z * pval) * list (list Z * hval)) :=
  fst (('(m, ps) <~ decode_content_type_value ;;
        d <~ fuelled (fun f =>
               part_header_loop f [(str "Content-Type", HType m ps)]) ;;
        st_ret (ps, d)) (new_iter l)).

(** mms_pdu.py 176-211: one part. *)
Definition decode_part : ST piter part :=
  headers_len <~ decode_uint_var ;;
  data_len <~ decode_uint_var ;;
  l <~ read_n headers_len ;;
  '(ps, d) <~ st_lift (decode_part_headers l) ;;
  data <~ read_n data_len ;;
  st_ret (Part d ps None (Some data)).

(** mms_pdu.py 176-211: [n] parts, with fuel. *)
Fixpoint parts_loop (fuel : nat) (n : Z) : ST piter (list part) :=
  if 0 <? n then
    match fuel with
    | O => st_err OutOfFuel
    | S f => p <~ decode_part ;; l <~ parts_loop f (n - 1) ;; st_ret (p :: l)
    end
  else st_ret [].

(** mms_pdu.py 155-211: [decode_message_body].  When an exception ends the loop
    the message is lost with it, so the parts are returned at the end. *)
Definition decode_message_body : ST piter (list part) :=
  fun it =>
    match decode_uint_var it with
    | (Err StopIteration, it') => (Ok [], it')
    | (Err e, it') => (Err e, it')
    | (Ok n, it') =>
        (_ <~ xrange_check n ;; fuelled (fun f => parts_loop f n)) it'
    end.

(** mms_pdu.py 96-110: [decode_data], and message.py 240-252: [from_data]. *)
Definition decode_data (data : list Z) : res message :=
  fst ((d <~ decode_message_header ;;
        ps <~ decode_message_body ;;
        st_ret (Message d [] ps 176 220)) (new_iter data)).

(** mms_pdu.py 76-94: [decode_file], and message.py 254-266. *)
Definition decode_file (w : world) (filename : list Z) : res message :=
  match w_file w filename with
  | None => Err OSError
  | Some data => decode_data data
  end.
