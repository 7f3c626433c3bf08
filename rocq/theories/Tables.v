(** Model of the tables at the head of messaging/mms/wsp_pdu.py and of
    [mms_field_names] in messaging/mms/mms_pdu.py. *)
From Verif Require Import Py.
Open Scope Z_scope.

(** The value type names of the tables, which the code turns into method names
    ([getattr(Decoder, 'decode_%s' % type)]).  [TFieldName] is the entry
    'Field-name', for which no method exists. *)
Inductive vtype :=
| TQ  (* 'q_value' *)
| TCharset  (* 'well_known_charset' *)
| TVersion  (* 'version_value' *)
| TInteger  (* 'integer_value' *)
| TTextString  (* 'text_string' *)
| TFieldName  (* 'Field-name' *)
| TShort  (* 'short_integer' *)
| TConstrained  (* 'constrained_encoding' *)
| TDelta  (* 'delta_seconds_value' *)
| TNo  (* 'no_value' *)
| TTextValue  (* 'text_value' *)
| TDate  (* 'date_value' *).

(** wsp_pdu.py 65-96: [well_known_parameters]. *)
Definition well_known_parameters : list (Z * (list Z * vtype)) :=
  [(0, (str "Q", TQ));
   (1, (str "Charset", TCharset));
   (2, (str "Level", TVersion));
   (3, (str "Type", TInteger));
   (5, (str "Name", TTextString));
   (6, (str "Filename", TTextString));
   (7, (str "Differences", TFieldName));
   (8, (str "Padding", TShort));
   (9, (str "Type", TConstrained));
   (10, (str "Start", TTextString));
   (11, (str "Start-info", TTextString));
   (12, (str "Comment", TTextString));
   (13, (str "Domain", TTextString));
   (14, (str "Max-Age", TDelta));
   (15, (str "Path", TTextString));
   (16, (str "Secure", TNo));
   (17, (str "SEC", TShort));
   (18, (str "MAC", TTextValue));
   (19, (str "Creation-date", TDate));
   (20, (str "Modification-date", TDate));
   (21, (str "Read-date", TDate));
   (22, (str "Size", TInteger));
   (23, (str "Name", TTextValue));
   (24, (str "Filename", TTextValue));
   (25, (str "Start", TTextValue));
   (26, (str "Start-info", TTextValue));
   (27, (str "Comment", TTextValue));
   (28, (str "Domain", TTextValue));
   (29, (str "Path", TTextValue))].

(** wsp_pdu.py 99-160: [well_known_content_types]. *)
Definition well_known_content_types : list (list Z) :=
  [str "*/*"; str "text/*"; str "text/html"; str "text/plain";
   str "text/x-hdml"; str "text/x-ttml"; str "text/x-vCalendar";
   str "text/x-vCard"; str "text/vnd.wap.wml"; str "text/vnd.wap.wmlscript";
   str "text/vnd.wap.wta-event"; str "multipart/*"; str "multipart/mixed";
   str "multipart/form-data"; str "multipart/byterantes";
   str "multipart/alternative"; str "application/*";
   str "application/java-vm"; str "application/x-www-form-urlencoded";
   str "application/x-hdmlc"; str "application/vnd.wap.wmlc";
   str "application/vnd.wap.wmlscriptc"; str "application/vnd.wap.wta-eventc";
   str "application/vnd.wap.uaprof";
   str "application/vnd.wap.wtls-ca-certificate";
   str "application/vnd.wap.wtls-user-certificate";
   str "application/x-x509-ca-cert"; str "application/x-x509-user-cert";
   str "image/*"; str "image/gif"; str "image/jpeg"; str "image/tiff";
   str "image/png"; str "image/vnd.wap.wbmp";
   str "application/vnd.wap.multipart.*";
   str "application/vnd.wap.multipart.mixed";
   str "application/vnd.wap.multipart.form-data";
   str "application/vnd.wap.multipart.byteranges";
   str "application/vnd.wap.multipart.alternative"; str "application/xml";
   str "text/xml"; str "application/vnd.wap.wbxml";
   str "application/x-x968-cross-cert"; str "application/x-x968-ca-cert";
   str "application/x-x968-user-cert"; str "text/vnd.wap.si";
   str "application/vnd.wap.sic"; str "text/vnd.wap.sl";
   str "application/vnd.wap.slc"; str "text/vnd.wap.co";
   str "application/vnd.wap.coc"; str "application/vnd.wap.multipart.related";
   str "application/vnd.wap.sia"; str "text/vnd.wap.connectivity-xml";
   str "application/vnd.wap.connectivity-wbxml"; str "application/pkcs7-mime";
   str "application/vnd.wap.hashed-certificate";
   str "application/vnd.wap.signed-certificate";
   str "application/vnd.wap.cert-response"; str "application/xhtml+xml";
   str "application/wml+xml"; str "text/css";
   str "application/vnd.wap.mms-message";
   str "application/vnd.wap.rollover-certificate";
   str "application/vnd.wap.locc+wbxml"; str "application/vnd.wap.loc+xml";
   str "application/vnd.syncml.dm+wbxml"; str "application/vnd.syncml.dm+xml";
   str "application/vnd.syncml.notification";
   str "application/vnd.wap.xhtml+xml"; str "application/vnd.wv.csp.cir";
   str "application/vnd.oma.dd+xml"; str "application/vnd.oma.drm.message";
   str "application/vnd.oma.drm.content";
   str "application/vnd.oma.drm.rights+xml";
   str "application/vnd.oma.drm.rights+wbxml"].

(** wsp_pdu.py 162-182: [well_known_charsets]. *)
Definition well_known_charsets : list (Z * list Z) :=
  [(3, str "us-ascii");
   (4, str "iso-8859-1");
   (5, str "iso-8859-2");
   (6, str "iso-8859-3");
   (7, str "iso-8859-4");
   (8, str "iso-8859-5");
   (9, str "iso-8859-6");
   (10, str "iso-8859-7");
   (11, str "iso-8859-8");
   (12, str "iso-8859-9");
   (17, str "shift_JIS");
   (106, str "utf-8");
   (1000, str "iso-10646-ucs-2");
   (2026, str "big5")].

(** wsp_pdu.py 184-214: [header_field_names]. *)
Definition header_field_names : list (list Z) :=
  [str "Accept"; str "Accept-Charset"; str "Accept-Encoding";
   str "Accept-Language"; str "Accept-Ranges"; str "Age"; str "Allow";
   str "Authorization"; str "Cache-Control"; str "Connection";
   str "Content-Base"; str "Content-Encoding"; str "Content-Language";
   str "Content-Length"; str "Content-Location"; str "Content-MD5";
   str "Content-Range"; str "Content-Type"; str "Date"; str "Etag";
   str "Expires"; str "From"; str "Host"; str "If-Modified-Since";
   str "If-Match"; str "If-None-Match"; str "If-Range";
   str "If-Unmodified-Since"; str "Location"; str "Last-Modified";
   str "Max-Forwards"; str "Pragma"; str "Proxy-Authenticate";
   str "Proxy-Authorization"; str "Public"; str "Range"; str "Referer";
   str "Retry-After"; str "Server"; str "Transfer-Encoding"; str "Upgrade";
   str "User-Agent"; str "Vary"; str "Via"; str "Warning";
   str "WWW-Authenticate"; str "Content-Disposition";
   str "X-Wap-Application-Id"; str "X-Wap-Content-URI";
   str "X-Wap-Initiator-URI"; str "Accept-Application";
   str "Bearer-Indication"; str "Push-Flag"; str "Profile";
   str "Profile-Diff"; str "Profile-Warning"; str "Expect"; str "TE";
   str "Trailer"; str "Accept-Charset"; str "Accept-Encoding";
   str "Cache-Control"; str "Content-Range"; str "X-Wap-Tod";
   str "Content-ID"; str "Set-Cookie"; str "Cookie"; str "Encoding-Version";
   str "Profile-Warning"; str "Content-Disposition"; str "X-WAP-Security";
   str "Cache-Control"].

(** wsp_pdu.py 221: [header_field_encodings], as a classification of names. *)
Inductive wap_value := AcceptValue | PragmaValue | OtherValue.
Definition header_field_encoding (name : list Z) : wap_value :=
  if leqb name (str "Accept") then AcceptValue
  else if leqb name (str "Pragma") then PragmaValue else OtherValue.

(** wsp_pdu.py 240-244 and 278-282: the check of a version string and its
    second component. *)
Definition version_number (version : list Z) : res Z :=
  if leqb version (str "1.1") then Ok 1
  else if leqb version (str "1.2") then Ok 2
  else if leqb version (str "1.3") then Ok 3
  else if leqb version (str "1.4") then Ok 4
  else Err ValueError.

(** wsp_pdu.py 224-254: [get_header_field_names]. *)
Definition get_header_field_names (version : list Z) : res (list (list Z)) :=
  v <- version_number version ;;
  Ok (if v =? 3 then py_to header_field_names 68
      else if v =? 2 then py_to header_field_names 56
      else if v =? 1 then py_to header_field_names 47
      else header_field_names).

(** [del d[n]] for [n in range(a, b)].  The keys are all present. *)
Definition del_range {V} (a b : Z) (d : list (Z * V)) : list (Z * V) :=
  filter (fun p => negb ((a <=? fst p) && (fst p <? b))) d.

(** wsp_pdu.py 257-297: [get_well_known_parameters]. *)
Definition get_well_known_parameters (version : list Z)
  : res (list (Z * (list Z * vtype))) :=
  v <- version_number version ;;
  let d := well_known_parameters in
  let d := if v <=? 3 then del_range 17 30 d else d in
  let d := if v <=? 2 then del_range 12 17 d else d in
  let d := if v =? 1 then del_range 9 12 d else d in
  Ok d.

(** The value type names of [mms_field_names]. *)
Inductive mtype :=
| MEncodedString  (* 'encoded_string_value' *)
| MUri  (* 'uri_value' *)
| MContentType  (* 'content_type_value' *)
| MDate  (* 'date_value' *)
| MBoolean  (* 'boolean_value' *)
| MDeliveryTime  (* 'delivery_time_value' *)
| MExpiry  (* 'expiry_value' *)
| MFrom  (* 'from_value' *)
| MMessageClass  (* 'message_class_value' *)
| MTextString  (* 'text_string' *)
| MMessageType  (* 'message_type_value' *)
| MVersion  (* 'version_value' *)
| MLong  (* 'long_integer' *)
| MPriority  (* 'priority_value' *)
| MResponseStatus  (* 'response_status_value' *)
| MSenderVisibility  (* 'sender_visibility_value' *)
| MStatus  (* 'status_value' *).

(** mms_pdu.py 35-60: [mms_field_names]. *)
Definition mms_field_names : list (Z * (list Z * mtype)) :=
  [(1, (str "Bcc", MEncodedString));
   (2, (str "Cc", MEncodedString));
   (3, (str "Content-Location", MUri));
   (4, (str "Content-Type", MContentType));
   (5, (str "Date", MDate));
   (6, (str "Delivery-Report", MBoolean));
   (7, (str "Delivery-Time", MDeliveryTime));
   (8, (str "Expiry", MExpiry));
   (9, (str "From", MFrom));
   (10, (str "Message-Class", MMessageClass));
   (11, (str "Message-ID", MTextString));
   (12, (str "Message-Type", MMessageType));
   (13, (str "MMS-Version", MVersion));
   (14, (str "Message-Size", MLong));
   (15, (str "Priority", MPriority));
   (16, (str "Read-Reply", MBoolean));
   (17, (str "Report-Allowed", MBoolean));
   (18, (str "Response-Status", MResponseStatus));
   (19, (str "Response-Text", MEncodedString));
   (20, (str "Sender-Visibility", MSenderVisibility));
   (21, (str "Status", MStatus));
   (22, (str "Subject", MEncodedString));
   (23, (str "To", MEncodedString));
   (24, (str "Transaction-Id", MTextString))].
