(** The binary form of MMS messages, as a grammar relating octets to what they
    mean: WAP-209-MMSEncapsulation chapter 7 (header fields and their numbers) and
    WAP-230-WSP chapters 8.4 and 8.5 (primitive values, content types, multipart
    entities).  Nothing here refers to the model; only [str] (the codes of a
    string) is taken from Py. *)
From Coq Require Import ZArith List.
Import ListNotations.
From Verif Require Import Py SpecWsp.
Open Scope Z_scope.

Definition n_octets (l : list Z) : Z := Z.of_nat (length l).
Definition all_octets (l : list Z) : Prop := Forall (fun b => 0 <= b < 256) l.

(** * Primitive values *)

(** Uintvar-integer. *)
Inductive Uintvar : Z -> list Z -> Prop :=
| uintvar : forall ds d, Forall digit128 ds -> digit128 d ->
    Uintvar (base128 (ds ++ [d])) (uintvar_octets ds d).

(** Value-length: an octet up to 30, or the quote 31 and a uintvar. *)
Inductive Value_length : Z -> list Z -> Prop :=
| vl_short : forall n, 0 <= n <= 30 -> Value_length n [n]
| vl_quoted : forall n l, Uintvar n l -> Value_length n (31 :: l).

(** Short-integer: 7 bits, the top bit set. *)
Inductive Short_integer : Z -> list Z -> Prop :=
| short_integer : forall n, 0 <= n < 128 -> Short_integer n [128 + n].

(** Long-integer: the number of octets, 1 to 30, and the octets, most significant
    first. *)
Inductive Long_integer : Z -> list Z -> Prop :=
| long_integer : forall l, all_octets l -> 1 <= n_octets l <= 30 ->
    Long_integer (big_endian l) (n_octets l :: l).

Inductive Integer_value : Z -> list Z -> Prop :=
| iv_short : forall n l, Short_integer n l -> Integer_value n l
| iv_long : forall n l, Long_integer n l -> Integer_value n l.

(** Text: octets other than NUL; the first is no control character. *)
Definition text (s : list Z) : Prop :=
  no_nul s /\ (s = [] \/ starts_with (fun c => 32 <= c /\ c <> 127) s).

(** Text-string: terminated by NUL, with the quote 127 in front when the first
    character is not ASCII. *)
Inductive Text_string : list Z -> list Z -> Prop :=
| ts_plain : forall s, text s -> ~ starts_with (fun c => 128 <= c) s ->
    Text_string s (s ++ [0])
| ts_quoted : forall s, text s -> starts_with (fun c => 128 <= c) s ->
    Text_string s (127 :: s ++ [0]).

(** Token of RFC 2616 and Token-text. *)
Definition rfc_separators : list Z :=
  [40; 41; 60; 62; 64; 44; 59; 58; 92; 34; 47; 91; 93; 63; 61; 123; 125; 32; 9].
Definition token (s : list Z) : Prop :=
  s <> [] /\ Forall (fun c => 32 < c < 127 /\ ~ In c rfc_separators) s.
Inductive Token_text : list Z -> list Z -> Prop :=
| token_text : forall s, token s -> Token_text s (s ++ [0]).

(** Quoted-string: a double quote, the text, NUL; there is no closing quote. *)
Inductive Quoted_string : list Z -> list Z -> Prop :=
| quoted_string : forall s, text s -> Quoted_string s (34 :: s ++ [0]).

(** Encoded-string-value: a text, or a text with the number of its character set.
    Its meaning here is the octets of the text. *)
Inductive Encoded_string : list Z -> list Z -> Prop :=
| es_plain : forall s l, Text_string s l -> Encoded_string s l
| es_charset : forall s l charset cs n vl,
    Integer_value charset cs -> Text_string s l ->
    Value_length n vl -> n = n_octets cs + n_octets l ->
    Encoded_string s (vl ++ cs ++ l).

(** Decimal digits of 0 to 15. *)
Definition small_dec (n : Z) : list Z := if n <? 10 then [48 + n] else [49; 38 + n].

(** Version-value: major and minor version in one octet, the minor number 15
    meaning none; or a text. *)
Inductive Version_value : list Z -> list Z -> Prop :=
| vv_minor : forall M m, 1 <= M <= 7 -> 0 <= m <= 14 ->
    Version_value (small_dec M ++ [46] ++ small_dec m) [128 + M * 16 + m]
| vv_major : forall M, 1 <= M <= 7 ->
    Version_value (small_dec M) [128 + M * 16 + 15]
| vv_text : forall s l, Text_string s l -> Version_value s l.

(** * Content types *)

(** Assigned numbers of media types, 0 and up. *)
Definition assigned_media : list (list Z) := map str
  ["*/*"; "text/*"; "text/html"; "text/plain"; "text/x-hdml"; "text/x-ttml";
   "text/x-vCalendar"; "text/x-vCard";
   (* 8 *) "text/vnd.wap.wml"; "text/vnd.wap.wmlscript"; "text/vnd.wap.wta-event";
   "multipart/*"; "multipart/mixed"; "multipart/form-data"; "multipart/byteranges";
   "multipart/alternative";
   (* 16 *) "application/*"; "application/java-vm";
   "application/x-www-form-urlencoded"; "application/x-hdmlc";
   "application/vnd.wap.wmlc"; "application/vnd.wap.wmlscriptc";
   "application/vnd.wap.wta-eventc"; "application/vnd.wap.uaprof";
   (* 24 *) "application/vnd.wap.wtls-ca-certificate";
   "application/vnd.wap.wtls-user-certificate"; "application/x-x509-ca-cert";
   "application/x-x509-user-cert"; "image/*"; "image/gif"; "image/jpeg"; "image/tiff";
   (* 32 *) "image/png"; "image/vnd.wap.wbmp"; "application/vnd.wap.multipart.*";
   "application/vnd.wap.multipart.mixed"; "application/vnd.wap.multipart.form-data";
   "application/vnd.wap.multipart.byteranges";
   "application/vnd.wap.multipart.alternative"; "application/xml";
   (* 40 *) "text/xml"; "application/vnd.wap.wbxml"; "application/x-x968-cross-cert";
   "application/x-x968-ca-cert"; "application/x-x968-user-cert"; "text/vnd.wap.si";
   "application/vnd.wap.sic"; "text/vnd.wap.sl";
   (* 48 *) "application/vnd.wap.slc"; "text/vnd.wap.co"; "application/vnd.wap.coc";
   "application/vnd.wap.multipart.related"; "application/vnd.wap.sia";
   "text/vnd.wap.connectivity-xml"; "application/vnd.wap.connectivity-wbxml";
   "application/pkcs7-mime";
   (* 56 *) "application/vnd.wap.hashed-certificate";
   "application/vnd.wap.signed-certificate"; "application/vnd.wap.cert-response";
   "application/xhtml+xml"; "application/wml+xml"; "text/css";
   "application/vnd.wap.mms-message"; "application/vnd.wap.rollover-certificate";
   (* 64 *) "application/vnd.wap.locc+wbxml"; "application/vnd.wap.loc+xml";
   "application/vnd.syncml.dm+wbxml"; "application/vnd.syncml.dm+xml";
   "application/vnd.syncml.notification"; "application/vnd.wap.xhtml+xml";
   "application/vnd.wv.csp.cir"; "application/vnd.oma.dd+xml";
   (* 72 *) "application/vnd.oma.drm.message"; "application/vnd.oma.drm.content";
   "application/vnd.oma.drm.rights+xml"; "application/vnd.oma.drm.rights+wbxml"]%string.

Definition media_number (n : Z) (media : list Z) : Prop :=
  0 <= n /\ nth_error assigned_media (Z.to_nat n) = Some media.

(** Extension-media: text with an ASCII start. *)
Inductive Extension_media : list Z -> list Z -> Prop :=
| extension_media : forall s, no_nul s -> starts_with (fun c => 32 <= c < 127) s ->
    Extension_media s (s ++ [0]).

(** Character sets by IANA number; the others are shown by their number. *)
Definition charset_names : list (Z * list Z) :=
  [(3, str "us-ascii"); (4, str "iso-8859-1"); (5, str "iso-8859-2");
   (6, str "iso-8859-3"); (7, str "iso-8859-4"); (8, str "iso-8859-5");
   (9, str "iso-8859-6"); (10, str "iso-8859-7"); (11, str "iso-8859-8");
   (12, str "iso-8859-9"); (17, str "shift_JIS"); (106, str "utf-8");
   (1000, str "iso-10646-ucs-2"); (2026, str "big5")].

(** Well-known-charset: any-charset is octet 128. *)
Inductive Charset : list Z -> list Z -> Prop :=
| cs_any : Charset (str "*") [128]
| cs_named : forall n name l, In (n, name) charset_names -> Integer_value n l ->
    Charset name l.

(** Values of content type parameters. *)
Inductive pvalue :=
| Ptext (s : list Z) | Pnumber (n : Z) | Pquality (thousandths : Z).

(** Parameters by number, in encoding version 1.2 (and earlier). *)
Inductive Param : list Z -> pvalue -> list Z -> Prop :=
| p_q : forall i q l n, Integer_value 0 i -> 0 <= q < 1000 -> n = q_code q ->
    Uintvar n l -> Param (str "Q") (Pquality q) (i ++ l)
| p_charset : forall i s l, Integer_value 1 i -> Charset s l ->
    Param (str "Charset") (Ptext s) (i ++ l)
| p_level : forall i s l, Integer_value 2 i -> Version_value s l ->
    Param (str "Level") (Ptext s) (i ++ l)
| p_type : forall i n l, Integer_value 3 i -> Integer_value n l ->
    Param (str "Type") (Pnumber n) (i ++ l)
| p_text : forall name k i s l,
    In (name, k) [(str "Name", 5); (str "Filename", 6); (str "Start", 10);
                  (str "Start-info", 11)] ->
    Integer_value k i -> Text_string s l -> Param name (Ptext s) (i ++ l)
| p_padding : forall i n l, Integer_value 8 i -> Short_integer n l ->
    Param (str "Padding") (Pnumber n) (i ++ l)
| p_related_number : forall i n l, Integer_value 9 i -> Short_integer n l ->
    Param (str "Type") (Pnumber n) (i ++ l)
| p_related_text : forall i s l, Integer_value 9 i -> Extension_media s l ->
    Param (str "Type") (Ptext s) (i ++ l)
| p_untyped_number : forall name t n l, Token_text name t -> Integer_value n l ->
    Param name (Pnumber n) (t ++ l)
| p_untyped_token : forall name t s l, Token_text name t -> Token_text s l ->
    Param name (Ptext s) (t ++ l)
| p_untyped_quoted : forall name t s l, Token_text name t -> Quoted_string s l ->
    Param name (Ptext s) (t ++ l).

(** A sequence of items, each with a name and a value, one after the other. *)
Inductive Sequence {V} (Item : list Z -> V -> list Z -> Prop)
  : list (list Z * V) -> list Z -> Prop :=
| seq_nil : Sequence Item [] []
| seq_cons : forall name v l vs r, Item name v l -> Sequence Item vs r ->
    Sequence Item ((name, v) :: vs) (l ++ r).

(** Media-type: an assigned number or text. *)
Inductive Media : list Z -> list Z -> Prop :=
| m_number : forall n media l, media_number n media -> Integer_value n l -> Media media l
| m_text : forall media l, Extension_media media l -> Media media l.

(** Content-type-value: constrained (one octet or text), or the general form with
    a length and parameters.  The parameters are a parameter of the grammar, so
    that statements can be about part of it; [Content_type] is the full one. *)
Inductive Content_type_with (P : list Z -> pvalue -> list Z -> Prop)
  : list Z -> list (list Z * pvalue) -> list Z -> Prop :=
| ct_number : forall n media l, media_number n media -> Short_integer n l ->
    Content_type_with P media [] l
| ct_text : forall media l, Extension_media media l -> Content_type_with P media [] l
| ct_general : forall media ps ml pl n vl, Media media ml -> Sequence P ps pl ->
    Value_length n vl -> n = n_octets ml + n_octets pl ->
    Content_type_with P media ps (vl ++ ml ++ pl).

Definition Content_type := Content_type_with Param.

(** * Header fields *)

(** What a field means. *)
Inductive value :=
| Text (s : list Z)
| Number (n : Z)
| Flag (yes : bool)
| At (t : Z)          (* seconds since 1970 *)
| After (n : Z)       (* seconds after the message was sent *)
| InsertAddress       (* From: the relay is to insert the address *)
| Media_type (media : list Z) (params : list (list Z * pvalue)).

Definition message_type_names : list (Z * list Z) :=
  [(128, str "m-send-req"); (129, str "m-send-conf"); (130, str "m-notification-ind");
   (131, str "m-notifyresp-ind"); (132, str "m-retrieve-conf");
   (133, str "m-acknowledge-ind"); (134, str "m-delivery-ind")].
Definition message_class_names : list (Z * list Z) :=
  [(128, str "Personal"); (129, str "Advertisement"); (130, str "Informational");
   (131, str "Auto")].
Definition priority_names : list (Z * list Z) :=
  [(128, str "Low"); (129, str "Normal"); (130, str "High")].
Definition visibility_names : list (Z * list Z) := [(128, str "Hide"); (129, str "Show")].
Definition response_names : list (Z * list Z) :=
  [(128, str "Ok"); (129, str "Error-unspecified"); (130, str "Error-service-denied");
   (131, str "Error-message-format-corrupt");
   (132, str "Error-sending-address-unresolved"); (133, str "Error-message-not-found");
   (134, str "Error-network-problem"); (135, str "Error-content-not-accepted");
   (136, str "Error-unsupported-message")].
Definition status_names : list (Z * list Z) :=
  [(128, str "Expired"); (129, str "Retrieved"); (130, str "Rejected");
   (131, str "Deferred"); (132, str "Unrecognised")].

(** The fields other than Content-Type. *)
Inductive Field : list Z -> value -> list Z -> Prop :=
| f_encoded : forall name c s l,
    In (name, c) [(str "Bcc", 129); (str "Cc", 130); (str "Response-Text", 147);
                  (str "Subject", 150); (str "To", 151)] ->
    Encoded_string s l -> Field name (Text s) (c :: l)
| f_text : forall name c s l,
    In (name, c) [(str "Content-Location", 131); (str "Message-ID", 139);
                  (str "Transaction-Id", 152)] ->
    Text_string s l -> Field name (Text s) (c :: l)
| f_date : forall t l, Long_integer t l -> Field (str "Date") (At t) (133 :: l)
| f_flag : forall name c b,
    In (name, c) [(str "Delivery-Report", 134); (str "Read-Reply", 144);
                  (str "Report-Allowed", 145)] ->
    Field name (Flag b) [c; if b then 128 else 129]
| f_at : forall name c t l n vl,
    In (name, c) [(str "Delivery-Time", 135); (str "Expiry", 136)] ->
    Long_integer t l -> Value_length n vl -> n = 1 + n_octets l ->
    Field name (At t) (c :: vl ++ 128 :: l)
| f_after : forall name c k l n vl,
    In (name, c) [(str "Delivery-Time", 135); (str "Expiry", 136)] ->
    Integer_value k l -> Value_length n vl -> n = 1 + n_octets l ->
    Field name (After k) (c :: vl ++ 129 :: l)
| f_from : forall s l n vl, Encoded_string s l -> Value_length n vl -> n = 1 + n_octets l ->
    Field (str "From") (Text s) (137 :: vl ++ 128 :: l)
| f_insert : forall vl, Value_length 1 vl ->
    Field (str "From") InsertAddress (137 :: vl ++ [129])
| f_code : forall name c table b s,
    In (name, c, table)
       [(str "Message-Class", 138, message_class_names);
        (str "Message-Type", 140, message_type_names);
        (str "Priority", 143, priority_names);
        (str "Response-Status", 146, response_names);
        (str "Sender-Visibility", 148, visibility_names);
        (str "Status", 149, status_names)] ->
    In (b, s) table -> Field name (Text s) [c; b]
| f_class_token : forall s l, Token_text s l ->
    Field (str "Message-Class") (Text s) (138 :: l)
| f_version : forall s l, Version_value s l -> Field (str "MMS-Version") (Text s) (141 :: l)
| f_size : forall n l, Long_integer n l -> Field (str "Message-Size") (Number n) (142 :: l)
| f_application : forall name s l t, Token_text name t ->
    name <> str "Content-Type" -> Text_string s l ->
    Field name (Text s) (t ++ l).

(** * Bodies *)

(** Headers of a part: text headers by number (WAP-230 table 39; the numbered
    headers with other values are left out), Content-ID, and application
    headers. *)
Definition part_header_names : list (list Z * Z) :=
  [(str "Content-Base", 138); (str "Content-Location", 142); (str "Etag", 147);
   (str "Host", 150); (str "If-Match", 152); (str "If-None-Match", 153);
   (str "Location", 156); (str "Referer", 164); (str "Server", 166);
   (str "Upgrade", 168); (str "User-Agent", 169); (str "Via", 171);
   (str "X-Wap-Content-URI", 176); (str "X-Wap-Initiator-URI", 177);
   (str "Profile", 181)].

Inductive Part_header : list Z -> list Z -> list Z -> Prop :=
| ph_number : forall name c s l, In (name, c) part_header_names ->
    Text_string s l -> Part_header name s (c :: l)
| ph_content_id : forall s l, Quoted_string s l ->
    Part_header (str "Content-ID") s (192 :: l)
| ph_application : forall name s l t, Token_text name t ->
    name <> str "Content-Type" -> Text_string s l -> Part_header name s (t ++ l).

(** One entry of a multipart body. *)
Record entry := Entry {
  e_media : list Z; e_params : list (list Z * pvalue);
  e_headers : list (list Z * list Z); e_data : list Z }.

(** [C] are the content types, [H] the headers. *)
Inductive Multipart_entry (C : list Z -> list (list Z * pvalue) -> list Z -> Prop)
  (H : list Z -> list Z -> list Z -> Prop) : entry -> list Z -> Prop :=
| multipart_entry : forall media ps hs data ct hl n nl k kl,
    C media ps ct -> Sequence H hs hl -> all_octets data ->
    Uintvar n nl -> n = n_octets ct + n_octets hl ->
    Uintvar k kl -> k = n_octets data ->
    Multipart_entry C H (Entry media ps hs data) (nl ++ kl ++ ct ++ hl ++ data).

Inductive Entries (E : entry -> list Z -> Prop) : list entry -> list Z -> Prop :=
| es_nil : Entries E [] []
| es_cons : forall e l es r, E e l -> Entries E es r -> Entries E (e :: es) (l ++ r).

(** * Messages *)

(** A multipart message: fields, then the content type, then the number of
    entries and the entries.  A message without content (a notification, a
    response) is a sequence of fields. *)
Inductive Multipart_message_with (F : list Z -> value -> list Z -> Prop)
  (C : list Z -> list (list Z * pvalue) -> list Z -> Prop) (E : entry -> list Z -> Prop)
  : list (list Z * value) -> list entry -> list Z -> Prop :=
| multipart_message : forall fs fl media ps ct n nl es el,
    Sequence F fs fl -> C media ps ct ->
    Uintvar n nl -> n = Z.of_nat (length es) -> Entries E es el ->
    Multipart_message_with F C E (fs ++ [(str "Content-Type", Media_type media ps)]) es
      (fl ++ (132 :: ct) ++ nl ++ el).

Definition Bare_message := Sequence Field.
Definition Multipart_message :=
  Multipart_message_with Field Content_type (Multipart_entry Content_type Part_header).

(** A message whose content is not multipart: the content follows the content
    type. *)
Inductive Single_message : list (list Z * value) -> list Z -> list Z -> Prop :=
| single_message : forall fs fl media ps ct data,
    Sequence Field fs fl -> Content_type media ps ct -> all_octets data ->
    Single_message (fs ++ [(str "Content-Type", Media_type media ps)]) data
      (fl ++ (132 :: ct) ++ data).

(** The last value given to a name. *)
Fixpoint last_value {V} (k : list Z) (l : list (list Z * V)) : option V :=
  match l with
  | [] => None
  | (k', v) :: r =>
      match last_value k r with
      | Some v' => Some v'
      | None => if list_eq_dec Z.eq_dec k k' then Some v else None
      end
  end.
