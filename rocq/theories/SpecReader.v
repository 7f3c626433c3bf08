(** What the decoder of multimedia messages makes of any octets whatever, those of
    the standard and the others (C117).  Each reader takes the octets in front of
    it and either reads a value, leaving the octets after it, or fails with an
    exception, leaving the octets that were not taken.  There is no iterator and no
    look-ahead here; from the model only the types of the values are taken, the
    decimal notation of a number ([py_dec], settled by [C117_decimal]) and the
    dictionaries of Python. *)
From Coq Require Import ZArith List.
Import ListNotations.
From Verif Require Import Py WspDec Message SpecWsp SpecMms.
Open Scope Z_scope.

Inductive outcome (A : Type) :=
| Reads (a : A) (rest : list Z)
| Fails (e : exn) (rest : list Z).
Arguments Reads {A} a rest.
Arguments Fails {A} e rest.

Definition reader (A : Type) := list Z -> outcome A.

(** The octets are over, or not what this reader is for. *)
Definition ended {A} : outcome A := Fails StopIteration [].
Definition refused {A} (rest : list Z) : outcome A := Fails DecodeError rest.

(** One reader after the other. *)
Definition and_then {A B} (x : reader A) (y : A -> reader B) : reader B :=
  fun l => match x l with Reads a r => y a r | Fails e r => Fails e r end.

(** Another reader for what the first one refuses, from where it stopped. *)
Definition or_else {A} (x y : reader A) : reader A :=
  fun l => match x l with Fails DecodeError r => y r | o => o end.

Definition gives {A} (a : A) : reader A := fun l => Reads a l.
Definition shown {A B} (f : A -> B) (x : reader A) : reader B :=
  and_then x (fun a => gives (f a)).

(** * Octets, numbers, text *)

Definition one_octet : reader Z :=
  fun l => match l with b :: r => Reads b r | [] => ended end.

(** The octets before the first one with [stop], that one, and those after it. *)
Fixpoint up_to (stop : Z -> bool) (l : list Z) : option (list Z * Z * list Z) :=
  match l with
  | [] => None
  | b :: r =>
      if stop b then Some ([], b, r)
      else match up_to stop r with
           | Some (s, c, r') => Some (b :: s, c, r')
           | None => None
           end
  end.

(** The next [n] octets.  Python cannot count further than 2^63 - 1. *)
Definition next_octets (n : Z) : reader (list Z) :=
  fun l => if 2 ^ 63 <=? n then Fails OverflowError l
           else if n <=? n_octets l
                then Reads (firstn (Z.to_nat n) l) (skipn (Z.to_nat n) l)
                else ended.

(** Octets with the top bit, and one without. *)
Definition a_uintvar : reader Z :=
  fun l => match up_to (fun b => b <? 128) l with
           | Some (ds, d, r) => Reads (base128 (map (fun b => b - 128) ds ++ [d])) r
           | None => ended
           end.

(** The top bit of the first octet tells. *)
Definition a_short_integer : reader Z :=
  fun l => match l with
           | [] => ended
           | b :: r => if 128 <=? b then Reads (b - 128) r else refused l
           end.

Definition a_long_integer : reader Z :=
  fun l => match l with
           | [] => ended
           | n :: r => if n <=? 30 then shown big_endian (next_octets n) r else refused l
           end.

Definition an_integer : reader Z :=
  fun l => match l with
           | [] => ended
           | b :: r => if 128 <=? b then Reads (b - 128) r else a_long_integer l
           end.

Definition a_value_length : reader Z :=
  fun l => match l with
           | [] => ended
           | b :: r => if b <=? 30 then Reads b r
                       else if b =? 31 then a_uintvar r else refused l
           end.

Definition to_zero : reader (list Z) :=
  fun l => match up_to (Z.eqb 0) l with
           | Some (s, _, r) => Reads s r
           | None => ended
           end.

(** One octet 127 in front of a text is dropped. *)
Definition a_text : reader (list Z) :=
  fun l => match l with
           | 127 :: r => to_zero r
           | _ => to_zero l
           end.

(** A token ends at any octet that cannot be part of it, and takes that octet. *)
Definition in_token (b : Z) : bool :=
  (32 <=? b) && negb (existsb (Z.eqb b) separator_chars).
Definition a_token : reader (list Z) :=
  fun l => match l with
           | [] => ended
           | b :: _ =>
               if in_token b then
                 match up_to (fun c => negb (in_token c)) l with
                 | Some (s, _, r) => Reads s r
                 | None => ended
                 end
               else refused l
           end.

(** A text value: a token, or else an empty text that takes nothing.  The double
    quote can be part of a token, so quoted strings are read as tokens. *)
Definition a_text_value : reader (list Z) :=
  fun l => match l with
           | [] => ended
           | b :: _ => if in_token b then a_token l else Reads [] l
           end.

(** * Versions, dates, character sets *)

(** The octet 128 + 16 M + m is the version M.m; anything else is text. *)
Definition a_version : reader (list Z) :=
  fun l => match l with
           | [] => ended
           | b :: r =>
               if 128 <=? b then
                 Reads (small_dec ((b - 128) / 16) ++ str "." ++ small_dec (b mod 16)) r
               else a_text l
           end.

(** There is no datetime after the year 9999. *)
Definition a_date : reader Z :=
  and_then a_long_integer
    (fun t l => if 253402300799 <? t then Fails ValueError l else Reads t l).

(** The name of a character set, by number; the number itself when it has none.
    The octet 127 is any character set. *)
Definition charset_shown (n : Z) : list Z :=
  match find (fun p => fst p =? n) charset_names with
  | Some (_, name) => name
  | None => py_dec n
  end.
Definition a_charset : reader (list Z) :=
  fun l => match l with
           | 127 :: r => Reads (str "*") r
           | _ => shown charset_shown an_integer l
           end.

(** A quality factor: up to 100 in hundredths, further in thousandths.  It is
    turned into a float, which ends below 2^1024 - 2^970. *)
Definition a_quality : reader pval :=
  and_then a_uintvar
    (fun q l => if q <=? 100 then Reads (PRatio (q - 1) 100) l
                else if 2 ^ 1024 - 2 ^ 970 <=? q - 100 then Fails OverflowError l
                else Reads (PRatio (q - 100) 1000) l).

(** * Content types *)

(** The media type by number; the entry of multipart/byteranges is misspelt. *)
Definition media_shown (n : Z) : option (list Z) :=
  if n =? 14 then Some (str "multipart/byterantes")
  else nth_error assigned_media (Z.to_nat n).
Definition media_by_number (n : Z) : reader (list Z) :=
  fun l => match media_shown n with Some m => Reads m l | None => refused l end.

Definition media_by_name : reader (list Z) :=
  fun l => match l with
           | [] => ended
           | b :: _ => if (32 <=? b) && negb (b =? 127) then to_zero l else refused l
           end.

(** A media type in one octet or by name; or, with any number, by name. *)
Definition constrained_media : reader (list Z) :=
  fun l => match l with
           | [] => ended
           | b :: r => if 128 <=? b then media_by_number (b - 128) r else media_by_name l
           end.
Definition media_type : reader (list Z) :=
  or_else (and_then an_integer media_by_number) media_by_name.

(** Numbered parameters with the readers of their values.  Differences has none. *)
Definition numbered_parameters : list (Z * (list Z * reader pval)) :=
  [(0, (str "Q", a_quality));
   (1, (str "Charset", shown PStr a_charset));
   (2, (str "Level", shown PStr a_version));
   (3, (str "Type", shown PInt an_integer));
   (5, (str "Name", shown PStr a_text));
   (6, (str "Filename", shown PStr a_text));
   (7, (str "Differences", fun l => Fails AttributeError l));
   (8, (str "Padding", shown PInt a_short_integer));
   (9, (str "Type", or_else (shown PInt a_short_integer) (shown PStr media_by_name)));
   (10, (str "Start", shown PStr a_text));
   (11, (str "Start-info", shown PStr a_text))].

Definition numbered_parameter : reader (list Z * pval) :=
  and_then an_integer
    (fun n => match find (fun p => fst p =? n) numbered_parameters with
              | Some (_, (name, value)) => shown (pair name) value
              | None => refused
              end).
Definition named_parameter : reader (list Z * pval) :=
  and_then a_token
    (fun name => shown (pair name)
       (or_else (shown PInt an_integer) (shown PStr a_text_value))).
Definition a_parameter : reader (list Z * pval) :=
  or_else numbered_parameter named_parameter.

(** Items with a name and a value, up to the end of the octets, into a dictionary;
    reading stops early after an item named [last].  No item is without octets, so
    that there are at most [length l] of them. *)
Fixpoint items {V} (last : list Z -> bool) (item : reader (list Z * V)) (fuel : nat)
  (d : list (list Z * V)) : reader (list (list Z * V)) :=
  fun l => match item l with
           | Reads (k, v) r =>
               if last k then Reads (d_set leqb k v d) r
               else match fuel with
                    | O => Fails OutOfFuel r
                    | S f => items last item f (d_set leqb k v d) r
                    end
           | Fails StopIteration r => Reads d r
           | Fails e r => Fails e r
           end.
Definition all_items {V} (last : list Z -> bool) (item : reader (list Z * V))
  (d : list (list Z * V)) : reader (list (list Z * V)) :=
  fun l => items last item (length l) d l.
Definition never : list Z -> bool := fun _ => false.

(** What is read from some octets of their own. *)
Definition within {A} (l : list Z) (x : reader A) : reader A :=
  fun rest => match x l with Reads a _ => Reads a rest | Fails e _ => Fails e rest end.

(** The general form: a length, and a media type with parameters within it. *)
Definition general_content_type : reader (list Z * list (list Z * pval)) :=
  and_then a_value_length (fun n =>
  and_then (next_octets n) (fun l =>
  within l (and_then media_type (fun m =>
            shown (pair m) (all_items never a_parameter []))))).
Definition a_content_type : reader (list Z * list (list Z * pval)) :=
  or_else (shown (fun m => (m, [])) constrained_media) general_content_type.

(** * Fields of multimedia messages *)

(** A text, or a length, a character set, which is dropped, and a text.  The length
    is not looked at. *)
Definition a_charset_or_exception : reader (list Z) :=
  or_else a_charset (fun l => Fails GenericException l).
Definition an_encoded_string : reader (list Z) :=
  or_else (and_then a_value_length (fun _ => and_then a_charset_or_exception (fun _ => a_text)))
          a_text.

(** A name by octet.  An octet outside the table is refused. *)
Definition name_of (table : list (Z * list Z)) (b : Z) : option (list Z) :=
  match find (fun p => fst p =? b) table with Some (_, s) => Some s | None => None end.
Definition a_name (table : list (Z * list Z)) : reader (list Z) :=
  fun l => match l with
           | [] => ended
           | b :: r => match name_of table b with Some s => Reads s r | None => refused l end
           end.

Definition a_flag : reader bool :=
  fun l => match l with
           | [] => ended
           | 128 :: r => Reads true r
           | 129 :: r => Reads false r
           | _ => refused l
           end.

(** A time after an octet that says what is counted; the octet before it is a
    length that is not looked at. *)
Definition a_delivery_time : reader hval :=
  and_then a_value_length (fun _ =>
  and_then one_octet (fun kind =>
  and_then a_long_integer (fun n l =>
    if kind =? 128 then Reads (HTime (str "absolute") n) l
    else if kind =? 129 then Reads (HTime (str "relative") n) l
    else refused l))).
Definition an_expiry : reader hval :=
  and_then a_value_length (fun _ =>
  and_then one_octet (fun kind =>
    if kind =? 128 then shown HDate a_date
    else if kind =? 129 then shown HInt an_integer
    else refused)).
Definition a_sender : reader (list Z) :=
  and_then a_value_length (fun _ =>
  and_then one_octet (fun kind =>
    if kind =? 129 then gives (str "<not inserted>") else an_encoded_string)).

(** Octets without a name: the class of a message may be a token; the type of a
    message is "<unknown>" and the octet is left unread; the two statuses become a
    number. *)
Definition a_message_class : reader (list Z) := or_else (a_name message_class_names) a_token.
Definition a_message_type : reader (list Z) :=
  or_else (a_name message_type_names) (gives (str "<unknown>")).
Definition a_status (table : list (Z * list Z)) (otherwise : Z) : reader hval :=
  and_then one_octet
    (fun b => gives (match name_of table b with
                     | Some s => HStr s
                     | None => HInt otherwise
                     end)).

Definition mms_fields : list (Z * (list Z * reader hval)) :=
  let encoded := shown HStr an_encoded_string in
  let text := shown HStr a_text in
  let flag := shown HBool a_flag in
  [(129, (str "Bcc", encoded));
   (130, (str "Cc", encoded));
   (131, (str "Content-Location", text));
   (132, (str "Content-Type", shown (fun x => HType (fst x) (snd x)) a_content_type));
   (133, (str "Date", shown HDate a_date));
   (134, (str "Delivery-Report", flag));
   (135, (str "Delivery-Time", a_delivery_time));
   (136, (str "Expiry", an_expiry));
   (137, (str "From", shown HStr a_sender));
   (138, (str "Message-Class", shown HStr a_message_class));
   (139, (str "Message-ID", text));
   (140, (str "Message-Type", shown HStr a_message_type));
   (141, (str "MMS-Version", shown HStr a_version));
   (142, (str "Message-Size", shown HInt a_long_integer));
   (143, (str "Priority", shown HStr (a_name priority_names)));
   (144, (str "Read-Reply", flag));
   (145, (str "Report-Allowed", flag));
   (146, (str "Response-Status", a_status response_names 129));
   (147, (str "Response-Text", encoded));
   (148, (str "Sender-Visibility", shown HStr (a_name visibility_names)));
   (149, (str "Status", a_status status_names 132));
   (150, (str "Subject", encoded));
   (151, (str "To", encoded));
   (152, (str "Transaction-Id", text))].

(** * Headers of WSP *)

(** Names by number in encoding version 1.2, 0 and up. *)
Definition wsp_names : list (list Z) := map str
  ["Accept"; "Accept-Charset"; "Accept-Encoding"; "Accept-Language"; "Accept-Ranges";
   "Age"; "Allow"; "Authorization";
   (* 8 *) "Cache-Control"; "Connection"; "Content-Base"; "Content-Encoding";
   "Content-Language"; "Content-Length"; "Content-Location"; "Content-MD5";
   (* 16 *) "Content-Range"; "Content-Type"; "Date"; "Etag"; "Expires"; "From"; "Host";
   "If-Modified-Since";
   (* 24 *) "If-Match"; "If-None-Match"; "If-Range"; "If-Unmodified-Since"; "Location";
   "Last-Modified"; "Max-Forwards"; "Pragma";
   (* 32 *) "Proxy-Authenticate"; "Proxy-Authorization"; "Public"; "Range"; "Referer";
   "Retry-After"; "Server"; "Transfer-Encoding";
   (* 40 *) "Upgrade"; "User-Agent"; "Vary"; "Via"; "Warning"; "WWW-Authenticate";
   "Content-Disposition"; "X-Wap-Application-Id";
   (* 48 *) "X-Wap-Content-URI"; "X-Wap-Initiator-URI"; "Accept-Application";
   "Bearer-Indication"; "Push-Flag"; "Profile"; "Profile-Diff"; "Profile-Warning"]%string.

(** Accept: a media type; in the general form a quality factor and a parameter may
    follow, which are dropped. *)
Definition a_quality_and_parameter : reader unit :=
  fun l => match l with
           | [] => ended
           | 128 :: r => and_then a_quality (fun _ =>
                           or_else (shown (fun _ => tt) a_parameter) (gives tt)) r
           | _ => Reads tt l
           end.
Definition an_accept : reader (list Z) :=
  or_else constrained_media
    (and_then a_value_length (fun _ =>
     and_then media_type (fun m =>
     shown (fun _ => m) a_quality_and_parameter))).

Definition a_pragma : reader hval :=
  fun l => match l with
           | [] => ended
           | 128 :: r => Reads (HPragma (str "Cache-control") (PStr (str "No-cache"))) r
           | _ => and_then a_value_length (fun _ =>
                    shown (fun x => HPragma (fst x) (snd x)) a_parameter) l
           end.

Definition wsp_value (n : Z) : reader hval :=
  if n =? 0 then shown HStr an_accept
  else if n =? 31 then a_pragma
  else shown HStr a_text.

(** A header by name: the name is a token or a text, the value a text. *)
Definition named_header : reader (list Z * hval) :=
  and_then (or_else a_token a_text) (fun name => shown (fun s => (name, HStr s)) a_text).

(** A header by number, the number having been read; refused, it is taken for one
    by name. *)
Definition numbered_header (n : Z) : reader (list Z * hval) :=
  or_else (match nth_error wsp_names (Z.to_nat n) with
           | Some name => shown (pair name) (wsp_value n)
           | None => refused
           end)
          named_header.
Definition wsp_header : reader (list Z * hval) :=
  fun l => match l with
           | [] => ended
           | b :: r => if 128 <=? b then numbered_header (b - 128) r else named_header l
           end.

(** * Headers, parts, messages *)

(** A field of multimedia messages; what is refused is taken for a header of WSP.
    Any other failure within the value is a RuntimeError.  A first octet below 128 is
    where a name begins, but the octet after it is looked at: from 128 on, the first
    octet is taken for the number of a header, and if there is none, nothing is read
    and the octet stays. *)
Definition a_header : reader (list Z * hval) :=
  fun l => match l with
           | [] => ended
           | b :: r =>
               if 128 <=? b then
                 match find (fun p => fst p =? b) mms_fields with
                 | Some (_, (name, value)) =>
                     match value r with
                     | Reads v r' => Reads (name, v) r'
                     | Fails DecodeError r' => wsp_header r'
                     | Fails _ r' => Fails RuntimeError r'
                     end
                 | None => wsp_header l
                 end
               else match r with
                    | [] => Fails StopIteration l
                    | c :: _ => if 128 <=? c then numbered_header b r else named_header l
                    end
           end.

(** A part: the lengths of headers and data, a content type and headers within the
    first length, the data. *)
Definition a_part : reader part :=
  and_then a_uintvar (fun n =>
  and_then a_uintvar (fun k =>
  and_then (next_octets n) (fun l =>
  and_then (within l
    (and_then a_content_type (fun x =>
     shown (pair (snd x))
       (all_items never a_header [(str "Content-Type", HType (fst x) (snd x))]))))
    (fun x =>
  shown (fun data => Part (snd x) (fst x) None (Some data)) (next_octets k))))).

Fixpoint some_parts (n : nat) : reader (list part) :=
  match n with
  | O => gives []
  | S n' => and_then a_part (fun p => shown (cons p) (some_parts n'))
  end.

(** The number of parts and the parts; no octets are no parts. *)
Definition a_body : reader (list part) :=
  fun l => match a_uintvar l with
           | Reads n r => if 2 ^ 63 <=? n then Fails OverflowError r
                          else some_parts (Z.to_nat n) r
           | Fails _ r => Reads [] r
           end.

(** A message: headers up to the content type, over those of a new message, and the
    body. *)
Definition a_message : reader message :=
  and_then (all_items (leqb (str "Content-Type")) a_header
              [(str "Message-Type", HStr (str "m-send-req"));
               (str "Transaction-Id", HStr (str "1234"));
               (str "MMS-Version", HStr (str "1.0"));
               (str "Content-Type", HType (str "application/vnd.wap.multipart.mixed") [])])
    (fun d => shown (fun ps => Message d [] ps 176 220) a_body).

(** * Values of parameters the decoder knows of but no message can contain *)

(** The low four bits of an octet. *)
Definition a_uint8 : reader Z := shown (fun b => b mod 16) one_octet.

(** A text after a double quote. *)
Definition a_quoted : reader (list Z) :=
  fun l => match l with
           | [] => ended
           | b :: r => if b =? 34 then a_text r else refused l
           end.

(** No value: a mistake in the code makes every octet a TypeError. *)
Definition no_value : reader Z := and_then one_octet (fun _ l => Fails TypeError l).

Definition untyped : reader pval := or_else (shown PInt an_integer) (shown PStr a_text_value).
Definition typed : reader pval := or_else (shown PInt an_integer) (shown PStr a_text).

(** The value or the exception. *)
Definition result {A} (o : outcome A) : res A :=
  match o with Reads a _ => Ok a | Fails e _ => Err e end.
