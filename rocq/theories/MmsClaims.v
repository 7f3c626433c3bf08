(** Vocabulary of the statements about MMS headers and messages. *)
From Coq Require Export Permutation.
From Verif Require Import Py Iter Tables WspDec WspEnc Message MmsEnc MmsDec
  SpecWsp SpecVersion WspClaims.
Open Scope Z_scope.

(** Text that can be sent as a text-string: no NUL, and the first character is
    not the quote octet 127. *)
Definition plain_text (s : list Z) : Prop :=
  no_nul s /\ ~ starts_with (fun c => c = 127) s.

(** Text that can be sent as an encoded-string: no NUL, not empty, and the first
    character is no control character. *)
Definition plain_string (s : list Z) : Prop :=
  no_nul s /\ starts_with (fun c => 32 <= c /\ c <> 127) s.

(** The names of the MMS headers. *)
Definition mms_names : list (list Z) :=
  [str "Bcc"; str "Cc"; str "Content-Location"; str "Content-Type"; str "Date";
   str "Delivery-Report"; str "Delivery-Time"; str "Expiry"; str "From";
   str "Message-Class"; str "Message-ID"; str "Message-Type"; str "MMS-Version";
   str "Message-Size"; str "Priority"; str "Read-Reply"; str "Report-Allowed";
   str "Response-Status"; str "Response-Text"; str "Sender-Visibility"; str "Status";
   str "Subject"; str "To"; str "Transaction-Id"].

(** Names of application headers: a token whose first two characters are ASCII,
    no name of an MMS header. *)
Definition application_name (name : list Z) : Prop :=
  token_string name /\ Forall (fun c => c < 128) (firstn 2 name) /\
  ~ In name mms_names.

(** A name that can be sent as text: no separator and no NUL, no control character
    unless the first character is one, and the first two octets sent are ASCII: those
    of the name, the NUL that ends it or the first one of the value. *)
Definition token_name (name s : list Z) : Prop :=
  Forall (fun c => 0 < c < 256 /\ ~ In c separator_chars) name /\
  (Forall (fun c => 32 <= c) name \/ starts_with (fun c => c < 32) name) /\
  Forall (fun c => c < 128) (firstn 2 (name ++ [0] ++ s ++ [0])).

(** The name of any other header. *)
Definition other_name (name s : list Z) : Prop := ~ In name mms_names /\ token_name name s.

(** Headers with a value that can be sent and received. *)
Inductive supported : list Z -> hval -> Prop :=
| sup_string : forall name s,
    In name [str "To"; str "Cc"; str "Bcc"; str "Subject"; str "Response-Text"] ->
    plain_string s -> supported name (HStr s)
| sup_from : forall s, plain_string s -> supported (str "From") (HStr s)
| sup_text : forall name s,
    In name [str "Message-ID"; str "Transaction-Id"] ->
    plain_text s -> supported name (HStr s)
| sup_type : forall s,
    In s [str "m-send-req"; str "m-send-conf"; str "m-notification-ind";
          str "m-notifyresp-ind"; str "m-retrieve-conf"; str "m-acknowledge-ind";
          str "m-delivery-ind"] ->
    supported (str "Message-Type") (HStr s)
| sup_version : forall s, plain_version s -> supported (str "MMS-Version") (HStr s)
| sup_version_text : forall s, no_nul s -> Other s -> ~ starts_with (fun c => 127 <= c) s ->
    supported (str "MMS-Version") (HStr s)
| sup_status : forall s,
    In s [str "Expired"; str "Retrieved"; str "Rejected"; str "Deferred";
          str "Unrecognised"] ->
    supported (str "Status") (HStr s)
| sup_size : forall ds, Forall (fun b => 0 <= b < 256) ds -> minimal128 ds -> rev ds = ds ->
    big_endian ds <= maxint -> supported (str "Message-Size") (HInt (big_endian ds))
| sup_other : forall name s, other_name name s -> plain_text s ->
    supported name (HStr s).

(** Encoding a header and decoding it gives the header back and consumes exactly
    the encoding, whatever follows. *)
Definition HeaderRoundTrip (name : list Z) (v : hval) : Prop :=
  exists l bytes, mms_encode_header name v = Ok l /\ array_of l = Ok bytes /\
    Decodes decode_header bytes (name, v).

(** * Message headers *)

(** Dictionaries: the keys are distinct. *)
Definition is_dict {V} (d : list (list Z * V)) : Prop := NoDup (map fst d).

(** Iterating over a dictionary delivers its entries in some order. *)
Definition any_order (w : world) : Prop := forall d, Permutation (w_order w d) d.

(** A header is set, under the given name. *)
Definition has (k : list Z) (d : list (list Z * hval)) : Prop := h_get k d <> None.

(** What a message with the headers [d] sends under the name [k].  The three
    names with the prefix X-Mms- stand for the plain ones; a send request to
    nobody goes out as m-retrieve-conf, and "nobody" overlooks Bcc (the code tests
    "Bc"); the transaction identifier defaults to the random number and the
    version to 1.0. *)
Definition sent_headers (rand : Z) (d : list (list Z * hval)) (k : list Z) : option hval :=
  let either a b := match h_get a d with Some v => Some v | None => h_get b d end in
  if leqb k (str "X-Mms-Message-Type") || leqb k (str "X-Mms-Transaction-Id")
     || leqb k (str "X-Mms-Version") then None
  else if leqb k (str "Message-Type") then
    match either (str "X-Mms-Message-Type") (str "Message-Type") with
    | None => Some (HStr (str "m-retrieve-conf"))
    | Some v =>
        if is_hstr v (str "m-send-req") && negb (h_mem (str "To") d)
           && negb (h_mem (str "Cc") d) && negb (h_mem (str "Bc") d)
        then Some (HStr (str "m-retrieve-conf")) else Some v
    end
  else if leqb k (str "Transaction-Id") then
    match either (str "X-Mms-Transaction-Id") (str "Transaction-Id") with
    | None => Some (HStr (py_dec rand))
    | Some v => Some v
    end
  else if leqb k (str "MMS-Version") then
    match either (str "X-Mms-Version") (str "MMS-Version") with
    | None => Some (HStr (str "1.0"))
    | Some v => Some v
    end
  else h_get k d.

(** A content type without parameters that can be sent. *)
Definition plain_type (v : hval) : Prop :=
  exists media, v = HType media [] /\ plain_media media.

(** Every header a message with the headers [d] sends can be sent. *)
Definition sendable (rand : Z) (d : list (list Z * hval)) : Prop :=
  has (str "Content-Type") d /\
  forall k v, sent_headers rand d k = Some v ->
    if leqb k (str "Content-Type") then plain_type v else supported k v.

(** * Parts *)

(** Headers of a part that survive: headers whose name has no number, Accept, and
    other well-known headers whose number means nothing to MMS. *)
Inductive part_header : list Z -> hval -> Prop :=
| ph_token : forall name s, ~ In name (firstn 56 header_field_names) ->
    token_name name s -> plain_text s -> part_header name (HStr s)
| ph_accept : forall s, plain_media s -> part_header (str "Accept") (HStr s)
| ph_well_known : forall name s,
    In name (skipn 25 (firstn 56 header_field_names)) -> name <> str "Pragma" ->
    plain_text s -> part_header name (HStr s).

(** Encoding a header of a part and decoding it gives it back and consumes exactly
    the encoding, whatever follows. *)
Definition PartHeaderRoundTrip (name : list Z) (v : hval) : Prop :=
  exists l bytes, wsp_encode_header name v = Ok l /\ array_of l = Ok bytes /\
    Decodes decode_header bytes (name, v).

(** The content of a part in a given world: the string it was given or the file it
    was made from, unread or read before and unchanged since. *)
Inductive holds (w : world) (p : part) (data : list Z) : Prop :=
| holds_string : dp_filename p = None -> dp_data p = Some data -> holds w p data
| holds_file : forall f, dp_filename p = Some f -> w_file w f = Some data ->
    dp_data p = None \/ dp_data p = Some data -> holds w p data.

(** A part with a content type without parameters and surviving headers. *)
Definition part_sendable (p : part) : Prop :=
  is_dict (dp_headers p) /\
  (exists v, h_get (str "Content-Type") (dp_headers p) = Some v /\ plain_type v) /\
  forall k v, h_get k (dp_headers p) = Some v -> k <> str "Content-Type" -> part_header k v.

(** What should arrive for a part with the headers [d] and the content [data]. *)
Definition arrives (d : list (list Z * hval)) (data : list Z) (p : part) : Prop :=
  dp_data p = Some data /\ dp_filename p = None /\
  forall k, h_get k (dp_headers p) = h_get k d.

(** The parts on the slides of a message, in the order they are sent. *)
Definition slide_parts (m : message) : list part :=
  map (fun s => fst (fst s)) (flat_map page_slots (m_pages m)).

(** Every slide part can be sent and its content can be read. *)
Definition slides_sendable (w : world) (m : message) : Prop :=
  Forall (fun p => part_sendable p /\ exists data, holds w p data) (slide_parts m).

(** No part on a slide refers to the file [f]. *)
Definition unused (f : list Z) (m : message) : Prop :=
  Forall (fun p => dp_filename p <> Some f) (slide_parts m).

(** The part [p'] received for the part [p] sent. *)
Definition delivers (w : world) (p p' : part) : Prop :=
  exists data, holds w p data /\ arrives (dp_headers p) data p'.

(** * Decoded messages *)

(** The header [k] with the value [v] was decoded from a piece of [data]. *)
Definition read_from (data k : list Z) (v : hval) : Prop :=
  exists before piece after it it', data = before ++ piece ++ after /\ piece <> [] /\
    remaining it = piece ++ after /\ decode_header it = (Ok (k, v), it') /\
    remaining it' = after.

(** * Building messages *)

(** A slide with one text, added to the message: [page = MMSMessagePage();
    page.add_text(text, begin, end); message.add_page(page)]. *)
Definition add_text_slide (s : list Z * Z * Z) : ST message unit :=
  match add_text (fst (fst s)) (snd (fst s)) (snd s) new_page with
  | (Ok _, g) => add_page g
  | (Err e, _) => st_err e
  end.

(** The slides are added one after the other. *)
Fixpoint add_text_slides (l : list (list Z * Z * Z)) : ST message unit :=
  match l with
  | [] => st_ret tt
  | s :: r => _ <~ add_text_slide s ;; add_text_slides r
  end.

(** The same message with other attached parts. *)
Definition with_parts (ps : list part) (m : message) : message :=
  Message (m_headers m) (m_pages m) ps (m_width m) (m_height m).
