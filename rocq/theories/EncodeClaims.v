(** Vocabulary relating what the encoders write to the grammar of SpecMms. *)
From Verif Require Import Py Iter Tables WspDec WspEnc Message MmsEnc MmsDec
  SpecWsp SpecVersion WspClaims MmsClaims SpecMms GrammarClaims.
Open Scope Z_scope.

(** Text of the standard that needs no quote: no NUL, and the first character, if
    any, is printable ASCII. *)
Definition ascii_text (s : list Z) : Prop :=
  no_nul s /\ (s = [] \/ starts_with (fun c => 32 <= c < 127) s).

(** Headers a message can have by the standard, as far as the encoder knows how to
    write them.  Sizes are octets without a leading zero that read the same
    backwards. *)
Inductive standard : list Z -> hval -> Prop :=
| std_string : forall name s,
    In name [str "To"; str "Cc"; str "Bcc"; str "Subject"; str "Response-Text";
             str "Message-ID"; str "Transaction-Id"] ->
    ascii_text s -> standard name (HStr s)
| std_from : forall s, ascii_text s -> s <> [] -> standard (str "From") (HStr s)
| std_type : forall b s, In (b, s) message_type_names -> standard (str "Message-Type") (HStr s)
| std_version : forall M m, 1 <= M <= 7 -> 0 <= m <= 14 ->
    standard (str "MMS-Version") (HStr (small_dec M ++ [46] ++ small_dec m))
| std_major : forall M, 1 <= M <= 7 -> standard (str "MMS-Version") (HStr (small_dec M))
| std_version_text : forall s, Other s -> ascii_text s -> standard (str "MMS-Version") (HStr s)
| std_status : forall b s, In (b, s) status_names -> standard (str "Status") (HStr s)
| std_size : forall ds, all_octets ds -> ds <> [] -> minimal128 ds -> rev ds = ds ->
    big_endian ds <= maxint -> standard (str "Message-Size") (HInt (big_endian ds))
| std_application : forall name s, token name ->
    ~ In name (map (fun p => fst (snd p)) mms_field_names) -> ascii_text s ->
    standard name (HStr s).

(** Content types: without parameters; "multipart/byterantes" is excluded because
    the table of the code has this name under the number of
    multipart/byteranges. *)
Definition standard_media (media : list Z) : Prop :=
  no_nul media /\ starts_with (fun c => 32 <= c < 127) media /\
  media <> str "multipart/byterantes".
Definition standard_type (v : hval) : Prop :=
  exists media, v = HType media [] /\ standard_media media.

(** Every header a message with the headers [d] sends is standard. *)
Definition standard_headers (rand : Z) (d : list (list Z * hval)) : Prop :=
  has (str "Content-Type") d /\
  forall k v, sent_headers rand d k = Some v ->
    if leqb k (str "Content-Type") then standard_type v else standard k v.

(** Headers of parts: the numbered text headers of the standard and application
    headers. *)
Inductive standard_part_header : list Z -> hval -> Prop :=
| sph_number : forall name s, In name (map fst part_header_names) -> ascii_text s ->
    standard_part_header name (HStr s)
| sph_application : forall name s, token name ->
    ~ In name (firstn 56 header_field_names) -> ascii_text s ->
    standard_part_header name (HStr s).
Definition standard_part (w : world) (p : part) : Prop :=
  is_dict (dp_headers p) /\
  (exists v, h_get (str "Content-Type") (dp_headers p) = Some v /\ standard_type v) /\
  (forall k v, h_get k (dp_headers p) = Some v -> k <> str "Content-Type" ->
     standard_part_header k v) /\
  exists data, holds w p data /\ all_octets data.

(** The fields [fs] are the headers [D], each once. *)
Definition fields_are (fs : list (list Z * value)) (D : list Z -> option hval) : Prop :=
  NoDup (map fst fs) /\
  forall k, match last_value k fs with
            | Some v => exists h, D k = Some h /\ shows k v h
            | None => D k = None
            end.

(** The entry [e] is the part [p]: same content, content type and headers. *)
Definition entry_is (w : world) (p : part) (e : entry) : Prop :=
  holds w p (e_data e) /\
  fields_are ((str "Content-Type", Media_type (e_media e) (e_params e))
                :: map (fun h => (fst h, Text (snd h))) (e_headers e))
             (fun k => h_get k (dp_headers p)).
