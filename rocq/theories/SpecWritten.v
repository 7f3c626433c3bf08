(** The octets [MMSMessage.encode] writes for whatever it accepts (C123).  Only the value
    types of the model are used, none of its functions or tables; [sent_headers] and
    [slide_parts] are from MmsClaims. *)
From Coq Require Import Permutation.
From Verif Require Import Py WspDec Message SpecWsp SpecVersion MmsClaims SpecMms SpecRefuse.
Open Scope Z_scope.

(** * Numbers *)

(** The shortest uintvar. *)
Inductive uintvar_of (n : Z) : list Z -> Prop :=
| uintvar_is ds d : Forall digit128 ds -> digit128 d -> minimal128 ds -> base128 (ds ++ [d]) = n ->
    uintvar_of n (uintvar_octets ds d).

(** A length: one octet up to 30, else 31 and a uintvar. *)
Inductive value_length_of (n : Z) : list Z -> Prop :=
| vl_short : n <= 30 -> value_length_of n [n]
| vl_long l : 30 < n -> uintvar_of n l -> value_length_of n (31 :: l).

(** The number of octets and the octets of a number, least significant first; a
    negative number is written as 0.  Only machine integers are written. *)
Inductive long_of (n : Z) : list Z -> Prop :=
| long_positive ds : machine n -> all_octets ds -> minimal128 ds -> big_endian ds = n ->
    long_of n (n_octets ds :: rev ds)
| long_negative : machine n -> n < 0 -> long_of n [0].

(** * Headers of the message *)

Definition numbered_texts : list (list Z * Z) :=
  [(str "Bcc", 129); (str "Cc", 130); (str "Message-ID", 139); (str "Response-Text", 147);
   (str "Subject", 150); (str "To", 151); (str "Transaction-Id", 152)].
Definition type_codes : list (list Z * Z) :=
  [(str "m-send-req", 128); (str "m-send-conf", 129); (str "m-notification-ind", 130);
   (str "m-notifyresp-ind", 131); (str "m-retrieve-conf", 132); (str "m-acknowledge-ind", 133);
   (str "m-delivery-ind", 134)].
Definition status_codes : list (list Z * Z) :=
  [(str "Expired", 128); (str "Retrieved", 129); (str "Rejected", 130); (str "Deferred", 131);
   (str "Unrecognised", 132)].

(** All but the content type, which comes last.  A type that is not one of the seven
    goes out as m-send-req. *)
Inductive header_written (name : list Z) (v : hval) : list Z -> Prop :=
| hw_text n s : In (name, n) numbered_texts -> text_of v s -> header_written name v (n :: s ++ [0])
| hw_from s l : name = str "From" -> text_of v s -> s <> [] -> value_length_of (n_octets s + 2) l ->
    header_written name v (137 :: l ++ 128 :: s ++ [0])
| hw_from_nobody : name = str "From" -> v = HStr [] -> header_written name v [137; 1; 129]
| hw_type s k : name = str "Message-Type" -> v = HStr s -> In (s, k) type_codes ->
    header_written name v [140; k]
| hw_type_other : name = str "Message-Type" -> (forall s, In s (map fst type_codes) -> v <> HStr s) ->
    header_written name v [140; 128]
| hw_version s l : name = str "MMS-Version" -> v = HStr s -> Sent s l -> header_written name v (141 :: l)
| hw_size n l : name = str "Message-Size" -> v = HInt n \/ v = HBool true /\ n = 1 \/ v = HBool false /\ n = 0 ->
    long_of n l -> header_written name v (142 :: l)
| hw_status s k : name = str "Status" -> v = HStr s -> In (s, k) status_codes ->
    header_written name v [149; k]
| hw_other s : ~ In name (text_fields ++ read_only_fields ++ coded_fields) -> text_of v s ->
    header_written name v (name ++ [0] ++ s ++ [0]).

(** * Content types *)

(** A media type: its number, or else its name.  Number 14 is known under a misspelt
    name only. *)
Inductive media_written (m : list Z) : list Z -> Prop :=
| mw_number n : media_number n m -> n <> 14 -> media_written m [128 + n]
| mw_misspelt : m = str "multipart/byterantes" -> media_written m [142]
| mw_name : (forall n, media_number n m -> n = 14) -> m <> str "multipart/byterantes" ->
    media_written m (m ++ [0]).

Definition parameter_texts : list (list Z * Z) :=
  [(str "Name", 133); (str "Filename", 134); (str "Start", 138); (str "Start-info", 139)].

Inductive parameter_written (name : list Z) (v : pval) : list Z -> Prop :=
| pw_text n s : In (name, n) parameter_texts -> v = PStr s -> parameter_written name v (n :: s ++ [0])
| pw_level s l : name = str "Level" -> v = PStr s -> Sent s l -> parameter_written name v (130 :: l)
| pw_padding n : name = str "Padding" -> v = PInt n -> 0 <= n <= 127 ->
    parameter_written name v [136; 128 + n]
| pw_type_number n : name = str "Type" -> v = PInt n -> 0 <= n <= 127 ->
    parameter_written name v [137; 128 + n]
| pw_type_long n : name = str "Type" -> v = PInt n -> ~ machine n ->
    parameter_written name v (137 :: (if n <? 0 then [45] else []) ++ py_dec (Z.abs n) ++ [0])
| pw_type s : name = str "Type" -> v = PStr s -> parameter_written name v (137 :: s ++ [0])
| pw_other_text s : ~ In name (text_parameters ++ read_only_parameters ++ coded_parameters) ->
    v = PStr s -> parameter_written name v (name ++ [0] ++ s ++ [0])
| pw_other_short n : ~ In name (text_parameters ++ read_only_parameters ++ coded_parameters) ->
    v = PInt n -> 0 <= n <= 127 -> parameter_written name v (name ++ [0; 128 + n])
| pw_other_long n l : ~ In name (text_parameters ++ read_only_parameters ++ coded_parameters) ->
    v = PInt n -> ~ (0 <= n <= 127) -> long_of n l -> parameter_written name v (name ++ 0 :: l).

(** With parameters, or with a name that starts with a control character, a length goes
    in front: the number of parameters and one. *)
Inductive type_written (m : list Z) (ps : list (list Z * pval)) : list Z -> Prop :=
| tw_plain l : ps = [] -> ~ control m -> media_written m l -> type_written m ps l
| tw_general n l bs : ps <> [] \/ control m -> value_length_of (1 + Z.of_nat (length ps)) n ->
    media_written m l -> Forall2 (fun p b => parameter_written (fst p) (snd p) b) ps bs ->
    type_written m ps (n ++ l ++ concat bs).

(** * Parts *)

(** The headers with a number, from 0, in version 1.2. *)
Definition numbered_headers : list (list Z) := map str
  ["Accept"; "Accept-Charset"; "Accept-Encoding"; "Accept-Language"; "Accept-Ranges"; "Age"; "Allow";
   "Authorization"; "Cache-Control"; "Connection"; "Content-Base"; "Content-Encoding";
   "Content-Language"; "Content-Length"; "Content-Location"; "Content-MD5"; "Content-Range";
   "Content-Type"; "Date"; "Etag"; "Expires"; "From"; "Host"; "If-Modified-Since"; "If-Match";
   "If-None-Match"; "If-Range"; "If-Unmodified-Since"; "Location"; "Last-Modified"; "Max-Forwards";
   "Pragma"; "Proxy-Authenticate"; "Proxy-Authorization"; "Public"; "Range"; "Referer";
   "Retry-After"; "Server"; "Transfer-Encoding"; "Upgrade"; "User-Agent"; "Vary"; "Via"; "Warning";
   "WWW-Authenticate"; "Content-Disposition"; "X-Wap-Application-Id"; "X-Wap-Content-URI";
   "X-Wap-Initiator-URI"; "Accept-Application"; "Bearer-Indication"; "Push-Flag"; "Profile";
   "Profile-Diff"; "Profile-Warning"]%string.

Inductive name_written (name : list Z) : list Z -> Prop :=
| nw_number i : nth_error numbered_headers i = Some name -> name_written name [128 + Z.of_nat i]
| nw_name : ~ In name numbered_headers -> name_written name (name ++ [0]).

(** A text, whatever the header; for Accept a media type. *)
Inductive part_header_written (name : list Z) (v : hval) : list Z -> Prop :=
| phw_accept s l : name = str "Accept" -> v = HStr s -> media_written s l ->
    part_header_written name v (128 :: l)
| phw_text s l : name <> str "Accept" -> text_of v s -> name_written name l ->
    part_header_written name v (l ++ s ++ [0]).

(** The data and the announced length, which is that of the file if there is one. *)
Inductive data_sent (w : world) (p : part) : list Z -> Prop :=
| ds_held d : dp_data p = Some d -> data_sent w p d
| ds_file f d : dp_data p = None -> dp_filename p = Some f -> w_file w f = Some d -> data_sent w p d
| ds_nothing : dp_data p = None -> dp_filename p = None -> data_sent w p [].
Inductive size_sent (w : world) (p : part) : Z -> Prop :=
| ss_file f d : dp_filename p = Some f -> w_file w f = Some d -> size_sent w p (n_octets d)
| ss_data d : dp_filename p = None -> data_sent w p d -> size_sent w p (n_octets d).

(** The length of the headers, that of the data, the content type, the other headers
    in some order, the data. *)
Inductive part_written (w : world) (p : part) : list Z -> Prop :=
| part_is v m hs bs n d hl dl ct :
    d_get leqb (str "Content-Type") (dp_headers p) = Some v -> content_pair v m [] -> ~ control m ->
    media_written m ct ->
    Permutation hs (filter (fun h => negb (leqb (fst h) (str "Content-Type"))) (dp_headers p)) ->
    Forall2 (fun h b => part_header_written (fst h) (snd h) b) hs bs ->
    size_sent w p n -> data_sent w p d ->
    uintvar_of (n_octets ct + n_octets (concat bs)) hl -> uintvar_of n dl ->
    part_written w p (hl ++ dl ++ ct ++ concat bs ++ d).

(** * Messages *)

Definition first_three : list (list Z) :=
  [str "Message-Type"; str "Transaction-Id"; str "MMS-Version"].

(** The three first headers, the others in some order, the content type; the number of
    entries (attached parts are counted but not sent), the SMIL description [text]
    with its 35 octets of headers, and the parts of the slides. *)
Inductive message_written (w : world) (rand : Z) (m : message) (text : list Z) : list Z -> Prop :=
| message_is firsts others bs v ty ps ct count smil es :
    Forall2 (fun k b => exists v, sent_headers rand (m_headers m) k = Some v /\ header_written k v b)
      first_three firsts ->
    NoDup (map fst others) ->
    (forall k v, In (k, v) others <->
       sent_headers rand (m_headers m) k = Some v /\ ~ In k (str "Content-Type" :: first_three)) ->
    Forall2 (fun h b => header_written (fst h) (snd h) b) others bs ->
    sent_headers rand (m_headers m) (str "Content-Type") = Some v -> content_pair v ty ps ->
    type_written ty ps ct ->
    uintvar_of (1 + Z.of_nat (length (slide_parts m)) + Z.of_nat (length (m_parts m))) count ->
    uintvar_of (n_octets text) smil ->
    Forall2 (part_written w) (slide_parts m) es ->
    message_written w rand m text
      (concat firsts ++ concat bs ++ 132 :: ct ++
       count ++ 35 :: smil ++ str "application/smil" ++ [0] ++ str "Content-ID" ++ [0] ++
         str "<0000>" ++ [0] ++ text ++ concat es).
