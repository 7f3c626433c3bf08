(** What makes [MMSMessage.encode] raise, and the exception it raises (C114).  Only
    the value types of the model are used, none of its functions or tables. *)
From Verif Require Import Py WspDec Message SpecWsp SpecVersion WspClaims.
Open Scope Z_scope.

(** A text with a character that is no octet. *)
Definition wide (s : list Z) : Prop := exists c, In c s /\ ~ (0 <= c < 256).

(** A text with one of the separators of the standard. *)
Definition separated (s : list Z) : Prop := exists c, In c s /\ In c separator_chars.

(** A text that starts with a control character. *)
Definition control (s : list Z) : Prop := exists c r, s = c :: r /\ (c < 32 \/ c = 127).

(** What passes for the text [s]: a str, or a pair of strings of one character. *)
Definition text_of (v : hval) (s : list Z) : Prop :=
  v = HStr s \/ exists a b, v = HPragma [a] (PStr [b]) /\ s = [a; b].

(** A number in the range of C integers ([int], as opposed to [long]). *)
Definition machine (n : Z) : Prop := - 2 ^ 63 <= n < 2 ^ 63.

(** * Headers of the message

    A version with two dots or more is left out, whatever it contains; [dot_count]
    is from SpecVersion. *)

Definition text_fields : list (list Z) :=
  [str "To"; str "Cc"; str "Bcc"; str "From"; str "Subject"; str "Response-Text";
   str "Message-ID"; str "Transaction-Id"].

(** The headers for which there is no encoder. *)
Definition read_only_fields : list (list Z) :=
  [str "Content-Location"; str "Date"; str "Delivery-Report"; str "Delivery-Time";
   str "Expiry"; str "Message-Class"; str "Priority"; str "Read-Reply";
   str "Report-Allowed"; str "Response-Status"; str "Sender-Visibility"].

Definition coded_fields : list (list Z) :=
  [str "Content-Type"; str "Message-Type"; str "MMS-Version"; str "Message-Size";
   str "Status"].

Definition statuses : list (list Z) :=
  [str "Expired"; str "Retrieved"; str "Rejected"; str "Deferred"; str "Unrecognised"].

Inductive header_refused (name : list Z) (v : hval) : exn -> Prop :=
| hr_text : In name text_fields -> (forall s, ~ text_of v s) ->
    header_refused name v TypeError
| hr_text_wide : forall s, In name text_fields -> text_of v s -> wide s ->
    header_refused name v OverflowError
| hr_read_only : In name read_only_fields -> header_refused name v AttributeError
| hr_type : forall m ps, name = str "Message-Type" -> v = HType m ps ->
    header_refused name v TypeError
| hr_version : name = str "MMS-Version" -> (forall s, v <> HStr s) ->
    header_refused name v TypeError
| hr_version_wide : forall s, name = str "MMS-Version" -> v = HStr s -> wide s ->
    (dot_count s <= 1)%nat -> header_refused name v OverflowError
| hr_size : name = str "Message-Size" -> (forall b, v <> HBool b) ->
    (forall n, v = HInt n -> ~ machine n) -> header_refused name v EncodeError
| hr_status : name = str "Status" -> (forall s, In s statuses -> v <> HStr s) ->
    header_refused name v TypeError
| hr_name : ~ In name (text_fields ++ read_only_fields ++ coded_fields) ->
    separated name -> header_refused name v EncodeError
| hr_application : ~ In name (text_fields ++ read_only_fields ++ coded_fields) ->
    ~ separated name -> (forall s, ~ text_of v s) -> header_refused name v TypeError
| hr_application_wide : forall s,
    ~ In name (text_fields ++ read_only_fields ++ coded_fields) ->
    ~ separated name -> text_of v s -> wide name \/ wide s ->
    header_refused name v OverflowError.

(** * Content types *)

Definition text_parameters : list (list Z) :=
  [str "Name"; str "Filename"; str "Start"; str "Start-info"].
Definition read_only_parameters : list (list Z) :=
  [str "Q"; str "Charset"; str "Differences"].
Definition coded_parameters : list (list Z) := [str "Level"; str "Padding"; str "Type"].

Inductive parameter_refused (name : list Z) (v : pval) : exn -> Prop :=
| par_text : In name text_parameters -> (forall s, v <> PStr s) ->
    parameter_refused name v TypeError
| par_text_wide : forall s, In name text_parameters -> v = PStr s -> wide s ->
    parameter_refused name v OverflowError
| par_read_only : In name read_only_parameters -> parameter_refused name v AttributeError
| par_level : name = str "Level" -> (forall s, v <> PStr s) ->
    parameter_refused name v TypeError
| par_level_wide : forall s, name = str "Level" -> v = PStr s -> wide s ->
    (dot_count s <= 1)%nat -> parameter_refused name v OverflowError
| par_padding : forall n d, name = str "Padding" ->
    v = PInt n /\ d = 1 \/ v = PRatio n d -> n < 0 \/ 127 * d < n ->
    parameter_refused name v EncodeError
| par_padding_type : name = str "Padding" -> (forall n, v <> PInt n) ->
    (forall n d, v = PRatio n d -> 0 <= n <= 127 * d) ->
    parameter_refused name v TypeError
| par_type_number : forall n, name = str "Type" -> v = PInt n -> machine n ->
    ~ (0 <= n <= 127) -> parameter_refused name v EncodeError
| par_type_empty : name = str "Type" -> v = PStr [] -> parameter_refused name v IndexError
| par_type_control : forall s, name = str "Type" -> v = PStr s -> control s ->
    parameter_refused name v EncodeError
| par_type_wide : forall s, name = str "Type" -> v = PStr s -> wide s -> ~ control s ->
    parameter_refused name v OverflowError
| par_type_other : name = str "Type" -> (forall n, v <> PInt n) -> (forall s, v <> PStr s) ->
    parameter_refused name v TypeError
| par_name : ~ In name (text_parameters ++ read_only_parameters ++ coded_parameters) ->
    separated name -> parameter_refused name v EncodeError
| par_other : ~ In name (text_parameters ++ read_only_parameters ++ coded_parameters) ->
    ~ separated name -> (forall n, v = PInt n -> ~ machine n) -> (forall s, v <> PStr s) ->
    parameter_refused name v TypeError
| par_other_wide : ~ In name (text_parameters ++ read_only_parameters ++ coded_parameters) ->
    ~ separated name -> (exists n, v = PInt n /\ machine n) /\ wide name \/
      (exists s, v = PStr s /\ (wide name \/ wide s)) ->
    parameter_refused name v OverflowError.

(** Content types of messages and parts are pairs of a name and a dictionary of
    parameters; an empty string passes for an empty dictionary. *)
Definition content_pair (v : hval) (m : list Z) (ps : list (list Z * pval)) : Prop :=
  v = HType m ps \/ v = HPragma m (PStr []) /\ ps = [].

Inductive type_refused (v : hval) : exn -> Prop :=
| ty_string : forall s, v = HStr s -> length s <> 2%nat -> type_refused v ValueError
| ty_two : forall a b, v = HStr [a; b] -> type_refused v TypeError
| ty_other : (forall s, v <> HStr s) -> (forall m ps, ~ content_pair v m ps) ->
    type_refused v TypeError
| ty_empty : content_pair v [] [] -> type_refused v IndexError
| ty_wide : forall m ps, content_pair v m ps -> wide m -> type_refused v OverflowError
| ty_parameter : forall m ps n x e, content_pair v m ps -> In (n, x) ps ->
    parameter_refused n x e -> type_refused v e.

(** * Parts *)

(** The headers of parts. *)
Inductive part_header_refused (name : list Z) (v : hval) : exn -> Prop :=
| ph_name : separated name -> part_header_refused name v EncodeError
| ph_name_wide : wide name -> part_header_refused name v OverflowError
| ph_pragma : name = str "Pragma" -> part_header_refused name v AttributeError
| ph_text : name <> str "Pragma" -> name <> str "Accept" -> (forall s, ~ text_of v s) ->
    part_header_refused name v TypeError
| ph_text_wide : forall s, name <> str "Pragma" -> name <> str "Accept" -> text_of v s ->
    wide s -> part_header_refused name v OverflowError
| ph_accept : name = str "Accept" -> (forall s, v <> HStr s) ->
    part_header_refused name v TypeError
| ph_accept_empty : name = str "Accept" -> v = HStr [] -> part_header_refused name v IndexError
| ph_accept_control : forall s, name = str "Accept" -> v = HStr s -> control s ->
    part_header_refused name v TypeError
| ph_accept_wide : forall s, name = str "Accept" -> v = HStr s -> wide s ->
    part_header_refused name v OverflowError.

(** A part whose headers, file or content type cannot be sent.  The last case: the
    list of the numbers of a content type with parameters, or one that starts with a
    control character, contains lists. *)
Inductive part_refused (w : world) (p : part) : exn -> Prop :=
| pr_no_type : (forall v, ~ In (str "Content-Type", v) (dp_headers p)) ->
    part_refused w p KeyError
| pr_type : forall v e, d_get leqb (str "Content-Type") (dp_headers p) = Some v ->
    type_refused v e -> part_refused w p e
| pr_header : forall k v e, In (k, v) (dp_headers p) -> k <> str "Content-Type" ->
    part_header_refused k v e -> part_refused w p e
| pr_file : forall f, dp_filename p = Some f -> w_file w f = None -> part_refused w p OSError
| pr_nested : forall v m ps, d_get leqb (str "Content-Type") (dp_headers p) = Some v ->
    content_pair v m ps -> ps <> [] \/ control m -> part_refused w p TypeError.

(** * The SMIL description *)

(** The data of the part cannot be read. *)
Definition unreadable (w : world) (p : part) : Prop :=
  dp_data p = None /\ exists f, dp_filename p = Some f /\ w_file w f = None.

(** An image or a sound without a name or data to refer to. *)
Inductive source_refused (w : world) (p : part) : exn -> Prop :=
| sr_location : forall v, d_get leqb (str "Content-Location") (dp_headers p) = Some v ->
    (forall s, v <> HStr s) -> source_refused w p AttributeError
| sr_id : forall v, d_get leqb (str "Content-Location") (dp_headers p) = None ->
    d_get leqb (str "Content-ID") (dp_headers p) = Some v ->
    (forall s, v <> HStr s) -> source_refused w p AttributeError
| sr_data : d_get leqb (str "Content-Location") (dp_headers p) = None ->
    d_get leqb (str "Content-ID") (dp_headers p) = None -> unreadable w p ->
    source_refused w p OSError.

(** Slides that cannot be described: the source of an image or a sound, the text,
    or a sound when there was no text yet. *)
Inductive slides_refused (w : world) (gs : list page) : exn -> Prop :=
| sl_source : forall g p tb te e, In g gs ->
    pg_image g = Some (p, tb, te) \/ pg_audio g = Some (p, tb, te) ->
    source_refused w p e -> slides_refused w gs e
| sl_text : forall g p tb te, In g gs -> pg_text g = Some (p, tb, te) -> unreadable w p ->
    slides_refused w gs OSError
| sl_sound : forall before g after, gs = before ++ g :: after -> pg_audio g <> None ->
    (forall h, In h (before ++ [g]) -> pg_text h = None) ->
    slides_refused w gs UnboundLocalError.
