(** Vocabulary relating what the decoders return to the grammar of SpecMms. *)
From Verif Require Import Py Iter Tables WspDec WspEnc Message MmsEnc MmsDec
  SpecWsp WspClaims SpecMms.
Open Scope Z_scope.

(** * What a value looks like to the caller *)

(** A parameter value: a string, an int, or the float of the quality factor. *)
Definition shows_param (v : pvalue) (p : pval) : Prop :=
  match v, p with
  | Ptext s, PStr s' => s' = s
  | Pnumber n, PInt n' => n' = n
  | Pquality q, PRatio a b => 0 < b /\ a * 1000 = q * b
  | _, _ => False
  end.

(** A dictionary shows, under every name, the last value given to it, and
    [base] for the names that were given none. *)
Definition shows_dict {V W} (shows : list Z -> V -> W -> Prop)
  (base : list Z -> option W) (vs : list (list Z * V)) (d : list (list Z * W)) : Prop :=
  forall k, match last_value k vs with
            | Some v => exists w, d_get leqb k d = Some w /\ shows k v w
            | None => d_get leqb k d = base k
            end.

Definition nothing {W} : list Z -> option W := fun _ => None.

Definition shows_params : list (list Z * pvalue) -> list (list Z * pval) -> Prop :=
  shows_dict (fun _ => shows_param) nothing.

(** A field value: str, int, bool, datetime, or for Delivery-Time a pair, and for
    Content-Type the type with a dictionary of parameters. *)
Definition shows (name : list Z) (v : value) (h : hval) : Prop :=
  match v with
  | Text s => h = HStr s
  | Number n => h = HInt n
  | Flag b => h = HBool b
  | At t => h = if leqb name (str "Delivery-Time") then HTime (str "absolute") t else HDate t
  | After n => h = if leqb name (str "Delivery-Time") then HTime (str "relative") n else HInt n
  | InsertAddress => h = HStr (str "<not inserted>")
  | Media_type media ps => exists d, h = HType media d /\ shows_params ps d
  end.

(** A part: its data, the parameters of its content type, and its headers, among
    them the content type. *)
Definition shows_part (e : entry) (p : part) : Prop :=
  dp_data p = Some (e_data e) /\ dp_filename p = None /\
  shows_params (e_params e) (dp_params p) /\
  shows_dict shows nothing
    ((str "Content-Type", Media_type (e_media e) (e_params e))
       :: map (fun h => (fst h, Text (snd h))) (e_headers e))
    (dp_headers p).

(** A message: its fields over the headers of a new message, and its parts. *)
Definition shows_message (fs : list (list Z * value)) (es : list entry) (m : message) : Prop :=
  shows_dict shows (fun k => d_get leqb k (m_headers new_message)) fs (m_headers m) /\
  Forall2 shows_part es (m_parts m) /\ m_pages m = [].

(** * What the decoder misreads *)

(** The last second of the year 9999, after which there is no datetime. *)
Definition last_second : Z := 253402300799.

(** Fields: an empty encoded string without character set, a version without
    minor number, a date after the year 9999, a relative delivery time of less
    than 128 seconds in one octet. *)
Inductive misread_field : list Z -> value -> list Z -> Prop :=
| mf_empty : forall name v c, In c [129; 130; 147; 150; 151] -> misread_field name v [c; 0]
| mf_empty_from : forall name v n vl, Value_length n vl ->
    misread_field name v (137 :: vl ++ [128; 0])
| mf_major : forall name v M, 1 <= M <= 7 -> misread_field name v [141; 128 + M * 16 + 15]
| mf_late : forall name t l, last_second < t -> name <> str "Delivery-Time" ->
    misread_field name (At t) l
| mf_delivery : forall name v n vl k, Value_length n vl -> 0 <= k < 128 ->
    misread_field name v (135 :: vl ++ [129; 128 + k]).

(** Parameters: any-charset, a version without minor number, a quoted string. *)
Inductive misread_param : list Z -> pvalue -> list Z -> Prop :=
| mp_any : forall name v i, Integer_value 1 i -> misread_param name v (i ++ [128])
| mp_major : forall name v i M, 1 <= M <= 7 -> Integer_value 2 i ->
    misread_param name v (i ++ [128 + M * 16 + 15])
| mp_quoted : forall name v t s, Token_text name t -> misread_param name v (t ++ 34 :: s).

(** Headers of parts: all with a number below 153 or above 183, which are fields
    of MMS or unknown to the decoder. *)
Definition misread_part_header (l : list Z) : Prop :=
  starts_with (fun c => 128 <= c < 153 \/ 183 < c) l.

(** The grammar without them, and without the media type whose name is
    misspelt. *)
Definition Read_param name v l := Param name v l /\ ~ misread_param name v l.
Definition Read_type media ps l :=
  Content_type_with Read_param media ps l /\ media <> str "multipart/byteranges".
Definition Read_field name v l := Field name v l /\ ~ misread_field name v l.
Definition Read_part_header name s l := Part_header name s l /\ ~ misread_part_header l.
Definition Read_message :=
  Multipart_message_with Read_field Read_type (Multipart_entry Read_type Read_part_header).
