(** Vocabulary of the statements about parts, slides and the SMIL description. *)
From Verif Require Import Py Iter Tables WspDec WspEnc Message MmsEnc SpecSmil WspClaims MmsClaims.
Open Scope Z_scope.

(** * Histories of a data part (C59) *)

(** What can happen: the part loads a file or is given data, its data or length is
    read, its content type is set; a file is written or removed. *)
Inductive event :=
| Load (f : list Z)
| SetData (data media : list Z) (params : list (list Z * pval))
| SetText (text : list Z)
| SetMedia (media : list Z)
| ReadData
| ReadLength
| WriteFile (f : list Z) (content : option (list Z)).

Definition write_file (f : list Z) (content : option (list Z)) (w : world) : world :=
  World (fun g => if leqb g f then content else w_file w g) (w_mime w) (w_order w).

(** An event that raises leaves the part as the failed call left it. *)
Definition happens (e : event) (wp : world * part) : world * part :=
  let '(w, p) := wp in
  match e with
  | Load f => (w, snd (from_file w f p))
  | SetData data media params => (w, set_data data media params p)
  | SetText text => (w, set_text text p)
  | SetMedia media => (w, set_content_type media p)
  | ReadData => (w, snd (get_data w p))
  | ReadLength => (w, snd (part_len w p))
  | WriteFile f content => (write_file f content w, p)
  end.
Definition history (es : list event) (w : world) (p : part) : world * part :=
  fold_left (fun s e => happens e s) es (w, p).

(** No file is written after it was loaded. *)
Definition loaded_files_kept (es : list event) : Prop :=
  forall a f content b, es = a ++ WriteFile f content :: b -> ~ In (Load f) a.

(** [len(part)] and [len(part.data)] are the same number, or fail alike. *)
Definition length_agrees (w : world) (p : part) : Prop :=
  len_of w p = (d <- data_of w p ;; Ok (zlen d)).

(** * Slides (C60) *)

(** The integers of type int; the others are long. *)
Definition machine_int (n : Z) : Prop := - 2 ^ 63 <= n < 2 ^ 63.

(** A call that adds something: which arguments it accepts, and what it does.
    [file_ok] is the condition on the file argument, [put] the effect. *)
Record Adds (call : ST page unit) (file_ok : Prop) (tb te : Z) (put : page -> page)
  : Prop := {
  adds_accepts : forall g, fst (call g) = Ok tt <->
    machine_int tb /\ machine_int te /\ file_ok /\ ~ (0 < te < tb);
  adds_valueerror : forall g, fst (call g) = Err ValueError <->
    machine_int tb /\ machine_int te /\ file_ok /\ 0 < te < tb;
  adds_typeerror : forall g, fst (call g) = Err TypeError <->
    ~ (machine_int tb /\ machine_int te);
  adds_oserror : forall g, fst (call g) = Err OSError <->
    machine_int tb /\ machine_int te /\ ~ file_ok;
  adds_effect : forall g, fst (call g) = Ok tt -> snd (call g) = put g;
  adds_unchanged : forall g e, fst (call g) = Err e -> snd (call g) = g }.

(** * The SMIL description (C61) *)

(** What an image or audio element refers to: the Content-Location, else the
    Content-ID, else the data. *)
Inductive source (w : world) (p : part) : list Z -> Prop :=
| source_location s :
    h_get (str "Content-Location") (dp_headers p) = Some (HStr s) -> source w p s
| source_id s :
    h_get (str "Content-Location") (dp_headers p) = None ->
    h_get (str "Content-ID") (dp_headers p) = Some (HStr s) -> source w p s
| source_data s :
    h_get (str "Content-Location") (dp_headers p) = None ->
    h_get (str "Content-ID") (dp_headers p) = None ->
    data_of w p = Ok s -> source w p s.

Definition describes (R : part -> list Z -> Prop) (s : slot) (d : medium) : Prop :=
  match s, d with
  | None, None => True
  | Some (p, tb, te), Some (src, tb', te') => R p src /\ tb' = tb /\ te' = te
  | _, _ => False
  end.

(** The [par] element [x] describes the slide [g]. *)
Definition slide_described (w : world) (g : page) (x : xml) : Prop :=
  exists i t a,
    describes (source w) (pg_image g) i /\
    describes (fun p s => data_of w p = Ok s) (pg_text g) t /\
    describes (source w) (pg_audio g) a /\
    slide_element (pg_duration g) i t a x.

(** Every part of the slide has a source. *)
Definition has_sources (w : world) (g : page) : Prop :=
  (forall p tb te, pg_image g = Some (p, tb, te) -> exists s, source w p s) /\
  (forall p tb te, pg_text g = Some (p, tb, te) -> exists s, data_of w p = Ok s) /\
  (forall p tb te, pg_audio g = Some (p, tb, te) -> exists s, source w p s).

(** A slide with sound has text as well. *)
Definition audio_with_text (g : page) : Prop := pg_audio g <> None -> pg_text g <> None.
