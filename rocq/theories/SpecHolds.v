(** What an [MMSMessage] holds after any sequence of assignments and calls, told from the
    sequence alone (C130): its slides, the parts attached to it, the size of the screen,
    and which files of the slides have been read.  The calls are those of SpecDeeds.v. *)
From Verif Require Import Py WspDec Message SpecRefuse SpecDeeds.
Open Scope Z_scope.

Record holds_now := HoldsNow {
  slides_now : list page; attached_now : list part; width_now : Z; height_now : Z }.

(** * What [encode] reads *)

(** The headers that go out: the first ones as SpecDeeds.v says, the others as they are. *)
Inductive goes_out (rand : Z) (v : view) : list Z -> hval -> Prop :=
| out_first k x u : In (k, x) first_headers -> to_go rand v k u -> goes_out rand v k u
| out_other k u : (forall k' x', In (k', x') first_headers -> k <> k' /\ k <> x') -> v k = Some u ->
    goes_out rand v k u.

(** One of them cannot be written. *)
Inductive headers_refused (rand : Z) (v : view) : Prop :=
| hs_header k u e : goes_out rand v k u -> k <> str "Content-Type" -> header_refused k u e ->
    headers_refused rand v
| hs_no_type : v (str "Content-Type") = None -> headers_refused rand v
| hs_type u e : v (str "Content-Type") = Some u -> type_refused u e -> headers_refused rand v.

(** A slide has a sound, but neither it nor one before it has a text. *)
Definition sound_first (gs : list page) : Prop :=
  exists before g after, gs = before ++ g :: after /\ pg_audio g <> None /\
    forall h, In h (before ++ [g]) -> pg_text h = None.

(** The part after its data was asked for: a file is read unless there are data. *)
Inductive asked_data (w : world) : part -> part -> Prop :=
| ad_file h ps f c : w_file w f = Some c ->
    asked_data w (Part h ps (Some f) None) (Part h ps (Some f) (Some c))
| ad_there h ps f c : asked_data w (Part h ps f (Some c)) (Part h ps f (Some c))
| ad_empty h ps : asked_data w (Part h ps None None) (Part h ps None None).

(** The parts in the order in which they are sent. *)
Definition slot_part (s : slot) : list part := match s with Some (p, _, _) => [p] | None => [] end.
Definition sent_parts (gs : list page) : list part :=
  flat_map (fun g => slot_part (pg_image g) ++ slot_part (pg_audio g) ++ slot_part (pg_text g)) gs.

(** One part after the other, up to the first one that cannot be sent. *)
Inductive asked_in_turn (w : world) : list part -> list part -> Prop :=
| at_end : asked_in_turn w [] []
| at_sent p p' ps ps' : (forall e, ~ part_refused w p e) -> asked_data w p p' ->
    asked_in_turn w ps ps' -> asked_in_turn w (p :: ps) (p' :: ps')
| at_refused p ps e : part_refused w p e -> asked_in_turn w (p :: ps) (p :: ps).

(** The same slides but for the parts. *)
Definition same_times (s s' : slot) : Prop :=
  match s, s' with
  | None, None => True
  | Some (_, b, e), Some (_, b', e') => b = b' /\ e = e'
  | _, _ => False
  end.
Definition same_slide (g g' : page) : Prop :=
  pg_duration g = pg_duration g' /\ same_times (pg_image g) (pg_image g') /\
  same_times (pg_audio g) (pg_audio g') /\ same_times (pg_text g) (pg_text g').

(** Nothing is read when the headers or the description are refused. *)
Inductive read_by (w : world) (rand : Z) (v : view) (gs gs' : list page) : Prop :=
| rb_nothing : headers_refused rand v \/ sound_first gs -> gs' = gs -> read_by w rand v gs gs'
| rb_parts : ~ headers_refused rand v -> ~ sound_first gs -> Forall2 same_slide gs gs' ->
    asked_in_turn w (sent_parts gs) (sent_parts gs') -> read_by w rand v gs gs'.

(** * After the calls *)

Inductive holding : list deed -> holds_now -> Prop :=
| ho_new : holding [] (HoldsNow [] [] 176 220)
| ho_give ds h k u : holding ds h -> holding (ds ++ [GiveHeader k u]) h
| ho_take ds h k : holding ds h -> holding (ds ++ [TakeHeader k]) h
| ho_slide ds gs ps x y v g t : holding ds (HoldsNow gs ps x y) -> told ds v ->
    first_item (v (str "Content-Type")) t ->
    holding (ds ++ [AddSlide g]) (HoldsNow (gs ++ [g]) ps x y)
| ho_slide_refused ds h v g : holding ds h -> told ds v ->
    (forall t, ~ first_item (v (str "Content-Type")) t) -> holding (ds ++ [AddSlide g]) h
| ho_part ds gs ps x y p : holding ds (HoldsNow gs ps x y) ->
    holding (ds ++ [AttachPart p]) (HoldsNow gs (ps ++ [p]) x y)
| ho_screen ds gs ps x y a b : holding ds (HoldsNow gs ps x y) ->
    holding (ds ++ [PutScreen a b]) (HoldsNow gs ps a b)
| ho_encode ds gs ps x y v w rand gs' : holding ds (HoldsNow gs ps x y) -> told ds v ->
    read_by w rand v gs gs' -> holding (ds ++ [EncodeIt w rand]) (HoldsNow gs' ps x y).
