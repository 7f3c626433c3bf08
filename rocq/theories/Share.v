(** Slides, parts and messages as objects with identity.

    In [Message.v] objects are values; here slides hold references to parts and messages
    hold references to slides and parts, as the Python objects do. *)
From Verif Require Import Py Iter WspDec WspEnc Message MmsEnc.
Open Scope Z_scope.

(** message.py 280-284 and 341, 377, 411: a slot holds a part object and its times. *)
Definition hslot := option (nat * Z * Z).
Record hpage := HPage {
  hg_duration : Z; hg_image : hslot; hg_audio : hslot; hg_text : hslot }.

(** message.py 30-44: a message holds slides and parts that others may hold too. *)
Record hmsg := HMsg {
  hm_headers : list (list Z * hval);
  hm_pages : list nat;
  hm_parts : list nat;
  hm_width : Z;
  hm_height : Z }.

(** The objects by their identity; parts from [h_next] on are not in use. *)
Record heap := Heap {
  h_parts : nat -> part;
  h_pages : nat -> hpage;
  h_msgs : nat -> hmsg;
  h_next : nat }.

Definition set_at {A} (i : nat) (a : A) (f : nat -> A) : nat -> A :=
  fun j => if Nat.eqb j i then a else f j.
Definition put_part (i : nat) (p : part) (h : heap) : heap :=
  Heap (set_at i p (h_parts h)) (h_pages h) (h_msgs h) (h_next h).
Definition put_page (i : nat) (g : hpage) (h : heap) : heap :=
  Heap (h_parts h) (set_at i g (h_pages h)) (h_msgs h) (h_next h).
Definition put_msg (i : nat) (m : hmsg) (h : heap) : heap :=
  Heap (h_parts h) (h_pages h) (set_at i m (h_msgs h)) (h_next h).
(** A new object. *)
Definition new_ref (p : part) (h : heap) : nat * heap :=
  (h_next h, Heap (set_at (h_next h) p (h_parts h)) (h_pages h) (h_msgs h) (S (h_next h))).

(** * What an object is worth at a moment *)

Definition slot_value (h : heap) (s : hslot) : slot :=
  match s with Some (j, tb, te) => Some (h_parts h j, tb, te) | None => None end.
Definition page_value (h : heap) (i : nat) : page :=
  let g := h_pages h i in
  Page (hg_duration g) (slot_value h (hg_image g)) (slot_value h (hg_audio g))
       (slot_value h (hg_text g)).
Definition message_value (h : heap) (k : nat) : message :=
  let m := h_msgs h k in
  Message (hm_headers m) (map (page_value h) (hm_pages m)) (map (h_parts h) (hm_parts m))
          (hm_width m) (hm_height m).

(** * Calls *)

(** message.py 280-284: [MMSMessagePage()] and 30-44: [MMSMessage()]. *)
Definition new_hpage : hpage := HPage 4000 None None None.
Definition new_hmsg : hmsg := HMsg default_headers [] [] 176 220.

(** message.py 332-341, 368-377, 403-411: the end of [add_image], [add_audio] and
    [add_text]: a new part in a slot of slide [i]. *)
Definition h_add (isf : bool) (p : res part) (tb te : Z) (fill : hslot -> hpage -> hpage)
  (i : nat) : ST heap unit :=
  fun h =>
    match fst (check_times isf tb te new_page) with
    | Err e => (Err e, h)
    | Ok _ =>
        match p with
        | Err e => (Err e, h)
        | Ok p =>
            let (j, h) := new_ref p h in
            (Ok tt, put_page i (fill (Some (j, tb, te)) (h_pages h i)) h)
        end
    end.
(** message.py 307-341. *)
Definition h_add_image (w : world) (f : list Z) (tb te : Z) (i : nat) : ST heap unit :=
  h_add (isfile w f) (part_from_file w f) tb te
    (fun s g => HPage (hg_duration g) s (hg_audio g) (hg_text g)) i.
(** message.py 343-377. *)
Definition h_add_audio (w : world) (f : list Z) (tb te : Z) (i : nat) : ST heap unit :=
  h_add (isfile w f) (part_from_file w f) tb te
    (fun s g => HPage (hg_duration g) (hg_image g) s (hg_text g)) i.
(** message.py 379-411. *)
Definition h_add_text (t : list Z) (tb te : Z) (i : nat) : ST heap unit :=
  h_add true (Ok (set_text t new_part)) tb te
    (fun s g => HPage (hg_duration g) (hg_image g) (hg_audio g) s) i.
(** message.py 413-430. *)
Definition h_set_duration (d : Z) (i : nat) : ST heap unit :=
  fun h =>
    if negb (is_int d) then (Err TypeError, h)
    else if d <? 1 then (Err ValueError, h)
    else let g := h_pages h i in
         (Ok tt, put_page i (HPage d (hg_image g) (hg_audio g) (hg_text g)) h).

(** message.py 59-70: [add_page] keeps the slide itself, not a copy. *)
Definition h_add_page (k i : nat) : ST heap unit :=
  fun h =>
    let m := h_msgs h k in
    match d_get leqb (str "Content-Type") (hm_headers m) with
    | None => (Err KeyError, h)
    | Some v =>
        match first_of v with
        | Err e => (Err e, h)
        | Ok ct =>
            let hs := if leqb ct (str "application/vnd.wap.multipart.related")
                      then hm_headers m
                      else d_set leqb (str "Content-Type")
                             (HType (str "application/vnd.wap.multipart.related") [])
                             (hm_headers m) in
            (Ok tt, put_msg k (HMsg hs (hm_pages m ++ [i]) (hm_parts m) (hm_width m)
                                    (hm_height m)) h)
        end
    end.

(** message.py 77-90: [add_data_part] with the part object [j]. *)
Definition h_add_data_part (k j : nat) (h : heap) : heap :=
  let m := h_msgs h k in
  put_msg k (HMsg (hm_headers m) (hm_pages m) (hm_parts m ++ [j]) (hm_width m) (hm_height m)) h.

(** message.py 35: assignment to an item of [headers]. *)
Definition h_set_header (k : nat) (name : list Z) (v : hval) (h : heap) : heap :=
  let m := h_msgs h k in
  put_msg k (HMsg (d_set leqb name v (hm_headers m)) (hm_pages m) (hm_parts m) (hm_width m)
                  (hm_height m)) h.

(** * Encoding *)

(** mms_pdu.py 774-778: the parts of the slides, in order. *)
Definition slot_ref (s : hslot) : list nat :=
  match s with Some (j, _, _) => [j] | None => [] end.
Definition page_refs (g : hpage) : list nat :=
  slot_ref (hg_image g) ++ slot_ref (hg_audio g) ++ slot_ref (hg_text g).

(** mms_pdu.py 780-803: the loop over the part objects; each may fill its cache. *)
Fixpoint h_encode_parts (w : world) (js : list nat) : ST heap (list Z) :=
  fun h =>
    match js with
    | [] => (Ok [], h)
    | j :: r =>
        let (x, p) := encode_part w (h_parts h j) in
        let h := put_part j p h in
        match x with
        | Err e => (Err e, h)
        | Ok a =>
            let (y, h) := h_encode_parts w r h in
            match y with Err e => (Err e, h) | Ok b => (Ok (a ++ b), h) end
        end
    end.

(** mms_pdu.py 595-608, 610-703, 705-805: [encode] of message [k].  Encoding the headers
    works on the dictionary of the message and does not look at slides or parts. *)
Definition h_encode (render : xml -> list Z) (w : world) (rand : Z) (k : nat)
  : ST heap (list Z) :=
  fun h =>
    let m := h_msgs h k in
    let (x, v) := encode_message_header w rand (message_value h k) in
    let h := put_msg k (HMsg (m_headers v) (hm_pages m) (hm_parts m) (hm_width m)
                             (hm_height m)) h in
    match x with
    | Err e => (Err e, h)
    | Ok a =>
        match smil render w (message_value h k) with
        | Err e => (Err e, h)
        | Ok text =>
            match fst (encode_part w (smil_part text)) with
            | Err e => (Err e, h)
            | Ok b =>
                let (y, h') := h_encode_parts w
                                 (flat_map (fun i => page_refs (h_pages h i)) (hm_pages m)) h in
                match y with
                | Err e => (Err e, h')
                | Ok c => (Ok (a ++ encode_uint_var (num_entries (message_value h k)) ++ b ++ c), h')
                end
            end
        end
    end.

(** * Programs *)

(** One call of a user's program.  Slides and messages are named by numbers; each is
    created when first named (so a program has as many as it likes). *)
Inductive hcall :=
| CImage (slide : nat) (f : list Z) (tb te : Z)
| CAudio (slide : nat) (f : list Z) (tb te : Z)
| CText (slide : nat) (t : list Z) (tb te : Z)
| CDuration (slide : nat) (d : Z)
| CAdd (msg slide : nat)
| CData (msg : nat) (p : part)
| CHeader (msg : nat) (name : list Z) (v : hval)
| CEncode (msg : nat) (rand : Z).

Definition empty_heap : heap :=
  Heap (fun _ => new_part) (fun _ => new_hpage) (fun _ => new_hmsg) 0.

Definition shown_octets (x : res unit) : res (list Z) :=
  match x with Ok _ => Ok [] | Err e => Err e end.
Definition on_heap (x : res unit * heap) : res (list Z) * heap := (shown_octets (fst x), snd x).

(** What a call returns (the octets, for [encode]) and what it leaves. *)
Definition h_call (render : xml -> list Z) (w : world) (c : hcall) : ST heap (list Z) :=
  fun h =>
    match c with
    | CImage i f tb te => on_heap (h_add_image w f tb te i h)
    | CAudio i f tb te => on_heap (h_add_audio w f tb te i h)
    | CText i t tb te => on_heap (h_add_text t tb te i h)
    | CDuration i d => on_heap (h_set_duration d i h)
    | CAdd k i => on_heap (h_add_page k i h)
    | CData k p => let (j, h) := new_ref p h in (Ok [], h_add_data_part k j h)
    | CHeader k n v => (Ok [], h_set_header k n v h)
    | CEncode k rand => h_encode render w rand k h
    end.

(** The state after a program. *)
Definition h_run (render : xml -> list Z) (w : world) (cs : list hcall) (h : heap) : heap :=
  fold_left (fun h c => snd (h_call render w c h)) cs h.
