(** Model of [flatten_list] and the class [MMSEncoder] of
    messaging/mms/mms_pdu.py (lines 24-32 and 589-996). *)
From Verif Require Import Py Iter Tables WspDec WspEnc Message.
Open Scope Z_scope.

(** mms_pdu.py 24-32: [flatten_list]. *)
Fixpoint flatten_elt (x : elt) : list elt :=
  match x with
  | EList l => flat_map flatten_elt l
  | _ => [x]
  end.
Definition flatten_list (l : list elt) : list elt := flat_map flatten_elt l.

(** mms_pdu.py 937-955: [encode_encoded_string_value]. *)
Definition encode_encoded_string_value (v : hval) : res (list Z) :=
  encode_text_string_h v.

(** mms_pdu.py 901-934: [encode_from_value].  [len] of a pair is 2; [len] of
    anything but a str or a pair raises TypeError. *)
Definition encode_from_value (v : hval) : res (list Z) :=
  match v with
  | HP (PStr []) => Ok (encode_value_length 1 ++ [129])
  | HP (PStr s) =>
      let a := encode_text_string s in
      Ok (encode_value_length (zlen a + 1) ++ [128] ++ a)
  | HPragma _ _ =>
      a <- encode_text_string_h v ;;
      Ok (encode_value_length (zlen a + 1) ++ [128] ++ a)
  | _ => Err TypeError
  end.

(** mms_pdu.py 973-981: [message_types]. *)
Definition message_types : list (list Z * Z) :=
  [(str "m-send-req", 128); (str "m-send-conf", 129);
   (str "m-notification-ind", 130); (str "m-notifyresp-ind", 131);
   (str "m-retrieve-conf", 132); (str "m-acknowledge-ind", 133);
   (str "m-delivery-ind", 134)].

(** mms_pdu.py 958-983: [encode_message_type_value]; a content type pair holds a
    dict and cannot be hashed. *)
Definition encode_message_type_value (v : hval) : res (list Z) :=
  match v with
  | HP (PStr s) =>
      Ok [match d_get leqb s message_types with Some n => n | None => 128 end]
  | HType _ _ => Err TypeError
  | _ => Ok [128]
  end.

(** mms_pdu.py 987-993: [status_values]. *)
Definition status_values : list (list Z * Z) :=
  [(str "Expired", 128); (str "Retrieved", 129); (str "Rejected", 130);
   (str "Deferred", 131); (str "Unrecognised", 132)].

(** mms_pdu.py 986-996: [encode_status_value]. *)
Definition encode_status_value (v : hval) : res (list elt) :=
  match v with
  | HP (PStr s) =>
      Ok [match d_get leqb s status_values with
          | Some n => EInt n | None => EStr (str "Unrecognised") end]
  | HType _ _ => Err TypeError
  | _ => Ok [EStr (str "Unrecognised")]
  end.

(** wsp_pdu.py 1502-1540 on any header value; a bool is an int. *)
Definition encode_long_integer_h (v : hval) : res (list Z) :=
  match v with
  | HP (PInt n) => encode_long_integer n
  | HBool b => encode_long_integer (if b then 1 else 0)
  | _ => Err EncodeError
  end.

(** wsp_pdu.py 1543-1588 on any header value. *)
Definition encode_version_value_h (v : hval) : res (list Z) :=
  match v with HP v => encode_version_value_p v | _ => Err TypeError end.

(** mms_pdu.py 843-853: [getattr(MMSEncoder, 'encode_%s' % type)(value)].
    [encode_content_type_value] takes two arguments and is called with one:
    TypeError.  The other types have no encoder: AttributeError. *)
Definition encode_mms_value (t : mtype) (v : hval) : res (list elt) :=
  let ok (r : res (list Z)) := l <- r ;; Ok (ints l) in
  match t with
  | MEncodedString => ok (encode_encoded_string_value v)
  | MFrom => ok (encode_from_value v)
  | MTextString => ok (encode_text_string_h v)
  | MMessageType => ok (encode_message_type_value v)
  | MVersion => ok (encode_version_value_h v)
  | MLong => ok (encode_long_integer_h v)
  | MStatus => encode_status_value v
  | MContentType => Err TypeError
  | MUri | MDate | MBoolean | MDeliveryTime | MExpiry | MMessageClass
  | MPriority | MResponseStatus | MSenderVisibility => Err AttributeError
  end.

(** mms_pdu.py 836-838 and 888-889: the entry for a name.  The names of the
    table are distinct, so the iteration order does not matter. *)
Definition find_field (name : list Z) : option (Z * (list Z * mtype)) :=
  find (fun p => leqb (fst (snd p)) name) mms_field_names.

(** mms_pdu.py 808-866: [MMSEncoder.encode_header]. *)
Definition mms_encode_header (name : list Z) (v : hval) : res (list elt) :=
  match find_field name with
  | Some (n, (_, t)) =>
      a <- encode_short_integer n ;;
      b <- encode_mms_value t v ;;
      Ok (ints a ++ b)
  | None =>
      a <- encode_token_text name ;;
      b <- encode_text_string_h v ;;
      Ok (ints a ++ ints b)
  end.

(** mms_pdu.py 869-898: [encode_mms_field_name]. *)
Definition encode_mms_field_name (name : list Z) : res (list Z) :=
  match find_field name with
  | Some (n, _) => encode_short_integer n
  | None => Err EncodeError
  end.

(** [d[k]], [k in d]. *)
Definition h_get (k : list Z) (d : list (list Z * hval)) : option hval :=
  d_get leqb k d.
Definition h_mem (k : list Z) (d : list (list Z * hval)) : bool :=
  match h_get k d with Some _ => true | None => false end.

(** mms_pdu.py 634-643: rename one header. *)
Definition rename (from to : list Z) (d : list (list Z * hval))
  : list (list Z * hval) :=
  match h_get from d with
  | Some v => d_del leqb from (d_set leqb to v d)
  | None => d
  end.

Definition renames (d : list (list Z * hval)) : list (list Z * hval) :=
  rename (str "X-Mms-Version") (str "MMS-Version")
    (rename (str "X-Mms-Transaction-Id") (str "Transaction-Id")
      (rename (str "X-Mms-Message-Type") (str "Message-Type") d)).

(** Equality of a header value with a str. *)
Definition is_hstr (v : hval) (s : list Z) : bool :=
  match v with HP (PStr t) => leqb t s | _ => false end.

(** mms_pdu.py 652-671: the message type. *)
Definition fix_message_type (d : list (list Z * hval)) : list (list Z * hval) :=
  let d := if h_mem (str "Message-Type") d then d
           else d_set leqb (str "Message-Type") (HStr (str "m-retrieve-conf")) d in
  let is_send := match h_get (str "Message-Type") d with
                 | Some v => is_hstr v (str "m-send-req")
                 | None => false
                 end in
  if is_send
     && negb (existsb (fun k => h_mem k d) [str "To"; str "Cc"; str "Bc"])
  then d_set leqb (str "Message-Type") (HStr (str "m-retrieve-conf")) d
  else d.

(** mms_pdu.py 675-682: transaction identifier and version; [rand] is the result
    of [random.randint(1000, 9999)]. *)
Definition fix_rest (rand : Z) (d : list (list Z * hval))
  : list (list Z * hval) :=
  let d := if h_mem (str "Transaction-Id") d then d
           else d_set leqb (str "Transaction-Id") (HStr (py_dec rand)) d in
  if h_mem (str "MMS-Version") d then d
  else d_set leqb (str "MMS-Version") (HStr (str "1.0")) d.

(** [headers_to_encode[hdr]] followed by [message_header.extend]. *)
Definition encode_entry (k : list Z) (d : list (list Z * hval)) : res (list Z) :=
  match h_get k d with
  | Some v => l <- mms_encode_header k v ;; array_of l
  | None => Err KeyError
  end.

(** mms_pdu.py 685-688: the first three headers are encoded and deleted from the
    dictionary of the message, one after the other. *)
Fixpoint encode_first (ks : list (list Z)) : ST message (list Z) :=
  match ks with
  | [] => st_ret []
  | k :: r =>
      m <~ st_get ;;
      b <~ st_lift (encode_entry k (m_headers m)) ;;
      _ <~ st_upd (fun m => with_headers (d_del leqb k (m_headers m)) m) ;;
      bs <~ encode_first r ;;
      st_ret (b ++ bs)
  end.

(** mms_pdu.py 692-695: the remaining headers, in dictionary order. *)
Definition encode_others (w : world) (d : list (list Z * hval)) : res (list Z) :=
  ls <- mapM (fun p => if leqb (fst p) (str "Content-Type") then Ok []
                       else l <- mms_encode_header (fst p) (snd p) ;; array_of l)
             (w_order w d) ;;
  Ok (concat ls).

(** [content_type, ct_parameters = value]: a str of two characters unpacks but
    fails later with TypeError, when the second character is used as a
    dictionary; the other strings raise ValueError.  Pairs of a name and an empty
    string are used like pairs of a name and an empty dictionary, other pairs fail
    later with TypeError, at [len] or when an item is asked for. *)
Definition unpack_type (v : hval) : res (list Z * list (list Z * pval)) :=
  match v with
  | HType m ps => Ok (m, ps)
  | HPragma m (PStr []) => Ok (m, [])
  | HP (PStr [_; _]) => Err TypeError
  | HP (PStr _) => Err ValueError
  | _ => Err TypeError
  end.

(** mms_pdu.py 697-701: the content type, flattened. *)
Definition encode_last (d : list (list Z * hval)) : res (list Z) :=
  match h_get (str "Content-Type") d with
  | None => Err KeyError
  | Some v =>
      '(m, ps) <- unpack_type v ;;
      a <- encode_mms_field_name (str "Content-Type") ;;
      ret <- encode_content_type_value m ps ;;
      b <- array_of (flatten_list ret) ;;
      Ok (a ++ b)
  end.

(** mms_pdu.py 610-703: [encode_message_header].  [headers_to_encode] is the
    dictionary of the message itself. *)
Definition encode_message_header (w : world) (rand : Z) : ST message (list Z) :=
  _ <~ st_upd (fun m => with_headers (renames (m_headers m)) m) ;;
  _ <~ st_upd (fun m => with_headers (fix_message_type (m_headers m)) m) ;;
  _ <~ st_upd (fun m => with_headers (fix_rest rand (m_headers m)) m) ;;
  a <~ encode_first [str "Message-Type"; str "Transaction-Id"; str "MMS-Version"] ;;
  m <~ st_get ;;
  b <~ st_lift (encode_others w (m_headers m)) ;;
  c <~ st_lift (encode_last (m_headers m)) ;;
  st_ret (a ++ b ++ c).

(** mms_pdu.py 769-773: the SMIL part. *)
Definition smil_part (text : list Z) : part :=
  let p := set_data text (str "application/smil") [] new_part in
  Part (d_set leqb (str "Content-ID") (HStr (str "<0000>")) (dp_headers p))
       (dp_params p) (dp_filename p) (dp_data p).

(** mms_pdu.py 780-803: one entry of the body.  The pieces that can raise are
    evaluated in the order of the code; reading the data of a file fills the
    cache of the part. *)
Definition encode_part (w : world) : ST part (list Z) :=
  p <~ st_get ;;
  match h_get (str "Content-Type") (dp_headers p) with
  | None => st_err KeyError
  | Some v =>
      '(name, ps) <~ st_lift (unpack_type v) ;;
      ct <~ st_lift (encode_content_type_value name ps) ;;
      hs <~ st_lift (mapM (fun h => if leqb (fst h) (str "Content-Type") then Ok []
                                    else wsp_encode_header (fst h) (snd h))
                          (w_order w (dp_headers p))) ;;
      let hs := concat hs in
      let a := encode_uint_var (zlen ct + zlen hs) in
      n <~ part_len w ;;
      let b := encode_uint_var n in
      ct <~ st_lift (array_of ct) ;;
      hs <~ st_lift (array_of hs) ;;
      d <~ get_data w ;;
      st_ret (a ++ b ++ ct ++ hs ++ d)
  end.

(** mms_pdu.py 776-778: an empty slot contributes nothing.  A part object held
    by two slots is not shared here, see Share.v. *)
Definition encode_slot (w : world) : ST slot (list Z) :=
  fun s =>
    match s with
    | None => (Ok [], None)
    | Some (p, tb, te) =>
        let (r, p') := encode_part w p in (r, Some (p', tb, te))
    end.

(** mms_pdu.py 775-778: the parts of a slide, image first, then audio and text. *)
Definition encode_page (w : world) : ST page (list Z) :=
  fun g =>
    let (ra, i) := encode_slot w (pg_image g) in
    let g := Page (pg_duration g) i (pg_audio g) (pg_text g) in
    match ra with
    | Err e => (Err e, g)
    | Ok a =>
        let (rb, u) := encode_slot w (pg_audio g) in
        let g := Page (pg_duration g) (pg_image g) u (pg_text g) in
        match rb with
        | Err e => (Err e, g)
        | Ok b =>
            let (rc, t) := encode_slot w (pg_text g) in
            let g := Page (pg_duration g) (pg_image g) (pg_audio g) t in
            match rc with
            | Err e => (Err e, g)
            | Ok c => (Ok (a ++ b ++ c), g)
            end
        end
    end.

(** mms_pdu.py 774-803: the slides in order. *)
Fixpoint encode_pages (w : world) (gs : list page) : res (list Z) * list page :=
  match gs with
  | [] => (Ok [], [])
  | g :: r =>
      let (x, g') := encode_page w g in
      match x with
      | Err e => (Err e, g' :: r)
      | Ok a =>
          let (y, r') := encode_pages w r in
          match y with
          | Err e => (Err e, g' :: r')
          | Ok b => (Ok (a ++ b), g' :: r')
          end
      end
  end.

(** mms_pdu.py 752-757: the announced number of parts. *)
Definition num_entries (m : message) : Z :=
  fold_left (fun n g => n + number_of_parts g) (m_pages m) 1 + zlen (m_parts m).

(** mms_pdu.py 705-805: [encode_message_body].  That [smil()] fills the cache of
    a file part whose headers were replaced is left out; the loop over the
    parts fills it a moment later. *)
Definition encode_message_body (render : xml -> list Z) (w : world)
  : ST message (list Z) :=
  m <~ st_get ;;
  text <~ st_lift (smil render w m) ;;
  a <~ st_lift (fst (encode_part w (smil_part text))) ;;
  fun m =>
    let (r, gs) := encode_pages w (m_pages m) in
    let m' := Message (m_headers m) gs (m_parts m) (m_width m) (m_height m) in
    match r with
    | Ok b => (Ok (encode_uint_var (num_entries m) ++ a ++ b), m')
    | Err e => (Err e, m')
    end.

(** mms_pdu.py 595-608: [encode], and message.py 212-223. *)
Definition encode (render : xml -> list Z) (w : world) (rand : Z)
  : ST message (list Z) :=
  h <~ encode_message_header w rand ;;
  b <~ encode_message_body render w ;;
  st_ret (h ++ b).

(** The world after the file [f] was given the content [c].  Different paths are
    different files. *)
Definition with_file (f c : list Z) (w : world) : world :=
  World (fun g => if leqb g f then Some c else w_file w g) (w_mime w) (w_order w).

(** message.py 225-238: [to_file].  Opening for writing creates or empties the
    file before [encode] runs; [writable] tells whether it succeeds.  The write
    itself always succeeds. *)
Definition to_file (render : xml -> list Z) (writable : bool) (rand : Z) (f : list Z)
  : ST (message * world) unit :=
  fun '(m, w) =>
    if negb writable then (Err OSError, (m, w))
    else
      let w := with_file f [] w in
      match encode render w rand m with
      | (Ok b, m') => (Ok tt, (m', with_file f b w))
      | (Err e, m') => (Err e, (m', w))
      end.
