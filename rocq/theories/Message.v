(** Model of messaging/mms/message.py: messages, slides, data parts and the SMIL
    description. *)
From Verif Require Import Py Iter Tables WspDec WspEnc.
Open Scope Z_scope.

(** The outside world the module consults: the content of a file, [None] when
    the path is no regular file; [mimetypes.guess_type(path)[0]]; and the order
    in which iterating over a dictionary of headers delivers its entries.
    [OSError] stands for OSError and IOError. *)
Record world := World {
  w_file : list Z -> option (list Z);
  w_mime : list Z -> option (list Z);
  w_order : list (list Z * hval) -> list (list Z * hval) }.

(** * Data parts *)

(** message.py 454-457: the attributes of [DataPart].  [dp_data] is [_data]; an
    [array] and its [tostring()] are the same list here. *)
Record part := Part {
  dp_headers : list (list Z * hval);
  dp_params : list (list Z * pval);
  dp_filename : option (list Z);
  dp_data : option (list Z) }.

(** message.py 447-457: [DataPart()]. *)
Definition new_part : part :=
  Part [(str "Content-Type", HType (str "application/octet-stream") [])]
       [] None None.

(** [os.path.basename]: what follows the last slash. *)
Fixpoint basename_acc (acc s : list Z) : list Z :=
  match s with
  | [] => rev acc
  | c :: r => if c =? 47 then basename_acc [] r else basename_acc (c :: acc) r
  end.
Definition basename (s : list Z) : list Z := basename_acc [] s.

(** message.py 478-499: [from_file]. *)
Definition from_file (w : world) (filename : list Z) : ST part unit :=
  match w_file w filename with
  | None => st_err OSError
  | Some _ =>
      let ct := match w_mime w filename with
                | Some (c :: m) => c :: m
                | _ => str "application/octet-stream"
                end in
      st_upd (fun p =>
        Part [(str "Content-Location", HStr (basename filename));
              (str "Content-Type", HType ct [])]
             (dp_params p) (Some filename) None)
  end.

(** message.py 447-460: [DataPart(filename)]. *)
Definition part_from_file (w : world) (filename : list Z) : res part :=
  match from_file w filename new_part with
  | (Ok _, p) => Ok p
  | (Err e, _) => Err e
  end.

(** message.py 501-521: [set_data]. *)
Definition set_data (data content_type : list Z) (ct_parameters : list (list Z * pval))
  (p : part) : part :=
  Part [(str "Content-Type", HType content_type ct_parameters)]
       (dp_params p) None (Some data).

(** message.py 523-533: [set_text]. *)
Definition set_text (text : list Z) (p : part) : part :=
  set_data text (str "text/plain") [] p.

(** message.py 472-474: assignment to [content_type]. *)
Definition set_content_type (ct : list Z) (p : part) : part :=
  Part (d_set leqb (str "Content-Type") (HType ct []) (dp_headers p))
       (dp_params p) (dp_filename p) (dp_data p).

(** message.py 542-555: [data]; reading a file fills the cache. *)
Definition get_data (w : world) : ST part (list Z) :=
  p <~ st_get ;;
  match dp_data p, dp_filename p with
  | Some d, _ => st_ret d
  | None, Some f =>
      match w_file w f with
      | None => st_err OSError
      | Some d =>
          _ <~ st_upd (fun p => Part (dp_headers p) (dp_params p)
                                     (dp_filename p) (Some d)) ;;
          st_ret d
      end
  | None, None => st_ret []
  end.

(** message.py 535-540: [__len__]. *)
Definition part_len (w : world) : ST part Z :=
  p <~ st_get ;;
  match dp_filename p with
  | Some f =>
      match w_file w f with
      | None => st_err OSError
      | Some d => st_ret (zlen d)
      end
  | None => d <~ get_data w ;; st_ret (zlen d)
  end.

(** The values of [part.data] and [len(part)] where the cache left behind does
    not matter. *)
Definition data_of (w : world) (p : part) : res (list Z) := fst (get_data w p).
Definition len_of (w : world) (p : part) : res Z := fst (part_len w p).

(** * Slides *)

(** message.py 280-284: the attributes of [MMSMessagePage]; a slot holds the
    part and its begin and end times. *)
Definition slot := option (part * Z * Z).
Record page := Page {
  pg_duration : Z; pg_image : slot; pg_audio : slot; pg_text : slot }.

(** message.py 280-284: [MMSMessagePage()]. *)
Definition new_page : page := Page 4000 None None None.

(** message.py 332-339, 368-375, 403-407: the argument checks; [isfile] is the
    test of the file argument and [true] for text. *)
Definition check_times (isfile : bool) (time_begin time_end : Z) : ST page unit :=
  if negb (is_int time_begin) || negb (is_int time_end) then st_err TypeError
  else if negb isfile then st_err OSError
  else if (0 <? time_end) && (time_end <? time_begin) then st_err ValueError
  else st_ret tt.

Definition isfile (w : world) (f : list Z) : bool :=
  match w_file w f with Some _ => true | None => false end.

(** message.py 307-341: [add_image]. *)
Definition add_image (w : world) (filename : list Z) (tb te : Z) : ST page unit :=
  _ <~ check_times (isfile w filename) tb te ;;
  p <~ st_lift (part_from_file w filename) ;;
  st_upd (fun g => Page (pg_duration g) (Some (p, tb, te)) (pg_audio g) (pg_text g)).

(** message.py 343-377: [add_audio]. *)
Definition add_audio (w : world) (filename : list Z) (tb te : Z) : ST page unit :=
  _ <~ check_times (isfile w filename) tb te ;;
  p <~ st_lift (part_from_file w filename) ;;
  st_upd (fun g => Page (pg_duration g) (pg_image g) (Some (p, tb, te)) (pg_text g)).

(** message.py 379-411: [add_text]. *)
Definition add_text (text : list Z) (tb te : Z) : ST page unit :=
  _ <~ check_times true tb te ;;
  st_upd (fun g => Page (pg_duration g) (pg_image g) (pg_audio g)
                        (Some (set_text text new_part, tb, te))).

(** message.py 413-430: [set_duration]. *)
Definition set_duration (d : Z) : ST page unit :=
  if negb (is_int d) then st_err TypeError
  else if d <? 1 then st_err ValueError
  else st_upd (fun g => Page d (pg_image g) (pg_audio g) (pg_text g)).

(** message.py 286-290: [data_parts] of a slide, the slots in use. *)
Definition page_slots (g : page) : list (part * Z * Z) :=
  flat_map (fun s : slot => match s with Some x => [x] | None => [] end)
           [pg_image g; pg_audio g; pg_text g].

(** message.py 292-303: [number_of_parts]. *)
Definition number_of_parts (g : page) : Z := zlen (page_slots g).

(** * Messages *)

(** message.py 30-44: the attributes of [MMSMessage] that are read anywhere.
    [_metaTags] is never filled, [_mms_message] stays None. *)
Record message := Message {
  m_headers : list (list Z * hval);
  m_pages : list page;
  m_parts : list part;
  m_width : Z;
  m_height : Z }.

(** message.py 30-44: [MMSMessage()]. *)
Definition default_headers : list (list Z * hval) :=
  [(str "Message-Type", HStr (str "m-send-req"));
   (str "Transaction-Id", HStr (str "1234"));
   (str "MMS-Version", HStr (str "1.0"));
   (str "Content-Type", HType (str "application/vnd.wap.multipart.mixed") [])].
Definition new_message : message := Message default_headers [] [] 176 220.

Definition with_headers (h : list (list Z * hval)) (m : message) : message :=
  Message h (m_pages m) (m_parts m) (m_width m) (m_height m).

(** [v[0]] for a header value; only pairs and strings can be indexed. *)
Definition first_of (v : hval) : res (list Z) :=
  match v with
  | HType m _ => Ok m
  | HTime k _ => Ok k
  | HPragma n _ => Ok n
  | HP (PStr (c :: _)) => Ok [c]
  | HP (PStr []) => Err IndexError
  | _ => Err TypeError
  end.

(** message.py 462-470: [content_type] of a part. *)
Definition part_content_type (p : part) : res (list Z) :=
  match d_get leqb (str "Content-Type") (dp_headers p) with
  | Some v => first_of v
  | None => Err KeyError
  end.

(** message.py 46-57: [content_type]. *)
Definition content_type (m : message) : res (list Z) :=
  match d_get leqb (str "Content-Type") (m_headers m) with
  | Some v => first_of v
  | None => Err KeyError
  end.

(** message.py 59-70: [add_page]. *)
Definition add_page (g : page) : ST message unit :=
  m <~ st_get ;;
  ct <~ st_lift (content_type m) ;;
  _ <~ (if leqb ct (str "application/vnd.wap.multipart.related") then st_ret tt
        else st_upd (fun m => with_headers
               (d_set leqb (str "Content-Type")
                  (HType (str "application/vnd.wap.multipart.related") [])
                  (m_headers m)) m)) ;;
  st_upd (fun m => Message (m_headers m) (m_pages m ++ [g]) (m_parts m)
                           (m_width m) (m_height m)).

(** message.py 77-90: [add_data_part]. *)
Definition add_data_part (p : part) (m : message) : message :=
  Message (m_headers m) (m_pages m) (m_parts m ++ [p]) (m_width m) (m_height m).

(** * SMIL *)

(** An XML element: tag, attributes in the order they were set, children. *)
Inductive xml := Elem (tag : list Z) (attrs : list (list Z * list Z))
                      (children : list xml).

(** [str(n)] of an int. *)
Definition py_str (n : Z) : list Z :=
  if n <? 0 then 45 :: py_dec (- n) else py_dec n.

(** message.py 120-139: the head element. *)
Definition region (id left top width height : list Z) : xml :=
  Elem (str "region") [(str "id", id); (str "left", left); (str "top", top);
                       (str "width", width); (str "height", height)] [].
Definition smil_head (m : message) : xml :=
  Elem (str "head") []
    [Elem (str "layout") []
       [Elem (str "root-layout") [(str "width", py_str (m_width m));
                                  (str "height", py_str (m_height m))] [];
        region (str "Image") (str "0") (str "0") (str "176") (str "144");
        region (str "Text") (str "176") (str "144") (str "176") (str "76")]].

(** message.py 152-157 and 188-193: the source of an image or audio element.  A
    header value that is no str makes the serialiser raise AttributeError; the model
    raises it at once, the code when the document is complete, so that another exception
    of [smil()] comes first. *)
Definition media_src (w : world) (p : part) : res (list Z) :=
  let use v := match v with HP (PStr s) => Ok s | _ => Err AttributeError end in
  match d_get leqb (str "Content-Location") (dp_headers p) with
  | Some v => use v
  | None =>
      match d_get leqb (str "Content-ID") (dp_headers p) with
      | Some v => use v
      | None => data_of w p
      end
  end.

(** message.py 162-167, 177-182, 197-202: the time attributes. *)
Definition time_attrs (duration tb te : Z) : list (list Z * list Z) :=
  if (0 <? tb) || (0 <? te) then
    let te := if duration <? te then duration else te in
    [(str "begin", py_str tb); (str "end", py_str te)]
  else [].

(** A child of a [par] element.  DOM nodes have identity, and appending a node
    that already has a parent moves it, so children carry an identifier. *)
Definition child := (nat * xml)%type.

(** message.py 145-207, one slide: [i] numbers the slide, [pars] are the [par]
    elements already built, [tn] is the variable [text_node]. *)
Definition smil_page (w : world) (i : nat)
  (pars : list (list (list Z * list Z) * list child)) (tn : option child) (g : page)
  : res (list (list (list Z * list Z) * list child) * option child) :=
  let attrs := [(str "duration", py_str (pg_duration g))] in
  kids <- match pg_image g with
          | None => Ok []
          | Some (p, tb, te) =>
              src <- media_src w p ;;
              Ok [(3 * i, Elem (str "img")
                     ([(str "src", src); (str "region", str "Image")]
                      ++ time_attrs (pg_duration g) tb te) [])]%nat
          end ;;
  '(kids, tn) <- match pg_text g with
                 | None => Ok (kids, tn)
                 | Some (p, tb, te) =>
                     src <- data_of w p ;;
                     let t := (3 * i + 1, Elem (str "text")
                                 ([(str "src", src); (str "region", str "Text")]
                                  ++ time_attrs (pg_duration g) tb te) [])%nat in
                     Ok (kids ++ [t], Some t)
                 end ;;
  match pg_audio g with
  | None => Ok (pars ++ [(attrs, kids)], tn)
  | Some (p, tb, te) =>
      src <- media_src w p ;;
      match tn with
      | None => Err UnboundLocalError
      | Some t =>
          let drop := filter (fun c : child => negb (Nat.eqb (fst c) (fst t))) in
          let pars := map (fun q => (fst q, drop (snd q))) pars in
          let a := (3 * i + 2, Elem (str "audio")
                      ([(str "src", src)] ++ time_attrs (pg_duration g) tb te)
                      [])%nat in
          Ok (pars ++ [(attrs, drop kids ++ [t; a])], Some t)
      end
  end.

(** message.py 145-207: all slides. *)
Fixpoint smil_pages (w : world) (i : nat)
  (pars : list (list (list Z * list Z) * list child)) (tn : option child)
  (pages : list page) : res (list (list (list Z * list Z) * list child)) :=
  match pages with
  | [] => Ok pars
  | g :: r =>
      '(pars, tn) <- smil_page w i pars tn g ;;
      smil_pages w (S i) pars tn r
  end.

(** message.py 107-209: the document built by [smil()]. *)
Definition smil_tree (w : world) (m : message) : res xml :=
  pars <- smil_pages w 0 [] None (m_pages m) ;;
  Ok (Elem (str "smil") []
        [smil_head m;
         Elem (str "body") []
           (map (fun q => Elem (str "par") (fst q) (map snd (snd q))) pars)]).

(** message.py 107-210: [smil()]; [render] stands for [toprettyxml]. *)
Definition smil (render : xml -> list Z) (w : world) (m : message)
  : res (list Z) :=
  t <- smil_tree w m ;; Ok (render t).

(** message.py 92-105: [data_parts].  With slides the code reads [_pages] of
    [self._mms_message], which is None.  The result type lists what the code
    intends to return. *)
Inductive listed := LSmil (text : list Z) | LSlot (s : part * Z * Z) | LPart (p : part).
Definition data_parts (render : xml -> list Z) (w : world) (m : message)
  : res (list listed) :=
  match m_pages m with
  | [] => Ok (map LPart (m_parts m))
  | _ =>
      _ <- smil render w m ;;
      Err AttributeError
  end.
