(** The headers of an [MMSMessage] after any sequence of assignments and calls, told from
    the sequence alone (C127).  Slides are those added; filling them later changes no
    header (see C120 for what it does). *)
From Verif Require Import Py WspDec Message SpecRefuse.
Open Scope Z_scope.

(** [m.headers[k] = v], [del m.headers[k]], [add_page], [add_data_part], assignment of the
    width and height, and [encode], at which the files are as in [w] and the number
    drawn is [rand].  Any of them may raise. *)
Inductive deed :=
| GiveHeader (k : list Z) (v : hval) | TakeHeader (k : list Z) | AddSlide (g : page)
| AttachPart (p : part) | PutScreen (width height : Z) | EncodeIt (w : world) (rand : Z).

(** What is shown under each name, if anything. *)
Definition view := list Z -> option hval.

Inductive at_first : list Z -> option hval -> Prop :=
| af_type : at_first (str "Message-Type") (Some (HStr (str "m-send-req")))
| af_id : at_first (str "Transaction-Id") (Some (HStr (str "1234")))
| af_version : at_first (str "MMS-Version") (Some (HStr (str "1.0")))
| af_content : at_first (str "Content-Type")
    (Some (HType (str "application/vnd.wap.multipart.mixed") []))
| af_none k : ~ In k [str "Message-Type"; str "Transaction-Id"; str "MMS-Version"; str "Content-Type"] ->
    at_first k None.

(** * What [encode] leaves *)

(** The headers that go out first, in this order, and their other names. *)
Definition first_headers : list (list Z * list Z) :=
  [(str "Message-Type", str "X-Mms-Message-Type"); (str "Transaction-Id", str "X-Mms-Transaction-Id");
   (str "MMS-Version", str "X-Mms-Version")].

(** The value asked for: the one under the other name if there is one. *)
Inductive asked (v : view) (k : list Z) : option hval -> Prop :=
| asked_x x u : In (k, x) first_headers -> v x = Some u -> asked v k (Some u)
| asked_k x : In (k, x) first_headers -> v x = None -> asked v k (v k).

Definition nobody (v : view) : Prop := v (str "To") = None /\ v (str "Cc") = None /\ v (str "Bc") = None.

(** The value that goes out. *)
Inductive to_go (rand : Z) (v : view) : list Z -> hval -> Prop :=
| go_type_none : asked v (str "Message-Type") None ->
    to_go rand v (str "Message-Type") (HStr (str "m-retrieve-conf"))
| go_type_nobody : asked v (str "Message-Type") (Some (HStr (str "m-send-req"))) -> nobody v ->
    to_go rand v (str "Message-Type") (HStr (str "m-retrieve-conf"))
| go_id_none : asked v (str "Transaction-Id") None ->
    to_go rand v (str "Transaction-Id") (HStr (py_dec rand))
| go_version_none : asked v (str "MMS-Version") None ->
    to_go rand v (str "MMS-Version") (HStr (str "1.0"))
| go_asked k u : asked v k (Some u) ->
    ~ (k = str "Message-Type" /\ u = HStr (str "m-send-req") /\ nobody v) -> to_go rand v k u.

(** The first headers are taken away one after the other as they are written, up to one
    that cannot be written; it stays, with those after it, at the value that was to go
    out.  The other names are taken away in any case, and the other headers are kept. *)
Record left_by (rand : Z) (v v' : view) : Prop := LeftBy {
  l_written : forall before k x after, first_headers = before ++ (k, x) :: after ->
    (forall k' x' u e, In (k', x') (before ++ [(k, x)]) -> to_go rand v k' u -> ~ header_refused k' u e) ->
    v' k = None;
  l_stays : forall before k x after k' x' u e, first_headers = before ++ (k, x) :: after ->
    In (k', x') (before ++ [(k, x)]) -> to_go rand v k' u -> header_refused k' u e ->
    exists u', to_go rand v k u' /\ v' k = Some u';
  l_others : forall k x, In (k, x) first_headers -> v' x = None;
  l_kept : forall k, (forall k' x', In (k', x') first_headers -> k <> k' /\ k <> x') -> v' k = v k }.

(** * What [add_page] leaves *)

(** [headers['Content-Type'][0]], for values that have one. *)
Inductive first_item : option hval -> list Z -> Prop :=
| fi_type m ps : first_item (Some (HType m ps)) m
| fi_time k n : first_item (Some (HTime k n)) k
| fi_pragma n p : first_item (Some (HPragma n p)) n
| fi_text c s : first_item (Some (HStr (c :: s))) [c].

Definition related : list Z := str "application/vnd.wap.multipart.related".

(** * After the calls *)

Inductive told : list deed -> view -> Prop :=
| td_new v : (forall k, at_first k (v k)) -> told [] v
| td_give ds v k u v' : told ds v -> v' k = Some u -> (forall k', k' <> k -> v' k' = v k') ->
    told (ds ++ [GiveHeader k u]) v'
| td_take ds v k v' : told ds v -> v' k = None -> (forall k', k' <> k -> v' k' = v k') ->
    told (ds ++ [TakeHeader k]) v'
| td_slide ds v g v' t : told ds v -> first_item (v (str "Content-Type")) t -> t <> related ->
    v' (str "Content-Type") = Some (HType related []) ->
    (forall k, k <> str "Content-Type" -> v' k = v k) -> told (ds ++ [AddSlide g]) v'
| td_slide_as_is ds v g v' : told ds v ->
    (forall t, first_item (v (str "Content-Type")) t -> t = related) ->
    (forall k, v' k = v k) -> told (ds ++ [AddSlide g]) v'
| td_part ds v p v' : told ds v -> (forall k, v' k = v k) -> told (ds ++ [AttachPart p]) v'
| td_screen ds v a b v' : told ds v -> (forall k, v' k = v k) -> told (ds ++ [PutScreen a b]) v'
| td_encode ds v w rand v' : told ds v -> left_by rand v v' -> told (ds ++ [EncodeIt w rand]) v'.

(** What a deed gives a header that is neither one of the first nor the content type. *)
Inductive given (k : list Z) : deed -> option hval -> Prop :=
| gv_give v : given k (GiveHeader k v) (Some v)
| gv_take : given k (TakeHeader k) None.
