(** Model of the printed forms ([repr]) of messaging/sms/udh.py in Python 2. *)
From Verif Require Import Py Message Udh.
Open Scope Z_scope.

(** What Python puts between the items of a list or a dictionary. *)
Fixpoint repr_items (l : list (list Z)) : list Z :=
  match l with
  | [] => []
  | [x] => x
  | x :: r => x ++ str ", " ++ repr_items r
  end.

(** [repr] of a list of integers. *)
Definition repr_ints (l : list Z) : list Z := str "[" ++ repr_items (map py_str l) ++ str "]".

(** [repr] of the data of an element, which is of the type of the data given to
    [from_bytes] (udh.py 52): a list, or an array of octets when it comes from
    [SmsDeliver] (utils.py 54-55, deliver.py 68 and 165). *)
Definition repr_data (is_array : bool) (l : list Z) : list Z :=
  if is_array then
    match l with
    | [] => str "array('B')"
    | _ => str "array('B', " ++ repr_ints l ++ str ")"
    end
  else repr_ints l.

(** One item of a dictionary. *)
Definition repr_item (is_array : bool) (e : Z * list Z) : list Z :=
  py_str (fst e) ++ str ": " ++ repr_data is_array (snd e).

(** [repr] of the dictionary of elements, whose items come in the order of the list. *)
Definition repr_dict (is_array : bool) (d : list (Z * list Z)) : list Z :=
  str "{" ++ repr_items (map (repr_item is_array) d) ++ str "}".

(** udh.py 11-13: [PortAddress.__repr__]. *)
Definition repr_ports (p : ports) : list Z :=
  str "<PortAddress dest_port: " ++ py_str (p_dest p) ++ str " orig_port: " ++
  py_str (p_orig p) ++ str ">".

(** udh.py 24-26: [ConcatReference.__repr__]. *)
Definition repr_concat (c : concat_ref) : list Z :=
  str "<ConcatReference ref: " ++ py_str (c_ref c) ++ str " cnt: " ++ py_str (c_cnt c) ++
  str " seq: " ++ py_str (c_seq c) ++ str ">".

(** [%s] of an object or [None]. *)
Definition repr_option {A} (f : A -> list Z) (o : option A) : list Z :=
  match o with Some a => f a | None => str "None" end.

(** udh.py 36-38: [UserDataHeader.__repr__]; [order] is the order in which the
    dictionary yields its items. *)
Definition repr_udh (order : list (Z * list Z) -> list (Z * list Z)) (is_array : bool) (u : udh)
  : list Z :=
  str "<UserDataHeader data: " ++ repr_dict is_array (order (h_headers u)) ++
  str " concat: " ++ repr_option repr_concat (h_concat u) ++
  str " ports: " ++ repr_option repr_ports (h_ports u) ++ str ">".
