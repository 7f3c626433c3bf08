(** Model of the serialisation of the SMIL document: [toprettyxml] of the
    standard library's xml.dom.minidom (Python 2.7), called in message.py 210.
    The document holds elements only, no text. *)
From Verif Require Import Py Message.
Open Scope Z_scope.

(** [s.replace(c, t)] for one character. *)
Definition py_replace (c : Z) (t s : list Z) : list Z :=
  flat_map (fun x => if x =? c then t else [x]) s.

(** minidom [_write_data]: the ampersand is replaced first. *)
Definition escape (s : list Z) : list Z :=
  py_replace 62 (str "&gt;") (py_replace 34 (str "&quot;")
    (py_replace 60 (str "&lt;") (py_replace 38 (str "&amp;") s))).

(** String order, for [a_names.sort()]. *)
Fixpoint str_leb (a b : list Z) : bool :=
  match a, b with
  | [], _ => true
  | _ :: _, [] => false
  | x :: a', y :: b' => if x =? y then str_leb a' b' else x <? y
  end.
Fixpoint attr_insert (a : list Z * list Z) (l : list (list Z * list Z)) : list (list Z * list Z) :=
  match l with
  | [] => [a]
  | b :: r => if str_leb (fst a) (fst b) then a :: l else b :: attr_insert a r
  end.
(** The attributes in the order of their names. *)
Fixpoint attr_sort (l : list (list Z * list Z)) : list (list Z * list Z) :=
  match l with
  | [] => []
  | a :: r => attr_insert a (attr_sort r)
  end.

(** minidom [Element.writexml], one attribute. *)
Definition write_attr (a : list Z * list Z) : list Z :=
  str " " ++ fst a ++ [61; 34] ++ escape (snd a) ++ [34].

(** minidom [Element.writexml(writer, indent, "\t", "\n")]. *)
Fixpoint writexml (indent : list Z) (x : xml) : list Z :=
  match x with
  | Elem tag attrs kids =>
      indent ++ str "<" ++ tag ++ flat_map write_attr (attr_sort attrs) ++
      match kids with
      | [] => str "/>" ++ [10]
      | _ => str ">" ++ [10] ++ flat_map (writexml (indent ++ [9])) kids ++
             indent ++ str "</" ++ tag ++ str ">" ++ [10]
      end
  end.

(** minidom [Node.toprettyxml()]. *)
Definition toprettyxml (x : xml) : list Z := writexml [] x.
