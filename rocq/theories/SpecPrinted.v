(** Specification of the printed forms of user data headers (C125), from the numbers
    they show. *)
From Verif Require Import Py SpecSmil.
Open Scope Z_scope.

(** Items with a comma and a space between them. *)
Inductive with_commas : list (list Z) -> list Z -> Prop :=
| commas_none : with_commas [] []
| commas_one x : with_commas [x] x
| commas_more x y r t : with_commas (y :: r) t -> with_commas (x :: y :: r) (x ++ str ", " ++ t).

(** The octets of an element: a list or, as received, an array. *)
Definition octets_text (received : bool) (l : list Z) (t : list Z) : Prop :=
  exists ns c, Forall2 notation l ns /\ with_commas ns c /\
    t = if received
        then match l with [] => str "array('B')" | _ => str "array('B', [" ++ c ++ str "])" end
        else str "[" ++ c ++ str "]".

Definition element_text (received : bool) (e : Z * list Z) (t : list Z) : Prop :=
  exists n o, notation (fst e) n /\ octets_text received (snd e) o /\ t = n ++ str ": " ++ o.

Definition elements_text (received : bool) (els : list (Z * list Z)) (t : list Z) : Prop :=
  exists es c, Forall2 (element_text received) els es /\ with_commas es c /\
    t = str "{" ++ c ++ str "}".

Definition concat_text (o : option (Z * Z * Z)) (t : list Z) : Prop :=
  match o with
  | None => t = str "None"
  | Some (ref, cnt, seq) => exists r c s, notation ref r /\ notation cnt c /\ notation seq s /\
      t = str "<ConcatReference ref: " ++ r ++ str " cnt: " ++ c ++ str " seq: " ++ s ++ str ">"
  end.

Definition ports_text (o : option (Z * Z)) (t : list Z) : Prop :=
  match o with
  | None => t = str "None"
  | Some (dest, orig) => exists d s, notation dest d /\ notation orig s /\
      t = str "<PortAddress dest_port: " ++ d ++ str " orig_port: " ++ s ++ str ">"
  end.

Definition header_text (received : bool) (els : list (Z * list Z)) (concat : option (Z * Z * Z))
  (ports : option (Z * Z)) (t : list Z) : Prop :=
  exists e c p, elements_text received els e /\ concat_text concat c /\ ports_text ports p /\
    t = str "<UserDataHeader data: " ++ e ++ str " concat: " ++ c ++ str " ports: " ++ p ++ str ">".
