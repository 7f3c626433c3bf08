(** The dictionary of a received message. *)
From Coq Require Import ZArith List.
From Verif Require Import Py Udh Deliver.
Import ListNotations.
Open Scope Z_scope.

(** The values in the dictionary: None, texts, numbers, dates (in seconds since
    1970) and the dictionary [sr] of a status report. *)
Inductive dval :=
| DNone | DText (s : list Z) | DInt (n : Z) | DDate (t : Z) | DReport (r : sreport).

Definition dopt {A} (f : A -> dval) (o : option A) : dval :=
  match o with Some a => f a | None => DNone end.

(** deliver.py 26-53: [SmsDeliver.data].  The three last keys come from an
    [update] with keys that are not there yet. *)
Definition data (o : deliver) : list (list Z * dval) :=
  [(str "text", dopt DText (d_text o));
   (str "pid", dopt DInt (d_pid o));
   (str "dcs", dopt DInt (d_dcs o));
   (str "csca", dopt DText (d_csca o));
   (str "number", dopt DText (d_number o));
   (str "type", dopt DInt (d_type o));
   (str "date", dopt DDate (d_date o));
   (str "fmt", dopt DInt (d_fmt o));
   (str "sr", dopt DReport (d_sr o))] ++
  match concat_data o with
  | Some (ref, cnt, seq) =>
      [(str "ref", DInt ref); (str "cnt", DInt cnt); (str "seq", DInt seq)]
  | None => []
  end.
