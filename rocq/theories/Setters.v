(** Model of the setters of messaging/sms/submit.py on values of any type. *)
From Verif Require Import Py Utils Gsm Submit.
Open Scope Z_scope.

(** The values a program may assign, as far as the setters tell them apart.  [VLong]
    is a Python 2 [long]; [VObject] stands for everything else, strings included. *)
Inductive value :=
| VNone | VBool (b : bool) | VInt (n : Z) | VLong (n : Z)
| VTimedelta (t : timedelta) | VDatetime (d : datetime) | VObject.

(** submit.py 65-74: [_set_klass].  A [bool] is an [int]; it is stored as it is,
    here as the number it counts for. *)
Definition set_klass_value (v : value) : ST submit unit :=
  match v with
  | VInt n => set_klass n
  | VBool b => set_klass (if b then 1 else 0)
  | _ => st_err TypeError
  end.

(** submit.py 56-61: [_set_validity]. *)
Definition set_validity_value (v : value) : ST submit unit :=
  match v with
  | VNone => st_upd (with_validity NoValidity)
  | VTimedelta t => st_upd (with_validity (Relative t))
  | VDatetime d => st_upd (with_validity (Absolute d))
  | _ => st_err TypeError
  end.
