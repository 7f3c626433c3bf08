(** Model of messaging/sms/wap.py.  The argument is a str, given by its octets. *)
From Verif Require Import Py Iter Tables WspDec Message MmsDec.
Open Scope Z_scope.

(** wap.py 8-17: [is_a_wap_push_notification]. *)
Definition is_a_wap_push_notification (s : list Z) : bool :=
  match s with
  | _ :: b :: _ => b =? 6
  | _ => false
  end.

(** wap.py 20-30: [extract_push_notification].  Unpacking [data[1:3]] raises
    ValueError when it has fewer than two items. *)
Definition extract_push_notification (s : list Z) : res message :=
  match py_to (py_from s 1) 2 with
  | [wap_push; offset] =>
      if negb (wap_push =? 6) then Err AssertionError
      else decode_data (py_from s (offset + 3))
  | _ => Err ValueError
  end.

(** wap.py 33-38: [is_mms_notification]; no decoded header is None. *)
Definition is_mms_notification (m : message) : bool :=
  let has k := match d_get leqb k (m_headers m) with
               | Some _ => true | None => false end in
  has (str "From") && has (str "Content-Location").
