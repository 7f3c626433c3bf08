(** Model of messaging/sms/udh.py. *)
From Verif Require Import Py.
Open Scope Z_scope.

(** udh.py 4-9: [PortAddress]. *)
Record ports := Ports { p_dest : Z; p_orig : Z; p_eight : bool }.

(** udh.py 16-22: [ConcatReference]. *)
Record concat_ref := Concat { c_ref : Z; c_cnt : Z; c_seq : Z; c_eight : bool }.

(** udh.py 29-34: [UserDataHeader]; [h_headers] is the dictionary from element
    identifier to element data. *)
Record udh := Udh {
  h_concat : option concat_ref;
  h_ports : option ports;
  h_headers : list (Z * list Z) }.

(** udh.py 31-34: the empty header. *)
Definition udh_empty : udh := Udh None None [].

(** udh.py 40-44: [from_status_report_ref]. *)
Definition from_status_report_ref (ref : Z) : udh :=
  Udh (Some (Concat ref 0 0 true)) None [].

(** udh.py 56-77: the effect of one element on the attributes.  Tuple
    unpacking of the wrong arity raises ValueError. *)
Definition udh_element (iei : Z) (ie : list Z) (u : udh) : res udh :=
  let u := Udh (h_concat u) (h_ports u) (d_set Z.eqb iei ie (h_headers u)) in
  u <- (if iei =? 0 then
          match ie with
          | [ref; cnt; seq] =>
              Ok (Udh (Some (Concat ref cnt seq true)) (h_ports u) (h_headers u))
          | _ => Err ValueError
          end
        else Ok u) ;;
  if iei =? 8 then
    a <- py_index ie 0 ;; b <- py_index ie 1 ;;
    cnt <- py_index ie 2 ;; seq <- py_index ie 3 ;;
    Ok (Udh (Some (Concat (Z.lor (Z.shiftl a 8) b) cnt seq false))
            (h_ports u) (h_headers u))
  else if iei =? 4 then
    match ie with
    | [dest; orig] =>
        Ok (Udh (h_concat u) (Some (Ports dest orig false)) (h_headers u))
    | _ => Err ValueError
    end
  else if iei =? 5 then
    a <- py_index ie 0 ;; b <- py_index ie 1 ;;
    c <- py_index ie 2 ;; d <- py_index ie 3 ;;
    Ok (Udh (h_concat u)
            (Some (Ports (Z.lor (Z.shiftl a 8) b) (Z.lor (Z.shiftl c 8) d) false))
            (h_headers u))
  else Ok u.

(** udh.py 49-79: the parsing loop, with fuel. *)
Fixpoint udh_loop (fuel : nat) (data : list Z) (u : udh) : res udh :=
  match data with
  | [] => Ok u
  | _ =>
      match fuel with
      | O => Err OutOfFuel
      | S f =>
          '(iei, data) <- pop0 data ;;
          '(ie_len, data) <- pop0 data ;;
          let ie := py_to data ie_len in
          let data := py_from data ie_len in
          u <- udh_element iei ie u ;;
          udh_loop f data u
      end
  end.

(** udh.py 46-79: [UserDataHeader.from_bytes]. *)
Definition from_bytes (data : list Z) : res udh :=
  udh_loop (length data) data udh_empty.
