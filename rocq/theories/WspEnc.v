(** Model of the class [Encoder] of messaging/mms/wsp_pdu.py (lines 1405-2055)
    and of the byte arrays the results are put into.

    Strings are [str] objects, given by the codes of their characters.  The
    [%d] and [%s] of error messages are only modelled where they raise. *)
From Verif Require Import Py Iter Tables WspDec.
Open Scope Z_scope.

(** Items of the lists the encoders return: an integer, a nested list (returned
    by [encode_media_type]) or a str (returned by [encode_status_value]). *)
Inductive elt := EInt (n : Z) | EList (l : list elt) | EStr (s : list Z).

Definition ints (l : list Z) : list elt := map EInt l.

(** [array('B').extend(l)]: each item must be an int in 0..255. *)
Definition array_item (x : elt) : res Z :=
  match x with
  | EInt n => if (0 <=? n) && (n <? 256) then Ok n else Err OverflowError
  | _ => Err TypeError
  end.
Definition array_of (l : list elt) : res (list Z) := mapM array_item l.

(** Result type test of [except EncodeError]. *)
Definition on_encode_error {A} (m h : res A) : res A :=
  match m with Err EncodeError => h | _ => m end.

(** wsp_pdu.py 1409-1420: [encode_uint_8]. *)
Definition encode_uint_8 (uint : Z) : list Z := [Z.land uint 255].

(** wsp_pdu.py 1448-1450: the loop of [encode_uint_var], with fuel. *)
Fixpoint uint_var_enc (fuel : nat) (uint : Z) (acc : list Z) : list Z :=
  match fuel with
  | O => acc
  | S f =>
      if 0 <? uint
      then uint_var_enc f (Z.shiftr uint 7) (Z.lor 128 (Z.land uint 127) :: acc)
      else acc
  end.

(** wsp_pdu.py 1423-1452: [encode_uint_var].  The logarithm bounds the number of
    iterations. *)
Definition encode_uint_var (uint : Z) : list Z :=
  uint_var_enc (S (Z.to_nat (Z.log2 uint))) (Z.shiftr uint 7)
               [Z.land uint 127].

(** wsp_pdu.py 1455-1470: [encode_text_string] on a str. *)
Definition encode_text_string (s : list Z) : list Z := s ++ [0].

(** The same on any value: iterating over an int, a bool, a float or a date, or
    [ord] of the members of a tuple, raises TypeError, except for a pair of
    strings of one character. *)
Definition encode_text_string_p (v : pval) : res (list Z) :=
  match v with PStr s => Ok (encode_text_string s) | _ => Err TypeError end.
Definition encode_text_string_h (v : hval) : res (list Z) :=
  match v with
  | HP v => encode_text_string_p v
  | HPragma [a] (PStr [b]) => Ok (encode_text_string [a; b])
  | _ => Err TypeError
  end.

(** wsp_pdu.py 1473-1499: [encode_short_integer] on an int. *)
Definition encode_short_integer (n : Z) : res (list Z) :=
  if (n <? 0) || (127 <? n) then Err EncodeError else Ok [Z.lor n 128].

(** The same on any parameter value.  A str compares greater than 127 and then
    fails in the [%d] of the message; a float fails there or in [|] unless it is
    out of range, which yields EncodeError; comparing a date with an int raises
    TypeError. *)
Definition encode_short_integer_p (v : pval) : res (list Z) :=
  match v with
  | PInt n => encode_short_integer n
  | PRatio n d =>
      if (n <? 0) || (127 * d <? n) then Err EncodeError else Err TypeError
  | _ => Err TypeError
  end.

(** wsp_pdu.py 1529-1532: the loop of [encode_long_integer], with fuel. *)
Fixpoint long_enc (fuel : nat) (n : Z) : list Z :=
  match fuel with
  | O => []
  | S f => if 0 <? n then Z.land 255 n :: long_enc f (Z.shiftr n 8) else []
  end.

(** [isinstance(n, int)]: beyond [sys.maxint] Python 2 integers are [long]. *)
Definition is_int (n : Z) : bool := (- maxint - 1 <=? n) && (n <=? maxint).

(** wsp_pdu.py 1502-1540: [encode_long_integer] on an integer. *)
Definition encode_long_integer (n : Z) : res (list Z) :=
  if negb (is_int n) then Err EncodeError
  else
    let l := long_enc (S (Z.to_nat (Z.log2 n))) n in
    if 30 <? zlen l then Err EncodeError else Ok (zlen l :: l).

(** [s.split('.')]. *)
Fixpoint split_dot (s : list Z) : list (list Z) :=
  match s with
  | [] => [[]]
  | c :: r =>
      if c =? 46 then [] :: split_dot r
      else match split_dot r with
           | p :: ps => (c :: p) :: ps
           | [] => [[c]]
           end
  end.

(** wsp_pdu.py 1567-1582: the short-integer attempt; the empty list when there
    are more than two components. *)
Definition version_short (version : list Z) : res (list Z) :=
  match split_dot version with
  | [a] =>
      major <- py_int 10 a ;;
      if (major <? 1) || (7 <? major) then Err ValueError
      else encode_short_integer (Z.lor (Z.shiftl major 4) 15)
  | [a; b] =>
      major <- py_int 10 a ;;
      if (major <? 1) || (7 <? major) then Err ValueError
      else
        minor <- py_int 10 b ;;
        if (minor <? 0) || (14 <? minor) then Err ValueError
        else encode_short_integer (Z.lor (Z.shiftl major 4) minor)
  | _ => Ok []
  end.

(** wsp_pdu.py 1543-1588: [encode_version_value] on a str; [except:] catches
    every exception. *)
Definition encode_version_value (version : list Z) : list Z :=
  match version_short version with
  | Ok l => l
  | Err _ => encode_text_string version
  end.
Definition encode_version_value_p (v : pval) : res (list Z) :=
  match v with PStr s => Ok (encode_version_value s) | _ => Err TypeError end.

(** [s in l] and [l.index(s)] on lists of str. *)
Fixpoint index_of (s : list Z) (l : list (list Z)) : option Z :=
  match l with
  | [] => None
  | x :: r =>
      if leqb s x then Some 0
      else match index_of s r with Some i => Some (i + 1) | None => None end
  end.

(** wsp_pdu.py 1591-1616: [encode_media_type]; the result is one nested list. *)
Definition encode_media_type (content_type : list Z) : res (list elt) :=
  v <- (match index_of content_type well_known_content_types with
        | Some i => encode_short_integer i
        | None => Ok (encode_text_string content_type)
        end) ;;
  Ok [EList (ints v)].

(** wsp_pdu.py 1693-1710: [encode_token_text]. *)
Definition encode_token_text (text : list Z) : res (list Z) :=
  if existsb is_separator text then Err EncodeError
  else Ok (encode_text_string text).

(** wsp_pdu.py 1713-1738: [encode_integer_value].  Only ints (and not str, float
    or datetime) pass the type test. *)
Definition encode_integer_value (v : pval) : res (list Z) :=
  match v with
  | PInt n =>
      if negb (is_int n) then Err EncodeError
      else on_encode_error (encode_short_integer n) (encode_long_integer n)
  | _ => Err EncodeError
  end.

(** wsp_pdu.py 1741-1743: [encode_text_value]. *)
Definition encode_text_value (v : pval) : res (list Z) := encode_text_string_p v.

(** wsp_pdu.py 1746-1760: [encode_no_value]. *)
Definition encode_no_value : list Z := [0].

(** wsp_pdu.py 1903-1934: [encode_extension_media] on a str; the first
    character of an empty one raises IndexError. *)
Definition encode_extension_media (s : list Z) : res (list Z) :=
  match s with
  | [] => Err IndexError
  | c :: _ =>
      if (c <? 32) || (c =? 127) then Err EncodeError
      else Ok (encode_text_string s)
  end.

(** wsp_pdu.py 1869-1900: [encode_constrained_encoding] on an int or a str.
    A float or a date would be converted with [str()]; this is not modelled and
    stands as TypeError. *)
Definition encode_constrained_encoding (v : pval) : res (list Z) :=
  match v with
  | PInt n =>
      if is_int n then encode_short_integer n
      else encode_extension_media
             ((if n <? 0 then [45] else []) ++ py_dec (Z.abs n))
  | PStr s => encode_extension_media s
  | _ => Err TypeError
  end.

(** wsp_pdu.py 1842-1866: [encode_constrained_media]. *)
Definition encode_constrained_media (media : list Z) : res (list Z) :=
  match index_of media well_known_content_types with
  | Some i => encode_constrained_encoding (PInt i)
  | None => encode_constrained_encoding (PStr media)
  end.

(** wsp_pdu.py 1999-2015: [encode_short_length]. *)
Definition encode_short_length (n : Z) : res (list Z) :=
  if (n <? 0) || (30 <? n) then Err EncodeError else Ok [n].

(** wsp_pdu.py 1967-1996: [encode_value_length]. *)
Definition encode_value_length (n : Z) : list Z :=
  match encode_short_length n with
  | Ok l => l
  | Err _ => 31 :: encode_uint_var n
  end.

(** wsp_pdu.py 1663-1672: [getattr(Encoder, 'encode_%s' % type)(value)]; the
    types without an encoder raise AttributeError. *)
Definition encode_by_type (t : vtype) (v : pval) : res (list Z) :=
  match t with
  | TVersion => encode_version_value_p v
  | TInteger => encode_integer_value v
  | TTextString => encode_text_string_p v
  | TShort => encode_short_integer_p v
  | TConstrained => encode_constrained_encoding v
  | TNo => Ok encode_no_value
  | TTextValue => encode_text_value v
  | TQ | TCharset | TFieldName | TDelta | TDate => Err AttributeError
  end.

(** wsp_pdu.py 1654-1657: the highest assigned number with the given name.  The
    table is listed in increasing order. *)
Definition find_parameter (name : list Z) (d : list (Z * (list Z * vtype)))
  : option (Z * (list Z * vtype)) :=
  find (fun p => leqb (fst (snd p)) name) (rev d).

(** wsp_pdu.py 1619-1688: [encode_parameter]. *)
Definition encode_parameter_in (version name : list Z) (v : pval) : res (list Z) :=
  d <- get_well_known_parameters version ;;
  match find_parameter name d with
  | Some (n, (_, t)) =>
      a <- encode_short_integer n ;;
      b <- encode_by_type t v ;;
      Ok (a ++ b)
  | None =>
      a <- encode_token_text name ;;
      b <- on_encode_error (encode_integer_value v) (encode_text_string_p v) ;;
      Ok (a ++ b)
  end.
(** wsp_pdu.py 1619: the same with the default version, which its only caller uses. *)
Definition encode_parameter (name : list Z) (v : pval) : res (list Z) :=
  encode_parameter_in (str "1.2") name v.

(** wsp_pdu.py 1937-1964: [encode_content_general_form].  The length counts the
    items of the two lists. *)
Definition encode_content_general_form (media : list Z)
  (params : list (list Z * pval)) : res (list elt) :=
  m <- encode_media_type media ;;
  ps <- mapM (fun p => encode_parameter (fst p) (snd p)) params ;;
  let n := zlen m + zlen ps in
  Ok (ints (encode_value_length n) ++ m ++ map (fun p => EList (ints p)) ps).

(** wsp_pdu.py 1814-1839: [encode_content_type_value]. *)
Definition encode_content_type_value (media : list Z)
  (params : list (list Z * pval)) : res (list elt) :=
  on_encode_error
    (match params with
     | [] => l <- encode_constrained_media media ;; Ok (ints l)
     | _ => Err EncodeError
     end)
    (encode_content_general_form media params).

(** wsp_pdu.py 2018-2055: [encode_accept_value] on a str; values of other types
    are not modelled and stand as TypeError. *)
Definition encode_accept_value (v : hval) : res (list elt) :=
  match v with
  | HP (PStr s) =>
      on_encode_error
        (l <- encode_constrained_media s ;; Ok (ints l))
        (m <- encode_media_type s ;;
         Ok (ints (encode_value_length (zlen m)) ++ m))
  | _ => Err TypeError
  end.

(** wsp_pdu.py 1763-1811: [Encoder.encode_header]. *)
Definition wsp_encode_header (name : list Z) (v : hval) : res (list elt) :=
  names <- get_header_field_names (str "1.2") ;;
  a <- (match index_of name names with
        | Some i => encode_short_integer i
        | None => encode_token_text name
        end) ;;
  b <- (match header_field_encoding name with
        | AcceptValue => encode_accept_value v
        | PragmaValue => Err AttributeError
        | OtherValue => l <- encode_text_string_h v ;; Ok (ints l)
        end) ;;
  Ok (ints a ++ b).
