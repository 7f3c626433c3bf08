(** Parameters in the four encoding versions of the standard (C119): what is sent for a
    name and a value, and what a number stands for.  Only the value types of the model
    are used, none of its functions or tables. *)
From Verif Require Import Py WspDec SpecWsp SpecVersion SpecAttach SpecSmil SpecRefuse WspClaims.
Open Scope Z_scope.

Definition version_1 (minor : Z) : list Z := str "1." ++ [48 + minor].

(** A number of the standard with its name, in this version. *)
Definition in_version (minor n : Z) (name : list Z) : Prop :=
  exists j, 1 <= j <= minor /\ In (n, name) (parameters_since j).
(** The number sent for a name: the newest, for a name that has several. *)
Definition number_for (minor : Z) (name : list Z) (n : Z) : Prop :=
  in_version minor n name /\ forall m, in_version minor m name -> m <= n.

(** How the value of a numbered parameter is sent, if at all. *)
Inductive kind := Text | Number_kind | Octet | Version | Media | Flag | Unwritable.
Definition kind_of (n : Z) : kind :=
  if existsb (Z.eqb n) [5; 6; 10; 11; 12; 13; 15; 18; 23; 24; 25; 26; 27; 28; 29] then Text
  else if existsb (Z.eqb n) [3; 22] then Number_kind
  else if existsb (Z.eqb n) [8; 17] then Octet
  else if n =? 2 then Version
  else if n =? 9 then Media
  else if n =? 16 then Flag
  else Unwritable.

(** Numbers: one octet up to 127; a count and that many octets from there on, the
    lowest octet first (the standard has the highest first); the count 0 for those
    below 0. *)
Inductive Number_sent (n : Z) : list Z -> Prop :=
| ns_short : 0 <= n <= 127 -> Number_sent n [128 + n]
| ns_long : forall ds, 127 < n < 2 ^ 63 -> Forall (fun d => 0 <= d < 256) ds -> hd 0 ds <> 0 ->
    big_endian ds = n -> Number_sent n (zlen ds :: rev ds)
| ns_negative : - 2 ^ 63 <= n < 0 -> Number_sent n [0].

(** The value of a parameter of this kind, or the exception; for texts and integers.
    A [long] as media type is sent as its decimal digits. *)
Definition value_sent (k : kind) (v : pval) (r : res (list Z)) : Prop :=
  match k, v with
  | Text, PStr s => r = Ok (s ++ [0])
  | Text, _ => r = Err TypeError
  | Number_kind, PInt n =>
      (exists l, Number_sent n l /\ r = Ok l) \/ ~ machine n /\ r = Err EncodeError
  | Number_kind, _ => r = Err EncodeError
  | Octet, PInt n => 0 <= n <= 127 /\ r = Ok [128 + n] \/ ~ (0 <= n <= 127) /\ r = Err EncodeError
  | Octet, _ => r = Err TypeError
  | Version, PStr s => exists l, Sent s l /\ r = Ok l
  | Version, _ => r = Err TypeError
  | Media, PInt n =>
      0 <= n <= 127 /\ r = Ok [128 + n] \/
      machine n /\ ~ (0 <= n <= 127) /\ r = Err EncodeError \/
      ~ machine n /\ exists ds, notation n ds /\ r = Ok (ds ++ [0])
  | Media, PStr s =>
      s = [] /\ r = Err IndexError \/ control s /\ r = Err EncodeError \/
      s <> [] /\ ~ control s /\ r = Ok (s ++ [0])
  | Media, _ => r = Err TypeError
  | Flag, _ => r = Ok [0]
  | Unwritable, _ => r = Err AttributeError
  end.

(** The value after a name that has no number. *)
Definition untyped_sent (v : pval) (r : res (list Z)) : Prop :=
  match v with
  | PStr s => r = Ok (s ++ [0])
  | PInt n => (exists l, Number_sent n l /\ r = Ok l) \/ ~ machine n /\ r = Err TypeError
  | _ => r = Err TypeError
  end.

Inductive parameter_sent (version name : list Z) (v : pval) : res (list Z) -> Prop :=
| ps_version : (forall k, 1 <= k <= 4 -> version <> version_1 k) ->
    parameter_sent version name v (Err ValueError)
| ps_number : forall k n l, 1 <= k <= 4 -> version = version_1 k -> number_for k name n ->
    value_sent (kind_of n) v (Ok l) -> parameter_sent version name v (Ok (128 + n :: l))
| ps_number_fails : forall k n e, 1 <= k <= 4 -> version = version_1 k -> number_for k name n ->
    value_sent (kind_of n) v (Err e) -> parameter_sent version name v (Err e)
| ps_separated : forall k, 1 <= k <= 4 -> version = version_1 k ->
    (forall n, ~ in_version k n name) -> separated name ->
    parameter_sent version name v (Err EncodeError)
| ps_name : forall k l, 1 <= k <= 4 -> version = version_1 k ->
    (forall n, ~ in_version k n name) -> ~ separated name ->
    untyped_sent v (Ok l) -> parameter_sent version name v (Ok (name ++ [0] ++ l))
| ps_name_fails : forall k e, 1 <= k <= 4 -> version = version_1 k ->
    (forall n, ~ in_version k n name) -> ~ separated name ->
    untyped_sent v (Err e) -> parameter_sent version name v (Err e).

(** What the numbers stand for, as the code calls the types of values. *)
Definition type_names : list (Z * list Z) :=
  [(0, str "q_value"); (1, str "well_known_charset"); (2, str "version_value");
   (3, str "integer_value"); (5, str "text_string"); (6, str "text_string");
   (7, str "Field-name"); (8, str "short_integer"); (9, str "constrained_encoding");
   (10, str "text_string"); (11, str "text_string"); (12, str "text_string");
   (13, str "text_string"); (14, str "delta_seconds_value"); (15, str "text_string");
   (16, str "no_value"); (17, str "short_integer"); (18, str "text_value");
   (19, str "date_value"); (20, str "date_value"); (21, str "date_value");
   (22, str "integer_value"); (23, str "text_value"); (24, str "text_value");
   (25, str "text_value"); (26, str "text_value"); (27, str "text_value");
   (28, str "text_value"); (29, str "text_value")].
