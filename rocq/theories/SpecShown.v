(** What [SmsDeliver] shows of any string it accepts, well-formed message or not
    (C122).  The octets of the string are read as in SpecUnread.v.  Nothing here
    refers to the model. *)
From Coq Require Import List ZArith.
From Verif Require Import Py SpecGsm SpecPack SpecTime SpecSubmit SpecDeliver SpecUnread.
Import ListNotations.
Open Scope Z_scope.

(** The string that is kept: all of it, or all but an odd last character when checks
    are not strict. *)
Inductive kept (strict : bool) : list Z -> list Z -> Prop :=
| kept_all s : Z.of_nat (length s) mod 2 = 0 -> kept strict s s
| kept_most s c : strict = false -> Z.of_nat (length s) mod 2 = 0 -> kept strict (s ++ [c]) s.

(** ** Addresses *)

(** The half octets as they are written in hexadecimal, without those that are 15;
    then the two of each pair change places, whatever octets they came from. *)
Fixpoint halves (os : list Z) : list Z :=
  match os with
  | [] => []
  | o :: r => o / 16 :: o mod 16 :: halves r
  end.
Fixpoint exchanged (l : list Z) : list Z :=
  match l with
  | a :: b :: r => b :: a :: exchanged r
  | l => l
  end.
Definition address_text (ty : Z) (os : list Z) : list Z :=
  (if type_of_number ty =? 1 then [43] else []) ++
  map hex_digit (exchanged (filter (fun h => negb (h =? 15)) (halves os))).

(** The complete septets in the octets, the first 161 at most: the digits to base 128
    of the number the octets are. *)
Definition septets_in (os : list Z) : list Z :=
  map (fun i => (le_value 256 os / 128 ^ Z.of_nat i) mod 128)
      (seq 0 (Nat.min (8 * length os / 7) 161)).

(** The sender: a name when the type of number is 5. *)
Inductive sender_shown (ty : Z) (os : list Z) : list Z -> Prop :=
| ss_name text : type_of_number ty = 5 -> reads None (septets_in os) text -> sender_shown ty os text
| ss_number : type_of_number ty <> 5 -> sender_shown ty os (address_text ty os).

(** The service centre in front of everything. *)
Inductive centre_shown : list Z -> option (list Z) -> Prop :=
| cs_none r : centre_shown (0 :: r) None
| cs_some l ty r : 0 < l -> centre_shown (l :: ty :: r) (Some (address_text ty (firstn (Z.to_nat (l - 1)) r))).

(** ** Text *)

(** The coding taken from the data coding scheme: 0 GSM, 4 8-bit data, 8 UCS-2. *)
Definition coding_taken (dcs : Z) : Z :=
  let bits := (dcs / 4) mod 4 in if bits =? 0 then 0 else if bits =? 2 then 8 else 4.

(** Octets of the header with its length: none without a header. *)
Definition header_octets (hdr : bool) (ud : list Z) : Z :=
  if hdr then match ud with n :: _ => 1 + n | [] => 0 end else 0.

(** [udl] is the length announced.  In the GSM alphabet it bounds both the octets
    that are unpacked and the septets that are read; otherwise it counts for
    nothing. *)
Inductive text_shown (hdr : bool) (dcs udl : Z) (ud : list Z) : list Z -> Prop :=
| ts_gsm text : coding_taken dcs = 0 ->
    let skip := Z.to_nat (header_septets (header_octets hdr ud)) in
    reads None (firstn (Z.to_nat udl - skip) (skipn skip (septets_in (firstn (Z.to_nat udl) ud)))) text ->
    text_shown hdr dcs udl ud text
| ts_octets : coding_taken dcs = 4 ->
    text_shown hdr dcs udl ud (skipn (Z.to_nat (header_octets hdr ud)) ud)
| ts_wide text : coding_taken dcs = 8 -> Forall unit16 text ->
    skipn (Z.to_nat (header_octets hdr ud)) ud = be16 text -> text_shown hdr dcs udl ud text.

(** ** Status reports *)

(** A date in a report, with its text; a date that does not exist is left out. *)
Inductive date_shown (ts : list Z) : option Z -> list Z -> Prop :=
| ds_date t : stamp ts t -> date_shown ts (Some t) (stamp_text ts)
| ds_none : (forall t, ~ stamp ts t) -> date_shown ts None [].

(** The name that stands for the state of the report. *)
Definition state_name (st : option Z) : list Z :=
  match st with
  | Some 0 => str "SR-OK"
  | Some 48 => str "SR-STORED"
  | _ => str "SR-UNKNOWN"
  end.
