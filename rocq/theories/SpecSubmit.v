(** Specification: a reader for SMS-SUBMIT PDUs, written from 3GPP TS 23.040
    (9.2.2.2), and what the user data should hold.  It shares nothing with the
    model. *)
From Coq Require Import List ZArith.
From Verif Require Import SpecGsm SpecPack SpecAddress SpecTime.
Import ListNotations.
Open Scope Z_scope.

(** Upper-case hexadecimal notation. *)
Definition hex_digit_upper (d : Z) : Z := if d <? 10 then 48 + d else 65 + (d - 10).
Fixpoint hex_upper (l : list Z) : list Z :=
  match l with
  | [] => []
  | b :: r => hex_digit_upper (b / 16) :: hex_digit_upper (b mod 16) :: hex_upper r
  end.

(** Digits in semi-octets, up to a filler in the last octet. *)
Fixpoint read_semi (os : list Z) : list Z :=
  match os with
  | [] => []
  | [o] => if o / 16 =? 15 then [o mod 16] else [o mod 16; o / 16]
  | o :: r => o mod 16 :: o / 16 :: read_semi r
  end.

(** The fields of an SMS-SUBMIT.  Addresses are the type octet and the digits. *)
Record submit_pdu := SubmitPdu {
  f_smsc : option (Z * list Z);   (* service centre, in front of the TPDU *)
  f_mti : Z;                      (* message type: 1 is SUBMIT *)
  f_rd : bool;                    (* reject duplicates *)
  f_vpf : Z;                      (* validity format: 0 none, 2 relative, 3 absolute *)
  f_srr : bool;                   (* status report request *)
  f_udhi : bool;                  (* user data header indicator *)
  f_rp : bool;                    (* reply path *)
  f_mr : Z;                       (* message reference *)
  f_da : Z * list Z;              (* destination *)
  f_pid : Z;
  f_dcs : Z;
  f_vp : list Z;                  (* validity period octets *)
  f_udl : Z;                      (* user data length *)
  f_ud : list Z }.                (* user data *)

(** Octets taken by the validity period. *)
Definition vp_octets (vpf : Z) : nat :=
  match vpf with 0 => 0 | 2 => 1 | _ => 7 end.

Definition parse_submit (o : list Z) : option submit_pdu :=
  match o with
  | l :: r =>
      let sc := firstn (Z.to_nat l) r in
      let r := skipn (Z.to_nat l) r in
      let smsc := match sc with
                  | [] => None
                  | ty :: ds => Some (ty, read_semi ds)
                  end in
      match r with
      | fo :: mr :: dl :: dt :: r =>
          let k := Z.to_nat ((dl + 1) / 2) in
          let da := firstn (Z.to_nat dl) (read_semi (firstn k r)) in
          match skipn k r with
          | pid :: dcs :: r =>
              let vpf := (fo / 8) mod 4 in
              let vp := firstn (vp_octets vpf) r in
              match skipn (vp_octets vpf) r with
              | udl :: ud =>
                  Some (SubmitPdu smsc (fo mod 4) (Z.odd (fo / 4)) vpf
                          (Z.odd (fo / 32)) (Z.odd (fo / 64)) (Z.odd (fo / 128))
                          mr (dt, da) pid dcs vp udl ud)
              | [] => None
              end
          | _ => None
          end
      | _ => None
      end
  | [] => None
  end.

(** Big-endian 16-bit units. *)
Fixpoint be16 (us : list Z) : list Z :=
  match us with
  | [] => []
  | u :: r => u / 256 :: u mod 256 :: be16 r
  end.
Definition unit16 (u : Z) : Prop := 0 <= u < 65536.

(** Codings by their data coding scheme bits: 0 is the GSM alphabet, 4 is 8-bit
    data, 8 is UCS-2.  [single_ud coding text udl ud]: user data of a message
    that fits one PDU. *)
Inductive single_ud : Z -> list Z -> Z -> list Z -> Prop :=
| ud_gsm text g ud :
    gsm_text text g -> Z.of_nat (length g) <= 160 -> packed g ud ->
    single_ud 0 text (Z.of_nat (length g)) ud
| ud_8bit text :
    Forall octet text -> Z.of_nat (length text) <= 140 ->
    single_ud 4 text (Z.of_nat (length text)) text
| ud_ucs2 text :
    Forall unit16 text -> Z.of_nat (length text) <= 70 ->
    single_ud 8 text (2 * Z.of_nat (length text)) (be16 text).

(** Header of a concatenated message: one element of type 0 with the reference,
    the number of parts and the number of this part. *)
Definition concat_header (ref total i : Z) : list Z := [5; 0; 3; ref; total; i].

(** [part_ud coding ref total i part udl ud]: user data of one part; [part] is
    in septets for the GSM alphabet and in characters otherwise. *)
Inductive part_ud : Z -> Z -> Z -> Z -> list Z -> Z -> list Z -> Prop :=
| part_gsm ref total i part ud :
    Forall septet part -> 1 <= Z.of_nat (length part) <= 153 ->
    packed_with_header (concat_header ref total i) part ud ->
    part_ud 0 ref total i part (7 + Z.of_nat (length part)) ud
| part_8bit ref total i part :
    Forall octet part -> 1 <= Z.of_nat (length part) <= 134 ->
    part_ud 4 ref total i part (6 + Z.of_nat (length part))
            (concat_header ref total i ++ part)
| part_ucs2 ref total i part :
    Forall unit16 part -> 1 <= Z.of_nat (length part) <= 67 ->
    part_ud 8 ref total i part (6 + 2 * Z.of_nat (length part))
            (concat_header ref total i ++ be16 part).

(** Data coding scheme of a coding and an optional message class. *)
Definition dcs_octet (coding : Z) (klass : option Z) : Z :=
  match klass with None => coding | Some k => coding + 16 + k end.

(** Requested validity: none, a period in microseconds, or a date. *)
Inductive validity_req :=
| vNone
| vRelative (us : Z)
| vAbsolute (y mo d hh mi ss : Z) (off : Z).

(** The validity octets say what was requested: the longest expressible period
    that is not longer than the one asked for, or the date, time and offset. *)
Definition validity_octets (v : validity_req) (vpf : Z) (vp : list Z) : Prop :=
  match v with
  | vNone => vpf = 0 /\ vp = []
  | vRelative t => vpf = 2 /\ exists o, vp = [o] /\ octet o /\
      relative_period o * 1000000 <= t /\
      forall w, octet w -> relative_period w * 1000000 <= t -> w <= o
  | vAbsolute y mo d hh mi ss off => vpf = 3 /\
      exists oy om od oh oi os oz, vp = [oy; om; od; oh; oi; os; oz] /\
        swapped_bcd oy = y mod 100 /\ swapped_bcd om = mo /\ swapped_bcd od = d /\
        swapped_bcd oh = hh /\ swapped_bcd oi = mi /\ swapped_bcd os = ss /\
        zone_quarters oz = Z.quot off 15
  end.

(** The parts of a message: in the GSM alphabet every part is itself the GSM
    form of a text; the texts (or parts, in the other codings) one after the
    other are the message. *)
Definition parts_of (coding : Z) (text : list Z) (parts : list (list Z)) : Prop :=
  if coding =? 0
  then exists texts, Forall2 gsm_text texts parts /\ concat texts = text
  else concat parts = text.

(** Size of a message in units of its coding, and the room in one PDU without
    and with the concatenation header. *)
Definition message_size (coding : Z) (text : list Z) (n : Z) : Prop :=
  if coding =? 0
  then exists g, gsm_text text g /\ n = Z.of_nat (length g)
  else n = Z.of_nat (length text).
Definition capacity (coding : Z) : Z :=
  if coding =? 0 then 160 else if coding =? 4 then 140 else 70.
Definition part_capacity (coding : Z) : Z :=
  if coding =? 0 then 153 else if coding =? 4 then 134 else 67.
