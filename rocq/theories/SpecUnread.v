(** Which strings [SmsDeliver] refuses, and with which exception (C116).  A PDU is read
    from the front, so the first defect counts.  Nothing here refers to the model. *)
From Coq Require Import List ZArith.
From Verif Require Import Py SpecPack SpecDeliver SpecUdh.
Import ListNotations.
Open Scope Z_scope.

(** ** User data header *)

(** An information element whose data has the wrong size for what it says. *)
Inductive wrong_size (d : list Z) : Z -> exn -> Prop :=
| ws_parts8 : length d <> 3%nat -> wrong_size d 0 ValueError
| ws_ports8 : length d <> 2%nat -> wrong_size d 4 ValueError
| ws_parts16 : (length d < 4)%nat -> wrong_size d 8 IndexError
| ws_ports16 : (length d < 4)%nat -> wrong_size d 5 IndexError.

(** An identifier without a length, or an element of wrong size, behind elements of
    the right sizes. *)
Inductive header_broken : list Z -> exn -> Prop :=
| hb_alone i : header_broken [i] IndexError
| hb_size i n r e : wrong_size (firstn (Z.to_nat n) r) i e -> header_broken (i :: n :: r) e
| hb_next i n r e : right_size (i, firstn (Z.to_nat n) r) ->
    header_broken (skipn (Z.to_nat n) r) e -> header_broken (i :: n :: r) e.

(** ** User data *)

(** The data coding scheme is taken for UCS-2: bit 3 is set and bit 2 is not. *)
Definition wide (dcs : Z) : Prop := (dcs / 4) mod 4 = 2.

(** [hdr]: a user data header is announced. *)
Inductive data_broken (hdr : bool) (dcs : Z) : list Z -> exn -> Prop :=
| db_header_missing : hdr = true -> data_broken hdr dcs [] IndexError
| db_header n r e : hdr = true -> header_broken (firstn (Z.to_nat n) r) e -> data_broken hdr dcs (n :: r) e
| db_half d : hdr = false -> wide dcs -> Z.of_nat (length d) mod 2 = 1 -> data_broken hdr dcs d IndexError
| db_header_half n r : hdr = true -> (forall e, ~ header_broken (firstn (Z.to_nat n) r) e) ->
    wide dcs -> Z.of_nat (length (skipn (Z.to_nat n) r)) mod 2 = 1 -> data_broken hdr dcs (n :: r) IndexError.

(** ** A delivered message, from the sender on; [fo] is the octet in front of it *)
Inductive body_broken (fo : Z) : list Z -> exn -> Prop :=
| bb_sender o : (length o < 2)%nat -> body_broken fo o IndexError
(* the octets of the sender, then protocol, coding and seven octets of date *)
| bb_short n ty r : (length r < Z.to_nat ((n + 1) / 2) + 9)%nat -> body_broken fo (n :: ty :: r) IndexError
| bb_date n ty sender pid dcs ts oz r : length sender = Z.to_nat ((n + 1) / 2) -> length ts = 6%nat ->
    (forall t, ~ stamp ts t) ->
    body_broken fo (n :: ty :: sender ++ pid :: dcs :: ts ++ oz :: r) ValueError
| bb_length n ty sender pid dcs ts t oz : length sender = Z.to_nat ((n + 1) / 2) -> stamp ts t ->
    body_broken fo (n :: ty :: sender ++ pid :: dcs :: ts ++ [oz]) IndexError
| bb_data n ty sender pid dcs ts t oz udl ud e : length sender = Z.to_nat ((n + 1) / 2) -> stamp ts t ->
    data_broken (udhi fo) dcs ud e ->
    body_broken fo (n :: ty :: sender ++ pid :: dcs :: ts ++ oz :: udl :: ud) e.

(** ** The whole PDU *)

(** What stands behind the address of the service centre. *)
Inductive behind_centre : list Z -> list Z -> Prop :=
| bc_none r : behind_centre (0 :: r) r
| bc_some l ty r : 0 < l -> behind_centre (l :: ty :: r) (skipn (Z.to_nat (l - 1)) r).

Inductive unreadable : list Z -> exn -> Prop :=
| ur_empty : unreadable [] IndexError
| ur_centre l : 0 < l -> unreadable [l] IndexError
| ur_end o : behind_centre o [] -> unreadable o IndexError
| ur_submit o fo r : behind_centre o (fo :: r) -> message_type fo = 1 -> unreadable o ValueError
| ur_report o fo r : behind_centre o (fo :: r) -> message_type fo = 2 -> (length r < 3)%nat ->
    unreadable o IndexError
| ur_deliver o fo r e : behind_centre o (fo :: r) -> message_type fo = 0 \/ message_type fo = 3 ->
    body_broken fo r e -> unreadable o e.

(** ** Strings *)

(** A blank, a tab or a line break. *)
Definition white (c : Z) : Prop := c = 32 \/ 9 <= c <= 13.

(** The number two characters are taken for: two hexadecimal digits, or one beside a
    blank or behind a sign. *)
Inductive pair_number : Z -> Z -> Z -> Prop :=
| pn_hex a b h l : hex_value a = Some h -> hex_value b = Some l -> pair_number a b (16 * h + l)
| pn_before a b v : white a -> hex_value b = Some v -> pair_number a b v
| pn_behind a b v : hex_value a = Some v -> white b -> pair_number a b v
| pn_plus b v : hex_value b = Some v -> pair_number 43 b v
| pn_minus b v : hex_value b = Some v -> pair_number 45 b (- v).

Inductive numbers : list Z -> list Z -> Prop :=
| ns_nil : numbers [] []
| ns_cons a b v s l : pair_number a b v -> numbers s l -> numbers (a :: b :: s) (v :: l).

(** Characters in pairs. *)
Inductive refused (s : list Z) : exn -> Prop :=
| rf_pairs : (forall l, ~ numbers s l) -> refused s ValueError
| rf_negative l v : numbers s l -> In v l -> v < 0 -> refused s OverflowError
| rf_octets o e : numbers s o -> Forall octet o -> unreadable o e -> refused s e.

(** An odd character at the end is refused, or dropped when checks are not strict. *)
Inductive pdu_refused (strict : bool) : list Z -> exn -> Prop :=
| pr_odd s : Z.of_nat (length s) mod 2 = 1 -> strict = true -> pdu_refused strict s ValueError
| pr_dropped s c e : Z.of_nat (length s) mod 2 = 0 -> strict = false -> refused s e ->
    pdu_refused strict (s ++ [c]) e
| pr_even s e : Z.of_nat (length s) mod 2 = 0 -> refused s e -> pdu_refused strict s e.
