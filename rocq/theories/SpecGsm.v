(** Specification: the GSM 7-bit default alphabet of 3GPP TS 23.038, written
    from the standard's table and not from the code. *)
From Coq Require Import List ZArith.
Import ListNotations.
Open Scope Z_scope.

(** Code points of GSM codes 0..127 in order; code 27 is the escape and has
    no character ([-1]). *)
Definition gsm_default : list Z :=
  [ (* 0x00 *) 0x40; 0xA3; 0x24; 0xA5; 0xE8; 0xE9; 0xF9; 0xEC;
    (* 0x08 *) 0xF2; 0xC7; 0x0A; 0xD8; 0xF8; 0x0D; 0xC5; 0xE5;
    (* 0x10 *) 0x394; 0x5F; 0x3A6; 0x393; 0x39B; 0x3A9; 0x3A0; 0x3A8;
    (* 0x18 *) 0x3A3; 0x398; 0x39E; -1; 0xC6; 0xE6; 0xDF; 0xC9;
    (* 0x20 *) 0x20; 0x21; 0x22; 0x23; 0xA4; 0x25; 0x26; 0x27;
    (* 0x28 *) 0x28; 0x29; 0x2A; 0x2B; 0x2C; 0x2D; 0x2E; 0x2F;
    (* 0x30 *) 0x30; 0x31; 0x32; 0x33; 0x34; 0x35; 0x36; 0x37;
    (* 0x38 *) 0x38; 0x39; 0x3A; 0x3B; 0x3C; 0x3D; 0x3E; 0x3F;
    (* 0x40 *) 0xA1; 0x41; 0x42; 0x43; 0x44; 0x45; 0x46; 0x47;
    (* 0x48 *) 0x48; 0x49; 0x4A; 0x4B; 0x4C; 0x4D; 0x4E; 0x4F;
    (* 0x50 *) 0x50; 0x51; 0x52; 0x53; 0x54; 0x55; 0x56; 0x57;
    (* 0x58 *) 0x58; 0x59; 0x5A; 0xC4; 0xD6; 0xD1; 0xDC; 0xA7;
    (* 0x60 *) 0xBF; 0x61; 0x62; 0x63; 0x64; 0x65; 0x66; 0x67;
    (* 0x68 *) 0x68; 0x69; 0x6A; 0x6B; 0x6C; 0x6D; 0x6E; 0x6F;
    (* 0x70 *) 0x70; 0x71; 0x72; 0x73; 0x74; 0x75; 0x76; 0x77;
    (* 0x78 *) 0x78; 0x79; 0x7A; 0xE4; 0xF6; 0xF1; 0xFC; 0xE0 ].

(** The extension table: (code after the escape, code point). *)
Definition gsm_extension : list (Z * Z) :=
  [ (0x0A, 0x0C); (0x14, 0x5E); (0x28, 0x7B); (0x29, 0x7D); (0x2F, 0x5C);
    (0x3C, 0x5B); (0x3D, 0x7E); (0x3E, 0x5D); (0x40, 0x7C); (0x65, 0x20AC) ].

Definition esc : Z := 27.

(** [gsm_code u c]: the septets [c] are the GSM code of code point [u]. *)
Inductive gsm_code (u : Z) : list Z -> Prop :=
| code_default (g : nat) :
    nth_error gsm_default g = Some u -> Z.of_nat g <> esc ->
    gsm_code u [Z.of_nat g]
| code_extension (g : Z) :
    In (g, u) gsm_extension -> gsm_code u [esc; g].

(** A code point that GSM text can contain. *)
Definition gsm_char (u : Z) : Prop := exists c, gsm_code u c.

(** [gsm_text us gs]: the septets [gs] are the GSM form of the text [us]. *)
Definition gsm_text (us gs : list Z) : Prop :=
  exists codes, Forall2 gsm_code us codes /\ gs = concat codes.

(** Septets in which every escape is followed by an assigned extension code. *)
Inductive clean : list Z -> Prop :=
| clean_nil : clean []
| clean_plain g r : 0 <= g < 128 -> g <> esc -> clean r -> clean (g :: r)
| clean_ext g u r : In (g, u) gsm_extension -> clean r -> clean (esc :: g :: r).

(** Stand-ins for characters outside the alphabet: lower-case c cedilla and the
    Greek capitals that look like Latin ones; a question mark otherwise. *)
Definition lookalikes : list (Z * Z) :=
  [ (0xE7, 0x09); (0x391, 0x41); (0x392, 0x42); (0x395, 0x45); (0x397, 0x48);
    (0x399, 0x49); (0x39A, 0x4B); (0x39C, 0x4D); (0x39D, 0x4E); (0x39F, 0x4F);
    (0x3A1, 0x50); (0x3A4, 0x54); (0x3A7, 0x58); (0x3A5, 0x59); (0x396, 0x5A) ].
Definition stand_in (u g : Z) : Prop :=
  In (u, g) lookalikes \/ (~ In u (map fst lookalikes) /\ g = 0x3F).

(** [reads bad b us]: reading the octets [b] gives the text [us].  An unassigned
    extension code, or an escape at the end, reads as a no-break space (0xA0); an
    octet that is no septet reads as [bad], and cannot be read if that is
    [None]. *)
Inductive reads (bad : option (list Z)) : list Z -> list Z -> Prop :=
| reads_nil : reads bad [] []
| reads_plain (g : nat) u b us :
    nth_error gsm_default g = Some u -> Z.of_nat g <> esc -> reads bad b us ->
    reads bad (Z.of_nat g :: b) (u :: us)
| reads_extension g u b us :
    In (g, u) gsm_extension -> reads bad b us -> reads bad (esc :: g :: b) (u :: us)
| reads_unassigned g b us :
    ~ In g (map fst gsm_extension) -> reads bad b us ->
    reads bad (esc :: g :: b) (0xA0 :: us)
| reads_last : reads bad [esc] [0xA0]
| reads_bad g x b us :
    ~ (0 <= g < 128) -> bad = Some x -> reads bad b us -> reads bad (g :: b) (x ++ us).
