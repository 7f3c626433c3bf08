(** C01-C07, C69 and C70: the GSM 03.38 codec and septet packing. *)
From Verif Require Import Py PyFacts SpecGsm SpecPack Gsm GsmFacts Utils PackFacts.
Open Scope Z_scope.

(** C01: text that [encode('gsm0338')] accepts decodes to itself. *)
Theorem C01_gsm_roundtrip : forall (t : pystr) (b : list Z),
  gsm_encode t = Ok b -> gsm_decode b = Ok (chars t).
Proof. exact gsm_roundtrip. Qed.
Print Assumptions C01_gsm_roundtrip.

Example C01_case : exists b, gsm_encode (PyStr true [0x20AC; 0x41; 0xE0; 0x3A9]) = Ok b
  /\ b = [27; 101; 65; 127; 21].
Proof. eexists; split; reflexivity. Qed.

(** The encoding is the standard's code of each character, one after the other;
    with a [str] argument only ASCII characters are accepted. *)
Theorem C01_encode_is_standard : forall (us b : list Z),
  gsm_encode (PyStr true us) = Ok b <-> gsm_text us b.
Proof. exact encode_unicode. Qed.
Print Assumptions C01_encode_is_standard.

(** C02: [is_gsm_text] decides membership in the alphabet; a byte string passes
    when all its bytes are ASCII characters of the alphabet. *)
Theorem C02_is_gsm_text : forall t : pystr,
  is_gsm_text (Some t) = true <->
  Forall (fun u => gsm_char u /\ (is_uni t = true \/ u < 128)) (chars t).
Proof. exact is_gsm_text_spec. Qed.
Print Assumptions C02_is_gsm_text.

(** C02: strict encoding raises UnicodeError exactly when it is not GSM text. *)
Theorem C02_strict_error : forall t : pystr,
  gsm_encode t = Err UnicodeError <->
  ~ Forall (fun u => gsm_char u /\ (is_uni t = true \/ u < 128)) (chars t).
Proof. exact strict_error. Qed.
Print Assumptions C02_strict_error.

Example C02_case_yes : is_gsm_text (Some (PyStr true [0x7B; 0x20AC; 0x61])) = true.
Proof. reflexivity. Qed.
Example C02_case_no : is_gsm_text (Some (PyStr true [0x61; 0x4F60])) = false.
Proof. reflexivity. Qed.

(** C03: decoding septets never fails. *)
Theorem C03_decode_total : forall l : list Z, Forall septet l ->
  exists u, gsm_decode l = Ok u.
Proof. exact gsm_decode_total. Qed.
Print Assumptions C03_decode_total.

(** C03: re-encoding gives the same septets exactly for clean input. *)
Theorem C03_reencode : forall l u : list Z,
  gsm_decode l = Ok u -> (gsm_encode (PyStr true u) = Ok l <-> clean l).
Proof. exact gsm_reencode. Qed.
Print Assumptions C03_reencode.

Example C03_case : gsm_decode [65; 27; 101; 27; 9] = Ok [0x41; 0x20AC; 160].
Proof. reflexivity. Qed.

(** C04: replace mode: standard code, or one stand-in septet, per character. *)
Theorem C04_encode_replace : forall us : list Z,
  exists codes,
    encode (PyStr true us) Replace = Ok (concat codes, zlen (concat codes)) /\
    Forall2 (fun u c => gsm_code u c \/
                        (~ gsm_char u /\ exists g, stand_in u g /\ c = [g])) us codes.
Proof. exact encode_replace. Qed.
Print Assumptions C04_encode_replace.

(** C04: ignore mode: standard code, or nothing, per character. *)
Theorem C04_encode_ignore : forall us : list Z,
  exists codes,
    encode (PyStr true us) Ignore = Ok (concat codes, zlen (concat codes)) /\
    Forall2 (fun u c => gsm_code u c \/ (~ gsm_char u /\ c = [])) us codes.
Proof. exact encode_ignore. Qed.
Print Assumptions C04_encode_ignore.

Example C04_case : encode (PyStr true [0xE7; 0x41; 0x4F60]) Replace = Ok ([9; 65; 63], 3)
  /\ encode (PyStr true [0xE7; 0x41; 0x4F60]) Ignore = Ok ([65], 1).
Proof. split; reflexivity. Qed.

(** C05: [pack_8bits_to_7bits] writes the septet count and the packed octets in
    hexadecimal; the packed octets are determined by [packed]. *)
Theorem C05_pack : forall txt : list Z, Forall septet txt -> zlen txt < 256 ->
  exists o, packed txt o /\
    pack_8bits_to_7bits txt None = Ok (hex_of (zlen txt :: o)).
Proof. exact pack_spec. Qed.
Print Assumptions C05_pack.
Theorem C05_packed_unique : forall s o1 o2 : list Z,
  packed s o1 -> packed s o2 -> o1 = o2.
Proof. exact packed_unique. Qed.
Print Assumptions C05_packed_unique.

(** C05: with a six-octet header, the message starts on a septet boundary after
    the header.  The space is the padding character the caller prepends
    (submit.py 262). *)
Theorem C05_pack_with_header : forall msg u : list Z,
  Forall septet msg -> length u = 6%nat -> Forall octet u -> zlen msg + 7 < 256 ->
  exists o, packed_with_header u msg o /\
    pack_8bits_to_7bits ([32] ++ msg) (Some u) = Ok (hex_of (7 + zlen msg :: o)) /\
    exists t, o = u ++ t.
Proof. exact pack_udh_spec. Qed.
Print Assumptions C05_pack_with_header.

Example C05_case : pack_8bits_to_7bits (str "hellohello") None
  = Ok (str "0ae8329bfd4697d9ec37").
Proof. reflexivity. Qed.

(** C06: unpacking the packed octets and cutting to the septet count. *)
Theorem C06_unpack_pack : forall s o : list Z,
  Forall septet s -> zlen s <= 160 -> packed s o ->
  firstn (length s) (unpack_msg2 o) = s.
Proof. exact unpack_packed. Qed.
Print Assumptions C06_unpack_pack.
Example C06_case : firstn 10 (unpack_msg2 [232; 50; 155; 253; 70; 151; 217; 236; 55])
  = str "hellohello".
Proof. reflexivity. Qed.

(** C06 beyond 160 septets is false: [unpack_msg2] stops. *)
Theorem C06_unpack_pack_long_refuted : exists s o : list Z,
  Forall septet s /\ packed s o /\ zlen s <= 255 /\
  firstn (length s) (unpack_msg2 o) <> s.
Proof. exact unpack_long. Qed.
Print Assumptions C06_unpack_pack_long_refuted.

(** C07: only septets come out, and the two unpackers agree. *)
Theorem C07_unpack_septets : forall l : list Z, Forall octet l ->
  Forall septet (unpack_msg2 l).
Proof. exact unpack_msg2_septets. Qed.
Print Assumptions C07_unpack_septets.
Theorem C07_unpack_agree : forall l : list Z, Forall octet l ->
  unpack_msg (hex_of l) = Ok (unpack_msg2 l).
Proof. exact unpack_agree. Qed.
Print Assumptions C07_unpack_agree.
Example C07_case : unpack_msg (str "e8329bfd") = Ok (str "hell").
Proof. reflexivity. Qed.

(** C69: decoding with [replace] reads every octet string; an octet that is no
    septet becomes one question mark. *)
Theorem C69_decode_replace : forall l : list Z,
  exists us, decode l Replace = Ok (us, zlen us) /\ reads (Some [0x3F]) l us.
Proof. intros l. now apply (decode_lenient Replace). Qed.
Print Assumptions C69_decode_replace.

(** C69: with [ignore] such an octet is left out, and nothing else. *)
Theorem C69_decode_ignore : forall l : list Z,
  exists us, decode l Ignore = Ok (us, zlen us) /\ reads (Some []) l us.
Proof. intros l. now apply (decode_lenient Ignore). Qed.
Print Assumptions C69_decode_ignore.

(** C69: strict decoding succeeds exactly on what can be read without them, and
    otherwise raises UnicodeError. *)
Theorem C69_decode_strict : forall l us : list Z,
  decode l Strict = Ok (us, zlen us) <-> reads None l us.
Proof. exact (decode_reads Strict). Qed.
Print Assumptions C69_decode_strict.
Theorem C69_strict_error : forall l : list Z,
  decode l Strict = Err UnicodeError <-> ~ exists us, reads None l us.
Proof. exact decode_strict_error. Qed.
Print Assumptions C69_strict_error.

Example C69_case : decode [65; 200; 27; 101; 255; 27; 9; 27] Replace
    = Ok ([65; 63; 0x20AC; 63; 160; 160], 6)
  /\ decode [65; 200; 27; 101; 255; 27; 9; 27] Ignore = Ok ([65; 0x20AC; 160; 160], 4)
  /\ decode [65; 200] Strict = Err UnicodeError.
Proof. repeat split. Qed.

(** C70: the length returned with the encoded text is the number of characters
    consumed exactly when no character needed an escape. *)
Theorem C70_length_partial : forall (t : pystr) (b : list Z), gsm_encode t = Ok b ->
  exists n, encode t Strict = Ok (b, n) /\ (n = zlen (chars t) <-> ~ In esc b).
Proof. intros t b H. exists (zlen b). now apply encode_length_escapes. Qed.
Print Assumptions C70_length_partial.

(** C70 fails for the euro sign: one character consumed, two reported; and when
    decoding it two octets are consumed and one reported. *)
Theorem C70_length_refuted : exists t b n m u,
  encode t Strict = Ok (b, n) /\ n <> zlen (chars t) /\
  decode b Strict = Ok (u, m) /\ m <> zlen b.
Proof.
  exists (PyStr true [0x20AC]). do 4 eexists. split; [reflexivity|]. split; [discriminate|].
  split; [reflexivity|discriminate].
Qed.
Print Assumptions C70_length_refuted.
