(** Model of messaging/sms/gsm0338.py: the GSM 03.38 codec. *)
From Verif Require Import Py.
Open Scope Z_scope.

(** gsm0338.py 23-155: [def_regular_decode_dict], GSM code to code point. *)
Definition regular_decode : list (Z * Z) :=
  [(0, 64); (1, 163); (2, 36); (3, 165); (4, 232); (5, 233); (6, 249);
   (7, 236); (8, 242); (9, 199); (10, 10); (11, 216); (12, 248); (13, 13);
   (14, 197); (15, 229); (16, 916); (17, 95); (18, 934); (19, 915);
   (20, 923); (21, 937); (22, 928); (23, 936); (24, 931); (25, 920);
   (26, 926); (28, 198); (29, 230); (30, 223); (31, 201); (32, 32);
   (33, 33); (34, 34); (35, 35); (36, 164); (37, 37); (38, 38); (39, 39);
   (40, 40); (41, 41); (42, 42); (43, 43); (44, 44); (45, 45); (46, 46);
   (47, 47); (48, 48); (49, 49); (50, 50); (51, 51); (52, 52); (53, 53);
   (54, 54); (55, 55); (56, 56); (57, 57); (58, 58); (59, 59); (60, 60);
   (61, 61); (62, 62); (63, 63); (64, 161); (65, 65); (66, 66); (67, 67);
   (68, 68); (69, 69); (70, 70); (71, 71); (72, 72); (73, 73); (74, 74);
   (75, 75); (76, 76); (77, 77); (78, 78); (79, 79); (80, 80); (81, 81);
   (82, 82); (83, 83); (84, 84); (85, 85); (86, 86); (87, 87); (88, 88);
   (89, 89); (90, 90); (91, 196); (92, 214); (93, 209); (94, 220);
   (95, 167); (96, 191); (97, 97); (98, 98); (99, 99); (100, 100);
   (101, 101); (102, 102); (103, 103); (104, 104); (105, 105); (106, 106);
   (107, 107); (108, 108); (109, 109); (110, 110); (111, 111); (112, 112);
   (113, 113); (114, 114); (115, 115); (116, 116); (117, 117); (118, 118);
   (119, 119); (120, 120); (121, 121); (122, 122); (123, 228); (124, 246);
   (125, 241); (126, 252); (127, 224)].

(** gsm0338.py 158-169: [def_escape_decode_dict]. *)
Definition escape_decode : list (Z * Z) :=
  [(10, 12); (20, 94); (40, 123); (41, 125); (47, 92); (60, 91); (61, 126);
   (62, 93); (64, 124); (101, 8364)].

(** gsm0338.py 175-192: [def_replace_encode_dict], code point to GSM code. *)
Definition replace_encode : list (Z * Z) :=
  [(231, 9); (913, 65); (914, 66); (917, 69); (919, 72); (921, 73);
   (922, 75); (924, 77); (925, 78); (927, 79); (929, 80); (932, 84);
   (935, 88); (933, 89); (918, 90)].

(** gsm0338.py 194. *)
Definition QUESTION_MARK : Z := 63.

(** gsm0338.py 197-202: the inverted dictionaries.  The values of the decode
    dictionaries are distinct, so iteration order does not matter. *)
Definition swap_pair (p : Z * Z) : Z * Z := (snd p, fst p).
Definition regular_encode : list (Z * Z) := map swap_pair regular_decode.
Definition escape_encode : list (Z * Z) := map swap_pair escape_decode.

(** The [errors] argument of the codec functions. *)
Inductive errmode := Strict | Replace | Ignore | OtherMode.

(** Dictionary lookup [d[c]] for a character [c] of a text.  The keys of the
    encode dictionaries are unicode; a character of a [str] equals a unicode
    key only when it is ASCII. *)
Definition char_get (uni : bool) (c : Z) (d : list (Z * Z)) : option Z :=
  if uni || (c <? 128) then d_get Z.eqb c d else None.

(** gsm0338.py 212-229: the pieces appended for one character. *)
Definition encode_char (mode : errmode) (uni : bool) (c : Z) : res (list Z) :=
  match char_get uni c regular_encode with
  | Some g => Ok [g]
  | None =>
      match char_get uni c escape_encode with
      | Some g => Ok [27; g]
      | None =>
          match mode with
          | Strict => Err UnicodeError
          | Replace =>
              match char_get uni c replace_encode with
              | Some g => Ok [g]
              | None => Ok [QUESTION_MARK]
              end
          | Ignore => Ok []
          | OtherMode => Err UnicodeError
          end
      end
  end.

(** gsm0338.py 205-232: [encode]; the pair is (string, returned length). *)
Definition encode (t : pystr) (mode : errmode) : res (list Z * Z) :=
  pieces <- mapM (encode_char mode (is_uni t)) (chars t) ;;
  let ret := concat pieces in
  Ok (ret, zlen ret).

(** gsm0338.py 241-267: the decoding loop.  The index loop becomes recursion on
    the rest of the input. *)
Fixpoint decode_loop (mode : errmode) (l : list Z) : res (list Z) :=
  match l with
  | [] => Ok []
  | c :: r =>
      if c =? 27 then
        match r with
        | c2 :: r2 =>
            let u := match d_get Z.eqb c2 escape_decode with
                     | Some u => u | None => 160 end in
            rest <- decode_loop mode r2 ;; Ok (u :: rest)
        | [] => Ok [160]
        end
      else
        match d_get Z.eqb c regular_decode with
        | Some u => rest <- decode_loop mode r ;; Ok (u :: rest)
        | None =>
            match mode with
            | Strict => Err UnicodeError
            | Replace => rest <- decode_loop mode r ;; Ok (63 :: rest)
            | Ignore => decode_loop mode r
            | OtherMode => Err UnicodeError
            end
        end
  end.

(** gsm0338.py 235-268: [decode]. *)
Definition decode (l : list Z) (mode : errmode) : res (list Z * Z) :=
  u <- decode_loop mode l ;; Ok (u, zlen u).

(** gsm0338.py 272-279: codec registration; [t.encode("gsm0338")] and
    [b.decode("gsm0338")] call the functions above in strict mode and return
    the first component. *)
Definition gsm_encode (t : pystr) : res (list Z) :=
  r <- encode t Strict ;; Ok (fst r).
Definition gsm_decode (l : list Z) : res (list Z) :=
  r <- decode l Strict ;; Ok (fst r).

(** gsm0338.py 282-292: [is_gsm_text].  [None] is a non-string argument such as
    Python's None, whose [encode] raises AttributeError. *)
Definition is_gsm_text (t : option pystr) : bool :=
  match t with
  | Some t => match gsm_encode t with Ok _ => true | Err _ => false end
  | None => false
  end.
