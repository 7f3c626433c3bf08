(** The model evaluated on the vectors of the project's own tests
    (messaging/test).  These examples prove nothing beyond the listed inputs;
    they check that the definitions the theorems speak about compute what the
    code is known to compute. *)
From Verif Require Import Py Utils Gsm Udh Submit Deliver Iter Tables WspDec WspEnc
  Message MmsEnc MmsDec Wap.
Open Scope Z_scope.

(** * test_gsm_encoding.py *)

(** test_gsm_encoding.py 24-187: [MAP], characters and their codes. *)
Definition gsm_map : list (Z * list Z) :=
  [(64, [0]); (163, [1]); (36, [2]); (165, [3]); (232, [4]); (233, [5]); (249, [6]);
  (236, [7]); (242, [8]); (199, [9]); (10, [10]); (216, [11]); (248, [12]); (13, [13]);
  (197, [14]); (229, [15]); (916, [16]); (95, [17]); (934, [18]); (915, [19]); (923, [20]);
  (937, [21]); (928, [22]); (936, [23]); (931, [24]); (920, [25]); (926, [26]);
  (160, [27]); (198, [28]); (230, [29]); (223, [30]); (201, [31]); (32, [32]); (33, [33]);
  (34, [34]); (35, [35]); (164, [36]); (37, [37]); (38, [38]); (39, [39]); (123, [27; 40]);
  (125, [27; 41]); (42, [42]); (43, [43]); (44, [44]); (45, [45]); (46, [46]); (92, [27;
  47]); (48, [48]); (49, [49]); (50, [50]); (51, [51]); (52, [52]); (53, [53]); (54, [54]);
  (55, [55]); (56, [56]); (57, [57]); (58, [58]); (59, [59]); (91, [27; 60]); (12, [27;
  10]); (93, [27; 62]); (63, [63]); (124, [27; 64]); (65, [65]); (66, [66]); (67, [67]);
  (68, [68]); (69, [69]); (70, [70]); (71, [71]); (72, [72]); (73, [73]); (74, [74]);
  (75, [75]); (76, [76]); (77, [77]); (78, [78]); (79, [79]); (80, [80]); (81, [81]);
  (82, [82]); (83, [83]); (84, [84]); (85, [85]); (86, [86]); (87, [87]); (88, [88]);
  (89, [89]); (90, [90]); (196, [91]); (214, [92]); (209, [93]); (220, [94]); (167, [95]);
  (191, [96]); (97, [97]); (98, [98]); (99, [99]); (100, [100]); (8364, [27; 101]);
  (102, [102]); (103, [103]); (104, [104]); (60, [60]); (106, [106]); (107, [107]);
  (108, [108]); (109, [109]); (110, [110]); (126, [27; 61]); (112, [112]); (113, [113]);
  (114, [114]); (115, [115]); (116, [116]); (62, [62]); (118, [118]); (105, [105]);
  (120, [120]); (94, [27; 20]); (122, [122]); (228, [123]); (246, [124]); (241, [125]);
  (252, [126]); (224, [127]); (161, [64]); (47, [47]); (111, [111]); (117, [117]);
  (119, [119]); (121, [121]); (101, [101]); (61, [61]); (40, [40]); (41, [41])].
Definition greek_map : list (Z * list Z) :=
  [(913, [65]); (914, [66]); (917, [69]); (919, [72]); (921, [73]); (922, [75]);
  (924, [77]); (925, [78]); (927, [79]); (929, [80]); (932, [84]); (935, [88]);
  (933, [89]); (918, [90]); (231, [9])].

(** test_gsm_encoding.py 194-211 (the no-break space has no code), 213-225, 227-239, 241-251. *)
Example gsm_encodes : Forall (fun p => Gsm.encode (PyStr true [fst p]) Ignore
    = Ok (if fst p =? 160 then ([], 0) else (snd p, zlen (snd p)))) gsm_map.
Proof. repeat (apply Forall_cons; [vm_compute; reflexivity|]). apply Forall_nil. Qed.
Example gsm_encodes_greek : Forall (fun p => Gsm.encode (PyStr true [fst p]) Replace
    = Ok (snd p, 1)) greek_map.
Proof. repeat (apply Forall_cons; [vm_compute; reflexivity|]). apply Forall_nil. Qed.
Example gsm_decodes : Forall (fun p => Gsm.decode (snd p) Strict = Ok ([fst p], 1)) gsm_map.
Proof. repeat (apply Forall_cons; [vm_compute; reflexivity|]). apply Forall_nil. Qed.

(** test_gsm_encoding.py 253-267: of the characters 1 to 65535, exactly those of [MAP] but the
    no-break space are GSM text. *)
Fixpoint from (c : Z) (n : nat) : list Z :=
  match n with O => [] | S n => c :: from (c + 1) n end.
Example gsm_is_text :
  forallb (fun c =>
    Bool.eqb (is_gsm_text (Some (PyStr true [c])))
             (negb (c =? 160) && existsb (fun p => fst p =? c) gsm_map))
    (from 1 (Z.to_nat 65535)) = true.
Proof. vm_compute. reflexivity. Qed.

(** * test_sms.py *)

(** test_sms.py 17-35. *)
Example to_relative_bounds :
  timedelta_to_relative_validity (td_minutes 4) = Err ValueError
  /\ timedelta_to_relative_validity (td_weeks 64) = Err ValueError.
Proof. split; vm_compute; reflexivity. Qed.
Example to_relative : map timedelta_to_relative_validity
  [td_minutes 5; td_minutes 6; td_minutes 10; td_hours 12; td_hours 13; td_hours 24;
  td_of_days 2; td_of_days 30]
  = map (fun n => Ok (Some n)) [0; 0; 1; 143; 145; 167; 168; 196].
Proof. vm_compute. reflexivity. Qed.

(** test_sms.py 37-52. *)
Example to_absolute_1 : datetime_to_absolute_validity
  (Datetime 1999 2 12 5 57 30 (Some 180)) = Ok [153; 32; 33; 80; 117; 3; 33].
Proof. vm_compute. reflexivity. Qed.
Example to_absolute_2 : datetime_to_absolute_validity
  (Datetime 1999 2 12 5 57 30 None) = Ok [153; 32; 33; 80; 117; 3; 0].
Proof. vm_compute. reflexivity. Qed.
Example to_absolute_3 : datetime_to_absolute_validity
  (Datetime 1999 2 12 5 57 30 (Some (-180))) = Ok [153; 32; 33; 80; 117; 3; 41].
Proof. vm_compute. reflexivity. Qed.

(** test_sms.py 55-242, TestSmsSubmit: the PDUs of an object built and set as in the tests. *)
Definition pdus_of (number : list Z) (text : pystr) (set : submit -> submit) :=
  match new_submit (Some number) text with
  | Ok s => match to_pdu (set (with_ref (Some 0) s)) with
            | (Ok l, _) => Ok (map (fun p => (p_pdu p, p_length p, p_cnt p, p_seq p)) l)
            | (Err e, _) => Err e
            end
  | Err e => Err e
  end.
Definition texts_of (r : res (list (list Z * Z * Z * Z))) : res (list (list Z)) :=
  l <- r ;; Ok (map (fun p => fst (fst (fst p))) l).

Example submit_1 : texts_of (pdus_of (str "+34616585119") (PyStr false (str "hola"))
  (fun s => s))
  = Ok [str "0001000B914316565811F9000004E8373B0C"].
Proof. vm_compute. reflexivity. Qed.
Example submit_2 : texts_of (pdus_of (str "+34616585119") (PyStr false (str "hola"))
  (with_validity (Absolute (Datetime 2010 7 25 20 15 39 None))))
  = Ok [str "0019000B914316565811F900000170520251930004E8373B0C"].
Proof. vm_compute. reflexivity. Qed.
Example submit_3 : pdus_of (str "+34616585119") (PyStr false (str "hola"))
  (with_validity (Relative (td_of_days 4)))
  = Ok [(str "0011000B914316565811F90000AA04E8373B0C", 18, 1, 1)].
Proof. vm_compute. reflexivity. Qed.
Example submit_4 : pdus_of (str "+34616585119") (PyStr false (str "hola"))
  (with_csca (Some (str "+34646456456")))
  = Ok [(str "07914346466554F601000B914316565811F9000004E8373B0C", 17, 1, 1)].
Proof. vm_compute. reflexivity. Qed.
Example submit_5 : texts_of (pdus_of (str "+34654123456") (PyStr false (str "hey yo"))
  (with_klass (Some 0)))
  = Ok [str "0001000B914356143254F6001006E8721E947F03"].
Proof. vm_compute. reflexivity. Qed.
Example submit_6 : texts_of (pdus_of (str "+34654123456") (PyStr false (str "hey yo"))
  (with_klass (Some 1)))
  = Ok [str "0001000B914356143254F6001106E8721E947F03"].
Proof. vm_compute. reflexivity. Qed.
Example submit_7 : texts_of (pdus_of (str "+34654123456") (PyStr false (str "hey yo"))
  (with_klass (Some 2)))
  = Ok [str "0001000B914356143254F6001206E8721E947F03"].
Proof. vm_compute. reflexivity. Qed.
Example submit_8 : texts_of (pdus_of (str "+34654123456") (PyStr false (str "hey yo"))
  (with_klass (Some 3)))
  = Ok [str "0001000B914356143254F6001306E8721E947F03"].
Proof. vm_compute. reflexivity. Qed.
Example submit_9 : texts_of (pdus_of (str "+34654123456") (PyStr false (str "hey yo"))
  (with_request_status true))
  = Ok [str "0021000B914356143254F6000006E8721E947F03"].
Proof. vm_compute. reflexivity. Qed.
Example submit_10 : texts_of (pdus_of (str "+34654123456") (PyStr true [72; 246; 108; 228])
  (with_validity (Relative (td_of_days 4))))
  = Ok [str "0011000B914356143254F60000AA04483E7B0F"].
Proof. vm_compute. reflexivity. Qed.
Example submit_11 : texts_of (pdus_of (str "+34654123456") (PyStr true [66; 196; 82; 199; 65; 32; 228; 241; 64])
  (fun s => s))
  = Ok [str "0001000B914356143254F6000009C2AD341104EDFB00"].
Proof. vm_compute. reflexivity. Qed.
Example submit_12 : texts_of (pdus_of (str "01000000000") (PyStr false (str "Hi there..."))
  (fun s => with_fmt (Some 4) (with_csca (Some (str "+44000000000")) s)))
  = Ok [str "07914400000000F001000B811000000000F000040B48692074686572652E2E2E"].
Proof. vm_compute. reflexivity. Qed.
Example submit_13 : texts_of (pdus_of (str "+34616585119") (PyStr true [12354; 21494; 33865])
  (with_csca (Some (str "+34646456456"))))
  = Ok [str "07914346466554F601000B914316565811F9000806304253F68449"].
Proof. vm_compute. reflexivity. Qed.
Example submit_14 : texts_of (pdus_of (str "655345678") (PyStr true [1056; 1091; 1089; 1089; 1082; 1080; 1081])
  (with_validity (Relative (td_of_days 4))))
  = Ok [str "001100098156355476F80008AA0E0420044304410441043A04380439"].
Proof. vm_compute. reflexivity. Qed.
Example submit_multipart : match pdus_of (str "655345678")
  (PyStr false (str "Or walk with Kings - nor lose the common touch, if neither foes nor loving friends can hurt you, If all men count with you, but none too much; If you can fill the unforgiving minute With sixty seconds' worth of distance run, Yours is the Earth and everything thats in it, And - which is more - you will be a Man, my son"))
  (fun s => with_rand_id (Some 136) (with_validity (Relative (td_of_days 4)) s)) with
  | Ok l => map (fun p => (fst (fst (fst p)), snd (fst p), snd p)) l
  | Err _ => [] end
  = [(str "005100098156355476F80000AAA00500038803019E72D03DCC5E83EE693A1AB44CBBCF73500BE47ECB41ECF7BC0CA2A3CBA0F1BBDD7EBB41F4777D8C6681D26690BB9CA6A3CB7290F95D9E83DC6F3988FDB6A7DD6790599E2EBBC973D038EC06A1EB723A28FFAEB340493328CC6683DA653768FCAEBBE9A07B9A8E06E5DF7516485CA783DC6F7719447FBF41EDFA18BD0325CDA0FCBB0E1A87DD", 3, 1);
     (str "005100098156355476F80000AAA005000388030240E6349B0DA2A3CBA0BADBFC969FD3F6B4FB0C6AA7DD757A19744DD3D1A0791A4FCF83E6E5F1DB4D9E9F40F7B79C8E06BDCD20727A4E0FBBC76590BCEE6681B2EFBA7C0E4ACF41747419540CCBE96850D84D0695ED65799E8E4EBBCF203A3A4C9F83D26E509ACE0205DD64500B7447A7C768507A0E6ABFE565500B947FD741F7349B0D129741", 3, 2);
     (str "005100098156355476F80000AA14050003880303C2A066D8CD02B5F3A0F9DB0D", 3, 3)].
Proof. vm_compute. reflexivity. Qed.
Example submit_bad_number : new_submit (Some (str "032BADNUMBER")) (PyStr false (str "text")) = Err ValueError.
Proof. vm_compute. reflexivity. Qed.
Example submit_bad_csca : match new_submit (Some (str "54342342")) (PyStr false (str "text")) with
  | Ok s => fst (set_csca (Some (str "1badcsca")) s) = Err ValueError | Err _ => False end.
Proof. vm_compute. reflexivity. Qed.

(** test_sms.py 244-318, TestSubmitPduCounts: numbers of PDUs. *)
Definition count_of (t : list Z) : res nat :=
  l <- pdus_of (str "+3530000000") (PyStr true t) (fun s => s) ;; Ok (length l).
Example submit_counts : map count_of
  [repeat 120 160; repeat 120 161; repeat 120 306; repeat 120 307; repeat 120 459;
  repeat 120 460; repeat 8364 80; repeat 8364 79 ++ [120]; repeat 8364 153;
  repeat 8364 229 ++ [120]; repeat 337 70; repeat 337 70 ++ [120]; repeat 337 134;
  repeat 337 134 ++ [120]; repeat 337 201; repeat 337 201 ++ [120]]
  = map Ok [1; 2; 2; 3; 3; 4; 1; 1; 3; 4; 1; 2; 2; 3; 3; 4]%nat.
Proof. vm_compute. reflexivity. Qed.

(** test_sms.py 320-469, TestSmsDeliver: reading.  The fields the tests compare. *)
Definition read (pdu : list Z) :=
  o <- new_deliver pdu true ;; Ok (d_text o, d_csca o, d_number o).
Definition read_date (pdu : list Z) := o <- new_deliver pdu true ;; Ok (d_date o).

Example deliver_1 : read (str "07911326040000F0040B911346610089F60000208062917314080CC8F71D14969741F977FD07")
  = Ok (Some (str "How are you?"), Some (str "+31624000000"), Some (str "+31641600986")).
Proof. vm_compute. reflexivity. Qed.
Example deliver_2 : read (str "07914306073011F0040B914316709807F2000880604290224080084E2D5174901A8BAF")
  = Ok (Some [20013; 20852; 36890; 35759], Some (str "+34607003110"), Some (str "+34610789702")).
Proof. vm_compute. reflexivity. Qed.
Example deliver_3 : read (str "07919471060040340409D0C6A733390400009060920173018093CC74595C96838C4F6772085AD6DDE4320B444E9741D4B03C6D7EC3E9E9B71B9474D3CB727799DEA286CFE5B9991DA6CBC3F432E85E9793CBA0F09A9EB6A7CB72BA0B9474D3CB727799DE72D6E9FABAFB0CBAA7E56490BA4CD7D34170F91BE4ACD3F575F7794E0F9F4161F1B92C2F8FD1EE32DD054AA2E520E3D3991C82A8E5701B")
  = Ok (Some (str "Lieber FONIC Kunde, die Tarifoption Internet-Tagesflatrate wurde aktiviert. Internet-Nutzung wird jetzt pro Nutzungstag abgerechnet. Ihr FONIC Team"), Some (str "+491760000443"), Some (str "FONIC")).
Proof. vm_compute. reflexivity. Qed.
Example deliver_4 : read (str "07919333852804000412D0F7FBDD454FB75D693A0000903002801153402BCD301E9F0605D9E971191483C140412A35690D52832063D2F9040599A058EE05A3BD6430580E")
  = Ok (Some (str "Maxxi Alice 100 ATTIVATA FINO AL 19/04/2009"), Some (str "+393358824000"), Some (str "www.tim.it")).
Proof. vm_compute. reflexivity. Qed.
Example deliver_5 : read (str "07914306073011F006270B913426565711F7012081111345400120811174054043")
  = Ok (Some (str "+43626575117|10/02/18 11:31:54|"), Some (str "+34607003110"), Some (str "SR-UNKNOWN")).
Proof. vm_compute. reflexivity. Qed.
Example deliver_data : (o <- new_deliver (str "07911326040000F0040B911346610089F60000208062917314080CC8F71D14969741F977FD07") true ;; Ok (d_pid o, d_fmt o, d_date o))
  = Ok (Some 0, Some 0, Some 1030390661).
Proof. vm_compute. reflexivity. Qed.
Example deliver_date_1 : read_date (str "0791447758100650040C914497716247010000909010711423400A2050EC468B81C4733A")
  = Ok (Some 1251823292).
Proof. vm_compute. reflexivity. Qed.
Example deliver_date_2 : read_date (str "0791553001000001040491578800000190115101112979CF340B342F9FEBE536E83D0791C3E4F71C440E83E6F53068FE66A7C7697A781C7EBB4050F99BFE1EBFD96F1D48068BC16030182E66ABD560B41988FC06D1D3F03768FA66A7C7697A781C7E83CCEF34282C2ECBE96F50B90D8AC55EB0DC4B068BC140B1994E16D3D1622E")
  = Ok (Some 1284228611).
Proof. vm_compute. reflexivity. Qed.
Example deliver_date_3 : read_date (str "07914306073011F006270B913426565711F7012081111345400120811174054043")
  = Ok (Some 1266492714).
Proof. vm_compute. reflexivity. Qed.
Example deliver_bst : (o <- new_deliver (str "0791447758100650040C914497716247010000909010711423400A2050EC468B81C4733A") true ;; Ok (d_text o, d_number o))
  = Ok (Some (str "  1741 bst"), Some (str "+447917267410")).
Proof. vm_compute. reflexivity. Qed.
Example deliver_german_1 : (o <- new_deliver (str "07919471227210244405852122F039F101506271217180A005000319020198E9B2B82C0759DFE4B0F9ED2EB7967537B9CC02B5D37450122D2FCB41EE303DFD7687D96537881A96A7CD6F383DFD7683F46134BBEC064DD36550DA0D22A7CBF3721BE42CD3F5A0198B56036DCA20B8FC0D6A0A4170767D0EAAE540433A082E7F83A6E5F93CFD76BB40D7B2DB0D9AA6CB2072BA3C2F83926EF31BE44E8FD17450BB8C9683CA") true ;; Ok (d_text o, concat_data o))
  = Ok (Some [76; 105; 101; 98; 101; 114; 32; 86; 111; 100; 97; 102; 111; 110; 101; 45; 75;
  117; 110; 100; 101; 44; 32; 109; 105; 116; 32; 73; 104; 114; 101; 114; 32; 110; 97; 116;
  105; 111; 110; 97; 108; 101; 110; 32; 84; 97; 114; 105; 102; 111; 112; 116; 105; 111;
  110; 32; 122; 97; 104; 108; 101; 110; 32; 83; 105; 101; 32; 105; 110; 32; 100; 105; 101;
  115; 101; 109; 32; 78; 101; 116; 122; 32; 51; 44; 52; 53; 32; 8364; 32; 112; 114; 111;
  32; 77; 66; 32; 112; 108; 117; 115; 32; 53; 57; 32; 67; 116; 32; 112; 114; 111; 32; 83;
  101; 115; 115; 105; 111; 110; 46; 32; 87; 101; 110; 110; 32; 83; 105; 101; 32; 100; 105;
  101; 115; 101; 32; 73; 110; 102; 111; 32; 110; 105; 99; 104; 116; 32; 109; 101; 104; 114;
  32; 101], Some (25, 2, 1)).
Proof. vm_compute. reflexivity. Qed.
Example deliver_german_2 : (o <- new_deliver (str "07919471227210244405852122F039F1015062712181804F050003190202E4E8309B5E7683DAFC319A5E76B340F73D9A5D7683A6E93268FD9ED3CB6EF67B0E5AD172B19B2C2693C9602E90355D6683A6F0B007946E8382F5393BEC26BB00") true ;; Ok (d_text o, concat_data o))
  = Ok (Some [114; 104; 97; 108; 116; 101; 110; 32; 109; 246; 99; 104; 116; 101; 110; 44;
  32; 119; 228; 104; 108; 101; 110; 32; 83; 105; 101; 32; 107; 111; 115; 116; 101; 110;
  108; 111; 115; 32; 43; 52; 57; 49; 55; 50; 49; 50; 50; 50; 48; 46; 32; 86; 105; 101; 108;
  32; 83; 112; 97; 223; 32; 105; 109; 32; 65; 117; 115; 108; 97; 110; 100;
  46], Some (25, 2, 2)).
Proof. vm_compute. reflexivity. Qed.
Example deliver_odd_strict : new_deliver (str "07919471060040340409D0C6A733390400009060920173018093CC74595C96838C4F6772085AD6DDE4320B444E9741D4B03C6D7EC3E9E9B71B9474D3CB727799DEA286CFE5B9991DA6CBC3F432E85E9793CBA0F09A9EB6A7CB72BA0B9474D3CB727799DE72D6E9FABAFB0CBAA7E56490BA4CD7D34170F91BE4ACD3F575F7794E0F9F4161F1B92C2F8FD1EE32DD054AA2E520E3D3991C82A8E5701") true = Err ValueError.
Proof. vm_compute. reflexivity. Qed.
Example deliver_odd : (o <- new_deliver (str "07919471060040340409D0C6A733390400009060920173018093CC74595C96838C4F6772085AD6DDE4320B444E9741D4B03C6D7EC3E9E9B71B9474D3CB727799DEA286CFE5B9991DA6CBC3F432E85E9793CBA0F09A9EB6A7CB72BA0B9474D3CB727799DE72D6E9FABAFB0CBAA7E56490BA4CD7D34170F91BE4ACD3F575F7794E0F9F4161F1B92C2F8FD1EE32DD054AA2E520E3D3991C82A8E5701") false ;; Ok (d_text o))
  = Ok (Some (str "Lieber FONIC Kunde, die Tarifoption Internet-Tagesflatrate wurde aktiviert. Internet-Nutzung wird jetzt pro Nutzungstag abgerechnet. Ihr FONIC Tea")).
Proof. vm_compute. reflexivity. Qed.
Example deliver_report_1 : (o <- new_deliver (str "0791538375000075061805810531F1019082416500400190824165004000") true ;;
    Ok (d_csca o, concat_data o, d_sr o))
  = Ok (Some (str "+353857000057"), Some (24, 0, 0), Some (SReport (str "50131") (Some 1285685760) (Some 1285685760) (Some 0))).
Proof. vm_compute. reflexivity. Qed.
Example deliver_report_2 : (o <- new_deliver (str "00060505810531F1010150610000400101506100004000") true ;;
    Ok (d_csca o, concat_data o, d_sr o))
  = Ok (None, Some (5, 0, 0), Some (SReport (str "50131") (Some 1286294400) (Some 1286294400) (Some 0))).
Proof. vm_compute. reflexivity. Qed.

(** * test_udh.py *)

Example udh_1 : (a <- to_array (str "08049f8e020105040b8423f0") ;; u <- from_bytes a ;;
    Ok (option_map (fun c => (c_seq c, c_cnt c, c_ref c)) (h_concat u),
        option_map (fun p => (p_dest p, p_orig p)) (h_ports u)))
  = Ok (Some (1, 2, 40846), Some (2948, 9200)).
Proof. vm_compute. reflexivity. Qed.
Example udh_2 : (a <- to_array (str "0003190201") ;; u <- from_bytes a ;;
    Ok (option_map (fun c => (c_seq c, c_cnt c, c_ref c)) (h_concat u)))
  = Ok (Some (1, 2, 25)).
Proof. vm_compute. reflexivity. Qed.

(** * test_wap.py *)

Example wap_is_push : map is_a_wap_push_notification
  [[1; 6; 57; 92; 45]; [4; 5; 57; 92; 45];
   [1; 6; 34; 97; 112; 112; 108; 105; 99; 97; 116; 105; 111; 110; 47; 118; 110; 100; 46;
  119; 97; 112; 46; 109; 109; 115; 45; 109; 101; 115; 115; 97; 103; 101; 0; 175; 132; 140;
  130; 152; 78; 79; 75; 53; 67; 105; 75; 99; 111; 84; 77; 89; 83; 71; 52; 77; 66; 83; 119;
  65; 65; 115; 75; 118; 49; 52; 70; 85; 72; 65; 65; 65; 65; 65; 65; 65; 65; 0; 141; 144;
  137; 25; 128; 43; 52; 52; 55; 55; 56; 53; 51; 52; 50; 55; 52; 57; 47; 84; 89; 80; 69; 61;
  80; 76; 77; 78; 0; 138; 128; 142; 2; 116; 0; 136; 5; 129; 3; 1; 25; 64; 131; 104; 116;
  116; 112; 58; 47; 47; 112; 114; 111; 109; 109; 115; 47; 115; 101; 114; 118; 108; 101;
  116; 115; 47; 78; 79; 75; 53; 67; 105; 75; 99; 111; 84; 77; 89; 83; 71; 52; 77; 66; 83;
  119; 65; 65; 115; 75; 118; 49; 52; 70; 85; 72; 65; 65; 65; 65; 65; 65; 65; 65; 0]]
  = [true; false; true].
Proof. vm_compute. reflexivity. Qed.

(** The texts of two PDUs, put together, and what they announce. *)
Definition push (a b : list Z) : res (option (list Z) * option (list Z) * list Z) :=
  x <- new_deliver a true ;; y <- new_deliver b true ;;
  match d_text x, d_text y with
  | Some s, Some t => Ok (d_number x, d_csca x, s ++ t)
  | _, _ => Err TypeError
  end.
Definition numbering (a : list Z) := x <- new_deliver a true ;; Ok (concat_data x).
Definition announced (a b : list Z) :=
  p <- push a b ;; m <- extract_push_notification (snd p) ;;
  Ok (is_mms_notification m,
      map (fun k => d_get leqb (str k) (m_headers m))
        ["Message-Type"; "Transaction-Id"; "MMS-Version"; "From"; "Message-Class";
         "Message-Size"; "Expiry"; "Content-Location"]%string).

Definition wap_1a := str "0791447758100650400E80885810000000810004016082415464408C0C08049F8E020105040B8423F00106226170706C69636174696F6E2F766E642E7761702E6D6D732D6D65737361676500AF848C82984E4F4B3543694B636F544D595347344D4253774141734B7631344655484141414141414141008D908919802B3434373738353334323734392F545950453D504C4D4E008A808E0274008805810301194083687474703A2F".
Definition wap_1b := str "0791447758100650440E8088581000000081000401608241547440440C08049F8E020205040B8423F02F70726F6D6D732F736572766C6574732F4E4F4B3543694B636F544D595347344D4253774141734B763134465548414141414141414100".
Example wap_numbering_1 : (numbering wap_1a, numbering wap_1b)
  = (Ok (Some (40846, 2, 1)), Ok (Some (40846, 2, 2))).
Proof. vm_compute. reflexivity. Qed.
Example wap_sender_1 : (p <- push wap_1a wap_1b ;; Ok (fst p))
  = Ok (Some (str "88850100000018"), Some (str "+447785016005")).
Proof. vm_compute. reflexivity. Qed.
Example wap_announced_1 : announced wap_1a wap_1b = Ok (true, map Some
  [HStr (str "m-notification-ind"); HStr (str "NOK5CiKcoTMYSG4MBSwAAsKv14FUHAAAAAAAA"); HStr (str "1.0");
   HStr (str "+447785342749/TYPE=PLMN"); HStr (str "Personal"); HInt 29696; HInt 72000;
   HStr (str "http://promms/servlets/NOK5CiKcoTMYSG4MBSwAAsKv14FUHAAAAAAAA")]).
Proof. vm_compute. reflexivity. Qed.
Definition wap_2a := str "0791447758100650400E80885810000000800004017002314303408C0C0804DFD3020105040B8423F00106226170706C69636174696F6E2F766E642E7761702E6D6D732D6D65737361676500AF848C82984E4F4B3541315A6446544D595347344F3356514141734A763934476F4E4141414141414141008D908919802B3434373731373237353034392F545950453D504C4D4E008A808E0274008805810303F47F83687474703A2F".
Definition wap_2b := str "0791447758100650440E8088581000000080000401700231431340440C0804DFD3020205040B8423F02F70726F6D6D732F736572766C6574732F4E4F4B3541315A6446544D595347344F3356514141734A763934476F4E414141414141414100".
Example wap_numbering_2 : (numbering wap_2a, numbering wap_2b)
  = (Ok (Some (57299, 2, 1)), Ok (Some (57299, 2, 2))).
Proof. vm_compute. reflexivity. Qed.
Example wap_sender_2 : (p <- push wap_2a wap_2b ;; Ok (fst p))
  = Ok (Some (str "88850100000008"), Some (str "+447785016005")).
Proof. vm_compute. reflexivity. Qed.
Example wap_announced_2 : announced wap_2a wap_2b = Ok (true, map Some
  [HStr (str "m-notification-ind"); HStr (str "NOK5A1ZdFTMYSG4O3VQAAsJv94GoNAAAAAAAA"); HStr (str "1.0");
   HStr (str "+447717275049/TYPE=PLMN"); HStr (str "Personal"); HInt 29696; HInt 259199;
   HStr (str "http://promms/servlets/NOK5A1ZdFTMYSG4O3VQAAsJv94GoNAAAAAAAA")]).
Proof. vm_compute. reflexivity. Qed.
Definition wap_3a := str "0791947122725014440C8500947122921105F5112042519582408C0B05040B8423F0000396020101060B03AE81EAC3958D01A2B48403056A0A20566F6461666F6E650045C60C037761702E6D65696E63616C6C79612E64652F000801035A756D206B6F7374656E6C6F73656E20506F7274616C20224D65696E0083000322202D2065696E66616368206175662064656E20666F6C67656E64656E204C696E6B206B6C69636B656E".
Definition wap_3b := str "0791947122725014440C8500947122921105F5112042519592403C0B05040B8423F00003960202206F6465722064696520536569746520646972656B7420617566727566656E2E2049687200830003205465616D000101".
Example wap_numbering_3 : (numbering wap_3a, numbering wap_3b)
  = (Ok (Some (150, 2, 1)), Ok (Some (150, 2, 2))).
Proof. vm_compute. reflexivity. Qed.
Example wap_sender_3 : (p <- push wap_3a wap_3b ;; Ok (fst p))
  = Ok (Some (str "004917222911"), Some (str "+491722270541")).
Proof. vm_compute. reflexivity. Qed.
Example wap_generic : (p <- push wap_3a wap_3b ;; Ok (snd p))
  = Ok [1; 6; 11; 3; 174; 129; 234; 195; 149; 141; 1; 162; 180; 132; 3; 5; 106; 10; 32; 86;
  111; 100; 97; 102; 111; 110; 101; 0; 69; 198; 12; 3; 119; 97; 112; 46; 109; 101; 105;
  110; 99; 97; 108; 108; 121; 97; 46; 100; 101; 47; 0; 8; 1; 3; 90; 117; 109; 32; 107; 111;
  115; 116; 101; 110; 108; 111; 115; 101; 110; 32; 80; 111; 114; 116; 97; 108; 32; 34; 77;
  101; 105; 110; 0; 131; 0; 3; 34; 32; 45; 32; 101; 105; 110; 102; 97; 99; 104; 32; 97;
  117; 102; 32; 100; 101; 110; 32; 102; 111; 108; 103; 101; 110; 100; 101; 110; 32; 76;
  105; 110; 107; 32; 107; 108; 105; 99; 107; 101; 110; 32; 111; 100; 101; 114; 32; 100;
  105; 101; 32; 83; 101; 105; 116; 101; 32; 100; 105; 114; 101; 107; 116; 32; 97; 117; 102;
  114; 117; 102; 101; 110; 46; 32; 73; 104; 114; 0; 131; 0; 3; 32; 84; 101; 97; 109; 0; 1;
  1].
Proof. vm_compute. reflexivity. Qed.
Example wap_generic_not_mms : (p <- push wap_3a wap_3b ;; m <- extract_push_notification (snd p) ;;
    Ok (is_mms_notification m)) = Ok false.
Proof. vm_compute. reflexivity. Qed.

(** * test_mms.py: the smaller files of mms-data *)

(** A decoded message: its headers are the expected ones, as a dictionary. *)
Definition has_headers (m : message) (expected : list (list Z * hval)) : Prop :=
  length (m_headers m) = length expected
  /\ map (fun p => d_get leqb (fst p) (m_headers m)) expected
    = map (fun p => Some (snd p)) expected.
(** message.py 462-470: [content_type] of a part. *)
Definition part_content_type (p : part) : option (list Z) :=
  match d_get leqb (str "Content-Type") (dp_headers p) with
  | Some (HType t _) => Some t
  | _ => None
  end.

(** SIMPLE.MMS. *)
Definition mms_1 : list Z :=
  [140; 132; 141; 144; 133; 4; 62; 3; 139; 32; 150; 83; 105; 109; 112; 108; 101; 32; 109;
  101; 115; 115; 97; 103; 101; 0; 132; 179; 1; 32; 58; 131; 192; 34; 60; 51; 69; 48; 51;
  48; 57; 57; 69; 46; 116; 120; 116; 62; 0; 142; 51; 69; 48; 51; 48; 57; 57; 69; 46; 116;
  120; 116; 0; 84; 104; 105; 115; 32; 105; 115; 32; 97; 32; 115; 105; 109; 112; 108; 101;
  32; 77; 77; 83; 32; 109; 101; 115; 115; 97; 103; 101; 32; 119; 105; 116; 104; 32; 97; 32;
  115; 105; 110; 103; 108; 101; 32; 116; 101; 120; 116; 32; 98; 111; 100; 121; 32; 112; 97;
  114; 116; 46].
Example mms_1_headers : match decode_data mms_1 with
  | Ok m => has_headers m
    [(str "Transaction-Id", HStr (str "1234"));
     (str "MMS-Version", HStr (str "1.0"));
     (str "Message-Type", HStr (str "m-retrieve-conf"));
     (str "Date", HDate 1040419616);
     (str "Content-Type", HType (str "application/vnd.wap.multipart.related") []);
     (str "Subject", HStr (str "Simple message"))]
    /\ content_type m = Ok (str "application/vnd.wap.multipart.related")
  | Err _ => False end.
Proof. vm_compute. repeat split. Qed.
Example mms_1_count : match decode_data mms_1 with
  | Ok m => length (m_parts m) = 1%nat | Err _ => False end.
Proof. vm_compute. reflexivity. Qed.
Example mms_1_part_1 : match decode_data mms_1 with
  | Ok m => match nth_error (m_parts m) 0 with
            | Some p => part_content_type p = Some (str "text/plain")
              /\ dp_data p = Some (str "This is a simple MMS message with a single text body part.")
            | None => False end
  | Err _ => False end.
Proof. vm_compute. repeat split. Qed.
(** SEC-SGHS300M.mms. *)
Definition mms_2 : list Z :=
  [140; 128; 152; 51; 49; 56; 56; 55; 0; 141; 144; 137; 1; 129; 151; 48; 55; 51; 56; 51;
  52; 53; 54; 54; 52; 47; 84; 89; 80; 69; 61; 80; 76; 77; 78; 0; 150; 4; 234; 73; 76; 0;
  138; 128; 148; 129; 134; 129; 144; 129; 132; 163; 1; 31; 2; 3; 131; 129; 234; 192; 34;
  49; 50; 53; 57; 52; 51; 48; 46; 116; 120; 116; 0; 142; 49; 50; 53; 57; 52; 51; 48; 46;
  116; 120; 116; 0; 72; 86].
Example mms_2_headers : match decode_data mms_2 with
  | Ok m => has_headers m
    [(str "Sender-Visibility", HStr (str "Show"));
     (str "From", HStr (str "<not inserted>"));
     (str "Read-Reply", HBool false);
     (str "Message-Class", HStr (str "Personal"));
     (str "Transaction-Id", HStr (str "31887"));
     (str "MMS-Version", HStr (str "1.0"));
     (str "To", HStr (str "0738345664/TYPE=PLMN"));
     (str "Delivery-Report", HBool false);
     (str "Message-Type", HStr (str "m-send-req"));
     (str "Subject", HStr (str "IL"));
     (str "Content-Type", HType (str "application/vnd.wap.multipart.mixed") [])]
    /\ content_type m = Ok (str "application/vnd.wap.multipart.mixed")
  | Err _ => False end.
Proof. vm_compute. repeat split. Qed.
Example mms_2_count : match decode_data mms_2 with
  | Ok m => length (m_parts m) = 1%nat | Err _ => False end.
Proof. vm_compute. reflexivity. Qed.
Example mms_2_part_1 : match decode_data mms_2 with
  | Ok m => match nth_error (m_parts m) 0 with
            | Some p => part_content_type p = Some (str "text/plain")
              /\ length (dp_params p) = 1%nat
              /\ d_get leqb (str "Charset") (dp_params p) = Some (PStr (str "utf-8"))
              /\ dp_data p = Some (str "HV")
            | None => False end
  | Err _ => False end.
Proof. vm_compute. repeat split. Qed.
(** openwave.mms. *)
Definition mms_3 : list Z :=
  [140; 128; 152; 49; 48; 54; 55; 50; 54; 51; 54; 55; 50; 0; 141; 144; 137; 24; 128; 43;
  49; 54; 53; 48; 53; 53; 53; 48; 48; 48; 48; 47; 84; 89; 80; 69; 61; 80; 76; 77; 78; 0;
  151; 49; 49; 50; 47; 84; 89; 80; 69; 61; 80; 76; 77; 78; 0; 150; 8; 132; 114; 117; 98;
  114; 105; 107; 0; 138; 128; 143; 129; 134; 129; 132; 29; 179; 138; 60; 115; 109; 105;
  108; 95; 48; 62; 0; 137; 97; 112; 112; 108; 105; 99; 97; 116; 105; 111; 110; 47; 115;
  109; 105; 108; 0; 2; 28; 130; 100; 97; 112; 112; 108; 105; 99; 97; 116; 105; 111; 110;
  47; 115; 109; 105; 108; 0; 192; 34; 60; 115; 109; 105; 108; 95; 48; 62; 0; 60; 115; 109;
  105; 108; 62; 10; 32; 32; 60; 104; 101; 97; 100; 62; 10; 32; 32; 32; 32; 60; 108; 97;
  121; 111; 117; 116; 62; 10; 32; 32; 32; 32; 32; 32; 60; 114; 111; 111; 116; 45; 108; 97;
  121; 111; 117; 116; 32; 119; 105; 100; 116; 104; 61; 34; 49; 48; 48; 37; 34; 32; 104;
  101; 105; 103; 104; 116; 61; 34; 49; 48; 48; 37; 34; 32; 47; 62; 10; 32; 32; 32; 32; 32;
  32; 60; 114; 101; 103; 105; 111; 110; 32; 105; 100; 61; 34; 84; 101; 120; 116; 34; 32;
  108; 101; 102; 116; 61; 34; 48; 37; 34; 32; 116; 111; 112; 61; 34; 48; 37; 34; 32; 119;
  105; 100; 116; 104; 61; 34; 49; 48; 48; 37; 34; 32; 104; 101; 105; 103; 104; 116; 61; 34;
  53; 48; 37; 34; 32; 47; 62; 10; 32; 32; 32; 32; 32; 32; 60; 114; 101; 103; 105; 111; 110;
  32; 105; 100; 61; 34; 73; 109; 97; 103; 101; 34; 32; 108; 101; 102; 116; 61; 34; 48; 37;
  34; 32; 116; 111; 112; 61; 34; 53; 48; 37; 34; 32; 119; 105; 100; 116; 104; 61; 34; 49;
  48; 48; 37; 34; 32; 104; 101; 105; 103; 104; 116; 61; 34; 53; 48; 37; 34; 32; 47; 62; 10;
  32; 32; 32; 32; 60; 47; 108; 97; 121; 111; 117; 116; 62; 10; 32; 32; 60; 47; 104; 101;
  97; 100; 62; 10; 32; 32; 60; 98; 111; 100; 121; 62; 10; 32; 32; 32; 32; 60; 112; 97; 114;
  32; 100; 117; 114; 61; 34; 51; 48; 48; 48; 48; 109; 115; 34; 62; 10; 32; 32; 32; 32; 32;
  32; 60; 116; 101; 120; 116; 32; 115; 114; 99; 61; 34; 99; 105; 100; 58; 116; 101; 120;
  116; 95; 48; 34; 32; 114; 101; 103; 105; 111; 110; 61; 34; 84; 101; 120; 116; 34; 32; 47;
  62; 10; 32; 32; 32; 32; 60; 47; 112; 97; 114; 62; 10; 32; 32; 60; 47; 98; 111; 100; 121;
  62; 10; 60; 47; 115; 109; 105; 108; 62; 10; 42; 6; 30; 116; 101; 120; 116; 47; 112; 108;
  97; 105; 110; 0; 99; 104; 97; 114; 115; 101; 116; 0; 105; 115; 111; 45; 56; 56; 53; 57;
  45; 49; 0; 192; 34; 60; 116; 101; 120; 116; 95; 48; 62; 0; 114; 117; 98; 114; 105; 107].
Example mms_3_headers : match decode_data mms_3 with
  | Ok m => has_headers m
    [(str "From", HStr (str "+16505550000/TYPE=PLMN"));
     (str "Message-Class", HStr (str "Personal"));
     (str "Transaction-Id", HStr (str "1067263672"));
     (str "MMS-Version", HStr (str "1.0"));
     (str "Priority", HStr (str "Normal"));
     (str "To", HStr (str "112/TYPE=PLMN"));
     (str "Delivery-Report", HBool false);
     (str "Message-Type", HStr (str "m-send-req"));
     (str "Content-Type", HType (str "application/vnd.wap.multipart.related") [(str "Start", PStr (str "<smil_0>")); (str "Type", PStr (str "application/smil"))]);
     (str "Subject", HStr (str "rubrik"))]
    /\ content_type m = Ok (str "application/vnd.wap.multipart.related")
  | Err _ => False end.
Proof. vm_compute. repeat split. Qed.
Example mms_3_count : match decode_data mms_3 with
  | Ok m => length (m_parts m) = 2%nat | Err _ => False end.
Proof. vm_compute. reflexivity. Qed.
Example mms_3_part_1 : match decode_data mms_3 with
  | Ok m => match nth_error (m_parts m) 0 with
            | Some p => part_content_type p = Some (str "application/smil")
              /\ dp_data p = Some [60; 115; 109; 105; 108; 62; 10; 32; 32; 60; 104; 101;
  97; 100; 62; 10; 32; 32; 32; 32; 60; 108; 97; 121; 111; 117; 116; 62; 10; 32; 32; 32; 32;
  32; 32; 60; 114; 111; 111; 116; 45; 108; 97; 121; 111; 117; 116; 32; 119; 105; 100; 116;
  104; 61; 34; 49; 48; 48; 37; 34; 32; 104; 101; 105; 103; 104; 116; 61; 34; 49; 48; 48;
  37; 34; 32; 47; 62; 10; 32; 32; 32; 32; 32; 32; 60; 114; 101; 103; 105; 111; 110; 32;
  105; 100; 61; 34; 84; 101; 120; 116; 34; 32; 108; 101; 102; 116; 61; 34; 48; 37; 34; 32;
  116; 111; 112; 61; 34; 48; 37; 34; 32; 119; 105; 100; 116; 104; 61; 34; 49; 48; 48; 37;
  34; 32; 104; 101; 105; 103; 104; 116; 61; 34; 53; 48; 37; 34; 32; 47; 62; 10; 32; 32; 32;
  32; 32; 32; 60; 114; 101; 103; 105; 111; 110; 32; 105; 100; 61; 34; 73; 109; 97; 103;
  101; 34; 32; 108; 101; 102; 116; 61; 34; 48; 37; 34; 32; 116; 111; 112; 61; 34; 53; 48;
  37; 34; 32; 119; 105; 100; 116; 104; 61; 34; 49; 48; 48; 37; 34; 32; 104; 101; 105; 103;
  104; 116; 61; 34; 53; 48; 37; 34; 32; 47; 62; 10; 32; 32; 32; 32; 60; 47; 108; 97; 121;
  111; 117; 116; 62; 10; 32; 32; 60; 47; 104; 101; 97; 100; 62; 10; 32; 32; 60; 98; 111;
  100; 121; 62; 10; 32; 32; 32; 32; 60; 112; 97; 114; 32; 100; 117; 114; 61; 34; 51; 48;
  48; 48; 48; 109; 115; 34; 62; 10; 32; 32; 32; 32; 32; 32; 60; 116; 101; 120; 116; 32;
  115; 114; 99; 61; 34; 99; 105; 100; 58; 116; 101; 120; 116; 95; 48; 34; 32; 114; 101;
  103; 105; 111; 110; 61; 34; 84; 101; 120; 116; 34; 32; 47; 62; 10; 32; 32; 32; 32; 60;
  47; 112; 97; 114; 62; 10; 32; 32; 60; 47; 98; 111; 100; 121; 62; 10; 60; 47; 115; 109;
  105; 108; 62; 10]
            | None => False end
  | Err _ => False end.
Proof. vm_compute. repeat split. Qed.
Example mms_3_part_2 : match decode_data mms_3 with
  | Ok m => match nth_error (m_parts m) 1 with
            | Some p => dp_data p = Some (str "rubrik")
            | None => False end
  | Err _ => False end.
Proof. vm_compute. repeat split. Qed.
(** 27d0a048cd79555de05283a22372b0eb.mms. *)
Definition mms_4 : list Z :=
  [140; 128; 152; 51; 45; 51; 49; 99; 98; 0; 141; 144; 133; 4; 64; 176; 177; 226; 137; 1;
  129; 151; 49; 50; 51; 47; 84; 89; 80; 69; 61; 80; 76; 77; 78; 0; 150; 29; 234; 65; 110;
  103; 195; 165; 101; 110; 100; 101; 32; 97; 114; 116; 45; 116; 105; 108; 108; 104; 195;
  182; 114; 105; 103; 104; 101; 116; 0; 138; 128; 143; 129; 148; 129; 134; 129; 144; 129;
  132; 27; 179; 137; 97; 112; 112; 108; 105; 99; 97; 116; 105; 111; 110; 47; 115; 109; 105;
  108; 0; 138; 60; 65; 65; 65; 65; 62; 0; 3; 38; 129; 6; 12; 161; 133; 82; 97; 105; 110;
  46; 119; 98; 109; 112; 0; 192; 34; 60; 82; 97; 105; 110; 46; 119; 98; 109; 112; 62; 0;
  142; 82; 97; 105; 110; 46; 119; 98; 109; 112; 0; 0; 0; 128; 32; 128; 32; 255; 240; 63;
  255; 255; 199; 143; 255; 255; 159; 231; 255; 255; 63; 244; 63; 241; 127; 241; 143; 196;
  127; 247; 231; 159; 63; 239; 243; 63; 255; 255; 251; 127; 255; 255; 251; 127; 255; 255;
  243; 127; 255; 255; 247; 127; 255; 255; 231; 63; 255; 255; 207; 143; 255; 135; 31; 227;
  128; 24; 127; 252; 63; 255; 255; 255; 255; 255; 255; 254; 238; 238; 255; 254; 102; 102;
  127; 254; 102; 102; 127; 255; 255; 255; 255; 255; 187; 187; 191; 255; 153; 153; 159; 255;
  153; 153; 159; 255; 255; 255; 255; 255; 238; 238; 239; 255; 230; 102; 103; 255; 230; 102;
  103; 255; 255; 255; 255; 255; 251; 187; 187; 255; 249; 153; 153; 255; 249; 153; 153; 34;
  19; 12; 131; 133; 109; 109; 115; 46; 116; 120; 116; 0; 129; 234; 192; 34; 60; 109; 109;
  115; 46; 116; 120; 116; 62; 0; 142; 109; 109; 115; 46; 116; 120; 116; 0; 74; 111; 110;
  97; 116; 97; 110; 32; 195; 164; 114; 32; 101; 110; 32; 103; 110; 117; 46; 39; 130; 123;
  29; 97; 112; 112; 108; 105; 99; 97; 116; 105; 111; 110; 47; 115; 109; 105; 108; 0; 133;
  109; 109; 115; 46; 115; 109; 105; 108; 0; 129; 234; 192; 34; 60; 65; 65; 65; 65; 62; 0;
  60; 115; 109; 105; 108; 62; 60; 104; 101; 97; 100; 62; 60; 108; 97; 121; 111; 117; 116;
  62; 60; 114; 111; 111; 116; 45; 108; 97; 121; 111; 117; 116; 32; 104; 101; 105; 103; 104;
  116; 61; 34; 50; 52; 48; 112; 120; 34; 32; 119; 105; 100; 116; 104; 61; 34; 49; 54; 48;
  112; 120; 34; 47; 62; 13; 10; 60; 114; 101; 103; 105; 111; 110; 32; 105; 100; 61; 34; 73;
  109; 97; 103; 101; 34; 32; 116; 111; 112; 61; 34; 48; 34; 32; 108; 101; 102; 116; 61; 34;
  48; 34; 32; 104; 101; 105; 103; 104; 116; 61; 34; 53; 48; 37; 34; 32; 119; 105; 100; 116;
  104; 61; 34; 49; 48; 48; 37; 34; 32; 102; 105; 116; 61; 34; 104; 105; 100; 100; 101; 110;
  34; 47; 62; 13; 10; 60; 114; 101; 103; 105; 111; 110; 32; 105; 100; 61; 34; 84; 101; 120;
  116; 34; 32; 116; 111; 112; 61; 34; 53; 48; 37; 34; 32; 108; 101; 102; 116; 61; 34; 48;
  34; 32; 104; 101; 105; 103; 104; 116; 61; 34; 53; 48; 37; 34; 32; 119; 105; 100; 116;
  104; 61; 34; 49; 48; 48; 37; 34; 32; 102; 105; 116; 61; 34; 104; 105; 100; 100; 101; 110;
  34; 47; 62; 13; 10; 60; 47; 108; 97; 121; 111; 117; 116; 62; 13; 10; 60; 47; 104; 101;
  97; 100; 62; 13; 10; 60; 98; 111; 100; 121; 62; 60; 112; 97; 114; 32; 100; 117; 114; 61;
  34; 50; 48; 48; 48; 109; 115; 34; 62; 60; 105; 109; 103; 32; 115; 114; 99; 61; 34; 82;
  97; 105; 110; 46; 119; 98; 109; 112; 34; 32; 114; 101; 103; 105; 111; 110; 61; 34; 73;
  109; 97; 103; 101; 34; 62; 60; 47; 105; 109; 103; 62; 13; 10; 60; 116; 101; 120; 116; 32;
  115; 114; 99; 61; 34; 109; 109; 115; 46; 116; 120; 116; 34; 32; 114; 101; 103; 105; 111;
  110; 61; 34; 84; 101; 120; 116; 34; 62; 60; 47; 116; 101; 120; 116; 62; 13; 10; 60; 47;
  112; 97; 114; 62; 13; 10; 60; 47; 98; 111; 100; 121; 62; 13; 10; 60; 47; 115; 109; 105;
  108; 62; 13; 10].
Example mms_4_headers : match decode_data mms_4 with
  | Ok m => has_headers m
    [(str "Sender-Visibility", HStr (str "Show"));
     (str "From", HStr (str "<not inserted>"));
     (str "Read-Reply", HBool false);
     (str "Message-Class", HStr (str "Personal"));
     (str "Transaction-Id", HStr (str "3-31cb"));
     (str "MMS-Version", HStr (str "1.0"));
     (str "Priority", HStr (str "Normal"));
     (str "To", HStr (str "123/TYPE=PLMN"));
     (str "Delivery-Report", HBool false);
     (str "Message-Type", HStr (str "m-send-req"));
     (str "Date", HDate 1085321698);
     (str "Content-Type", HType (str "application/vnd.wap.multipart.related") [(str "Type", PStr (str "application/smil")); (str "Start", PStr (str "<AAAA>"))]);
     (str "Subject", HStr [65; 110; 103; 195; 165; 101; 110; 100; 101; 32; 97; 114; 116;
  45; 116; 105; 108; 108; 104; 195; 182; 114; 105; 103; 104; 101; 116])]
    /\ content_type m = Ok (str "application/vnd.wap.multipart.related")
  | Err _ => False end.
Proof. vm_compute. repeat split. Qed.
Example mms_4_count : match decode_data mms_4 with
  | Ok m => length (m_parts m) = 3%nat | Err _ => False end.
Proof. vm_compute. reflexivity. Qed.
Example mms_4_part_1 : match decode_data mms_4 with
  | Ok m => match nth_error (m_parts m) 0 with
            | Some p => part_content_type p = Some (str "image/vnd.wap.wbmp")
              /\ length (dp_params p) = 1%nat
              /\ d_get leqb (str "Name") (dp_params p) = Some (PStr (str "Rain.wbmp"))
            | None => False end
  | Err _ => False end.
Proof. vm_compute. repeat split. Qed.
Example mms_4_part_2 : match decode_data mms_4 with
  | Ok m => match nth_error (m_parts m) 1 with
            | Some p => part_content_type p = Some (str "text/plain")
              /\ length (dp_params p) = 2%nat
              /\ d_get leqb (str "Charset") (dp_params p) = Some (PStr (str "utf-8"))
              /\ d_get leqb (str "Name") (dp_params p) = Some (PStr (str "mms.txt"))
              /\ dp_data p = Some [74; 111; 110; 97; 116; 97; 110; 32; 195; 164; 114; 32;
  101; 110; 32; 103; 110; 117; 46]
            | None => False end
  | Err _ => False end.
Proof. vm_compute. repeat split. Qed.
Example mms_4_part_3 : match decode_data mms_4 with
  | Ok m => match nth_error (m_parts m) 2 with
            | Some p => part_content_type p = Some (str "application/smil")
              /\ length (dp_params p) = 2%nat
              /\ d_get leqb (str "Charset") (dp_params p) = Some (PStr (str "utf-8"))
              /\ d_get leqb (str "Name") (dp_params p) = Some (PStr (str "mms.smil"))
              /\ dp_data p = Some [60; 115; 109; 105; 108; 62; 60; 104; 101; 97; 100; 62;
  60; 108; 97; 121; 111; 117; 116; 62; 60; 114; 111; 111; 116; 45; 108; 97; 121; 111; 117;
  116; 32; 104; 101; 105; 103; 104; 116; 61; 34; 50; 52; 48; 112; 120; 34; 32; 119; 105;
  100; 116; 104; 61; 34; 49; 54; 48; 112; 120; 34; 47; 62; 13; 10; 60; 114; 101; 103; 105;
  111; 110; 32; 105; 100; 61; 34; 73; 109; 97; 103; 101; 34; 32; 116; 111; 112; 61; 34; 48;
  34; 32; 108; 101; 102; 116; 61; 34; 48; 34; 32; 104; 101; 105; 103; 104; 116; 61; 34; 53;
  48; 37; 34; 32; 119; 105; 100; 116; 104; 61; 34; 49; 48; 48; 37; 34; 32; 102; 105; 116;
  61; 34; 104; 105; 100; 100; 101; 110; 34; 47; 62; 13; 10; 60; 114; 101; 103; 105; 111;
  110; 32; 105; 100; 61; 34; 84; 101; 120; 116; 34; 32; 116; 111; 112; 61; 34; 53; 48; 37;
  34; 32; 108; 101; 102; 116; 61; 34; 48; 34; 32; 104; 101; 105; 103; 104; 116; 61; 34; 53;
  48; 37; 34; 32; 119; 105; 100; 116; 104; 61; 34; 49; 48; 48; 37; 34; 32; 102; 105; 116;
  61; 34; 104; 105; 100; 100; 101; 110; 34; 47; 62; 13; 10; 60; 47; 108; 97; 121; 111; 117;
  116; 62; 13; 10; 60; 47; 104; 101; 97; 100; 62; 13; 10; 60; 98; 111; 100; 121; 62; 60;
  112; 97; 114; 32; 100; 117; 114; 61; 34; 50; 48; 48; 48; 109; 115; 34; 62; 60; 105; 109;
  103; 32; 115; 114; 99; 61; 34; 82; 97; 105; 110; 46; 119; 98; 109; 112; 34; 32; 114; 101;
  103; 105; 111; 110; 61; 34; 73; 109; 97; 103; 101; 34; 62; 60; 47; 105; 109; 103; 62; 13;
  10; 60; 116; 101; 120; 116; 32; 115; 114; 99; 61; 34; 109; 109; 115; 46; 116; 120; 116;
  34; 32; 114; 101; 103; 105; 111; 110; 61; 34; 84; 101; 120; 116; 34; 62; 60; 47; 116;
  101; 120; 116; 62; 13; 10; 60; 47; 112; 97; 114; 62; 13; 10; 60; 47; 98; 111; 100; 121;
  62; 13; 10; 60; 47; 115; 109; 105; 108; 62; 13; 10]
            | None => False end
  | Err _ => False end.
Proof. vm_compute. repeat split. Qed.
(** projekt_exempel.mms. *)
Definition mms_5 : list Z :=
  [140; 128; 152; 52; 45; 102; 99; 54; 48; 0; 141; 144; 133; 4; 64; 176; 191; 164; 137; 1;
  129; 151; 49; 50; 51; 52; 53; 47; 84; 89; 80; 69; 61; 80; 76; 77; 78; 0; 150; 72; 101;
  106; 0; 138; 128; 143; 129; 148; 129; 134; 129; 144; 129; 132; 27; 179; 137; 97; 112;
  112; 108; 105; 99; 97; 116; 105; 111; 110; 47; 115; 109; 105; 108; 0; 138; 60; 65; 65;
  65; 65; 62; 0; 3; 34; 18; 12; 131; 133; 109; 109; 115; 46; 116; 120; 116; 0; 129; 234;
  192; 34; 60; 109; 109; 115; 46; 116; 120; 116; 62; 0; 142; 109; 109; 115; 46; 116; 120;
  116; 0; 74; 111; 110; 97; 116; 97; 110; 32; 195; 164; 114; 32; 101; 110; 32; 71; 78; 85;
  44; 142; 99; 14; 157; 133; 83; 111; 110; 121; 104; 69; 114; 46; 103; 105; 102; 0; 192;
  34; 60; 83; 111; 110; 121; 104; 69; 114; 46; 103; 105; 102; 62; 0; 142; 83; 111; 110;
  121; 104; 69; 114; 46; 103; 105; 102; 0; 71; 73; 70; 56; 57; 97; 101; 0; 80; 0; 247; 0;
  0; 255; 73; 85; 219; 73; 85; 183; 73; 85; 146; 73; 85; 255; 37; 85; 255; 146; 170; 219;
  37; 85; 110; 73; 85; 255; 0; 85; 183; 37; 85; 219; 146; 170; 219; 0; 85; 255; 110; 170;
  146; 37; 85; 183; 0; 85; 255; 73; 170; 219; 110; 170; 146; 0; 85; 255; 37; 170; 183; 146;
  170; 255; 0; 170; 219; 73; 170; 110; 37; 85; 219; 37; 170; 110; 0; 85; 219; 0; 170; 183;
  110; 170; 183; 73; 170; 183; 37; 170; 183; 0; 170; 255; 0; 255; 255; 37; 255; 255; 73;
  255; 255; 110; 255; 255; 146; 255; 255; 183; 255; 255; 219; 255; 219; 0; 255; 146; 0;
  170; 73; 0; 85; 219; 37; 255; 146; 37; 170; 219; 73; 255; 146; 73; 170; 219; 110; 255;
  73; 37; 85; 183; 0; 255; 183; 37; 255; 219; 146; 255; 110; 0; 170; 183; 73; 255; 146;
  110; 170; 146; 0; 255; 110; 37; 170; 183; 110; 255; 146; 37; 255; 219; 183; 255; 110; 0;
  255; 37; 0; 85; 73; 0; 170; 146; 73; 255; 110; 73; 170; 183; 146; 255; 110; 37; 255; 73;
  0; 255; 73; 37; 170; 146; 110; 255; 37; 0; 170; 110; 73; 255; 73; 37; 255; 37; 0; 255; 0;
  0; 255; 0; 0; 170; 0; 0; 85; 37; 37; 255; 37; 37; 170; 73; 73; 255; 73; 73; 170; 110;
  110; 255; 37; 37; 85; 146; 146; 255; 110; 110; 170; 183; 183; 255; 219; 219; 255; 146;
  146; 170; 73; 73; 85; 0; 37; 255; 37; 73; 255; 0; 37; 170; 73; 110; 255; 110; 146; 255;
  37; 73; 170; 0; 73; 255; 37; 110; 255; 146; 183; 255; 73; 110; 170; 73; 146; 255; 0; 110;
  255; 0; 73; 170; 0; 37; 85; 37; 146; 255; 110; 183; 255; 183; 219; 255; 37; 110; 170; 0;
  146; 255; 110; 146; 170; 73; 183; 255; 0; 110; 170; 37; 183; 255; 146; 219; 255; 0; 183;
  255; 73; 146; 170; 110; 219; 255; 37; 73; 85; 73; 219; 255; 37; 219; 255; 37; 146; 170;
  0; 219; 255; 0; 146; 170; 0; 73; 85; 0; 255; 255; 37; 255; 255; 73; 255; 255; 110; 255;
  255; 146; 255; 255; 183; 255; 255; 219; 255; 255; 0; 183; 170; 37; 183; 170; 73; 183;
  170; 110; 183; 170; 0; 219; 170; 0; 110; 85; 37; 219; 170; 0; 255; 170; 73; 219; 170; 37;
  110; 85; 146; 183; 170; 37; 255; 170; 0; 146; 85; 73; 255; 170; 110; 219; 170; 0; 183;
  85; 37; 146; 85; 110; 255; 170; 0; 219; 85; 0; 255; 85; 37; 183; 85; 73; 110; 85; 146;
  219; 170; 37; 219; 85; 37; 255; 85; 146; 255; 170; 73; 146; 85; 73; 183; 85; 73; 255; 85;
  73; 219; 85; 0; 255; 0; 0; 219; 0; 0; 183; 0; 0; 146; 0; 0; 110; 0; 0; 73; 0; 0; 37; 0;
  37; 255; 0; 110; 255; 85; 37; 219; 0; 183; 255; 170; 110; 219; 85; 37; 183; 0; 37; 146;
  0; 110; 183; 85; 183; 219; 170; 73; 255; 0; 73; 219; 0; 37; 110; 0; 146; 255; 85; 73;
  183; 0; 110; 146; 85; 110; 255; 0; 146; 219; 85; 110; 219; 0; 73; 146; 0; 37; 73; 0; 146;
  255; 0; 183; 255; 85; 219; 255; 170; 110; 183; 0; 146; 183; 85; 73; 110; 0; 146; 219; 0;
  183; 255; 0; 183; 219; 85; 110; 146; 0; 146; 183; 0; 219; 255; 85; 183; 219; 0; 219; 255;
  0; 255; 255; 0; 219; 219; 0; 183; 183; 0; 146; 146; 0; 110; 110; 0; 73; 73; 0; 37; 37; 0;
  255; 255; 85; 219; 219; 85; 183; 183; 85; 146; 146; 85; 255; 255; 170; 110; 110; 85; 219;
  219; 170; 183; 183; 170; 255; 219; 0; 219; 183; 0; 183; 146; 0; 255; 219; 85; 146; 110;
  0; 219; 183; 85; 255; 183; 0; 219; 146; 0; 110; 73; 0; 183; 146; 85; 183; 110; 0; 255;
  146; 0; 255; 183; 85; 255; 219; 170; 219; 110; 0; 146; 73; 0; 73; 37; 0; 219; 146; 85;
  255; 110; 0; 183; 73; 0; 146; 110; 85; 255; 146; 85; 219; 73; 0; 110; 37; 0; 255; 73; 0;
  219; 183; 170; 146; 37; 0; 183; 110; 85; 183; 37; 0; 219; 37; 0; 219; 110; 85; 255; 37;
  0; 255; 110; 85; 255; 183; 170; 255; 0; 0; 219; 0; 0; 183; 0; 0; 146; 0; 0; 110; 0; 0;
  73; 0; 0; 37; 0; 0; 255; 255; 255; 0; 0; 0; 44; 0; 0; 0; 0; 101; 0; 80; 0; 0; 8; 255; 0;
  253; 9; 28; 72; 176; 160; 193; 131; 8; 19; 42; 92; 200; 176; 161; 195; 135; 16; 35; 74;
  156; 72; 177; 162; 197; 139; 24; 51; 106; 220; 200; 177; 163; 199; 143; 32; 67; 138; 28;
  73; 178; 164; 201; 147; 40; 83; 170; 92; 201; 178; 165; 203; 151; 48; 99; 202; 156; 73;
  179; 166; 205; 155; 56; 115; 234; 220; 201; 179; 167; 207; 159; 52; 167; 248; 19; 42;
  212; 15; 80; 141; 83; 166; 37; 77; 234; 103; 74; 180; 41; 77; 253; 145; 56; 58; 113; 74;
  210; 105; 36; 132; 74; 149; 26; 213; 143; 56; 63; 89; 169; 62; 156; 66; 77; 233; 20; 86;
  137; 100; 61; 66; 148; 137; 149; 84; 93; 83; 253; 68; 3; 107; 84; 108; 66; 178; 101; 211;
  34; 18; 197; 183; 175; 40; 89; 2; 161; 134; 197; 170; 213; 110; 65; 188; 212; 210; 32;
  146; 69; 201; 47; 223; 81; 162; 10; 251; 163; 235; 85; 178; 225; 105; 84; 168; 37; 138;
  51; 138; 202; 80; 81; 163; 66; 139; 30; 229; 150; 4; 216; 201; 92; 149; 26; 14; 156; 153;
  10; 104; 81; 148; 208; 34; 138; 131; 232; 209; 218; 80; 136; 166; 14; 4; 251; 149; 168;
  229; 163; 153; 101; 65; 190; 181; 247; 21; 171; 41; 154; 52; 77; 154; 244; 104; 81; 165;
  221; 92; 193; 62; 157; 230; 143; 186; 88; 106; 84; 100; 141; 17; 133; 232; 213; 171; 76;
  141; 88; 157; 255; 66; 213; 72; 249; 36; 77; 69; 5; 202; 157; 106; 117; 168; 213; 223;
  60; 167; 64; 163; 18; 135; 248; 43; 68; 141; 96; 85; 66; 69; 139; 85; 249; 243; 133; 77;
  101; 90; 117; 70; 97; 165; 75; 82; 84; 81; 65; 69; 99; 136; 168; 242; 8; 42; 167; 176;
  162; 203; 41; 149; 236; 167; 73; 32; 211; 24; 69; 23; 106; 3; 90; 213; 212; 82; 64; 177;
  34; 13; 21; 183; 60; 226; 224; 42; 149; 72; 232; 199; 52; 227; 145; 87; 154; 80; 186;
  112; 101; 26; 9; 6; 210; 184; 20; 124; 56; 81; 19; 133; 52; 182; 101; 162; 9; 45; 152;
  156; 98; 84; 132; 251; 177; 146; 149; 92; 83; 12; 88; 157; 86; 239; 173; 72; 150; 117;
  61; 205; 39; 139; 42; 153; 76; 66; 94; 127; 167; 176; 72; 75; 138; 67; 193; 197; 36; 53;
  153; 32; 114; 11; 37; 137; 144; 0; 151; 82; 74; 81; 227; 211; 20; 210; 68; 33; 139; 114;
  23; 162; 194; 95; 133; 21; 18; 6; 22; 81; 171; 60; 18; 10; 104; 162; 81; 98; 86; 154;
  212; 224; 88; 19; 53; 109; 82; 225; 227; 121; 228; 53; 66; 75; 127; 239; 25; 232; 15; 43;
  122; 238; 249; 88; 104; 176; 161; 73; 205; 165; 130; 210; 68; 133; 52; 210; 64; 147; 70;
  114; 201; 173; 130; 74; 138; 211; 160; 249; 161; 32; 205; 17; 66; 72; 40; 119; 240; 9;
  217; 95; 100; 225; 255; 5; 165; 78; 155; 182; 57; 31; 21; 105; 8; 146; 200; 165; 82; 80;
  99; 134; 82; 36; 176; 162; 9; 40; 139; 128; 18; 138; 164; 148; 66; 118; 199; 43; 129; 94;
  122; 105; 79; 105; 72; 147; 137; 44; 81; 80; 113; 235; 4; 206; 82; 227; 14; 14; 211; 8;
  50; 201; 34; 197; 170; 42; 74; 171; 162; 129; 230; 93; 26; 206; 102; 214; 83; 58; 85;
  100; 50; 237; 12; 10; 82; 145; 8; 182; 212; 72; 129; 150; 38; 139; 52; 7; 202; 170; 146;
  242; 9; 218; 29; 136; 16; 146; 73; 186; 106; 242; 180; 105; 149; 143; 76; 107; 237; 4;
  137; 200; 187; 74; 38; 142; 228; 75; 44; 33; 251; 142; 235; 234; 107; 222; 81; 114; 169;
  188; 5; 239; 68; 69; 21; 148; 168; 50; 9; 177; 182; 149; 220; 156; 196; 224; 26; 123; 7;
  178; 201; 130; 214; 163; 188; 19; 168; 107; 48; 200; 142; 16; 27; 74; 177; 224; 230; 76;
  108; 184; 161; 172; 218; 87; 178; 163; 180; 106; 226; 192; 241; 206; 154; 19; 43; 32;
  235; 187; 42; 197; 160; 16; 107; 51; 191; 132; 252; 60; 154; 197; 136; 104; 242; 136; 44;
  241; 66; 147; 41; 77; 210; 84; 129; 136; 211; 61; 171; 218; 243; 216; 61; 247; 117; 71;
  185; 144; 189; 250; 200; 36; 153; 40; 56; 95; 26; 186; 241; 52; 3; 200; 197; 234; 41;
  202; 158; 252; 150; 109; 177; 191; 201; 182; 255; 42; 10; 156; 183; 74; 211; 49; 79; 212;
  44; 83; 133; 137; 204; 57; 230; 183; 212; 83; 111; 199; 215; 121; 154; 96; 141; 181; 52;
  91; 7; 69; 73; 21; 135; 79; 146; 202; 35; 142; 189; 54; 245; 171; 175; 222; 241; 8; 156;
  84; 68; 145; 206; 136; 71; 81; 19; 7; 200; 144; 63; 50; 218; 235; 124; 183; 186; 221; 43;
  203; 69; 46; 77; 26; 59; 14; 238; 147; 52; 183; 180; 203; 137; 168; 153; 188; 14; 180;
  231; 124; 45; 178; 220; 36; 212; 206; 192; 169; 103; 84; 77; 129; 121; 187; 114; 210;
  130; 74; 38; 23; 83; 186; 93; 171; 20; 155; 152; 48; 167; 220; 87; 158; 99; 28; 229; 180;
  75; 11; 44; 167; 156; 66; 75; 152; 183; 180; 234; 247; 177; 56; 131; 194; 118; 155; 156;
  106; 188; 26; 125; 85; 180; 64; 73; 138; 229; 159; 2; 139; 244; 160; 50; 247; 136; 211;
  143; 224; 158; 52; 46; 39; 133; 213; 8; 132; 10; 204; 88; 93; 21; 100; 193; 10; 22; 157;
  2; 19; 210; 227; 68; 114; 54; 231; 32; 74; 28; 32; 10; 85; 232; 90; 21; 152; 103; 64;
  127; 80; 163; 10; 204; 120; 94; 167; 18; 193; 11; 57; 173; 66; 19; 153; 120; 4; 37; 46;
  215; 181; 203; 97; 78; 119; 6; 156; 70; 20; 226; 16; 194; 56; 40; 16; 100; 46; 124; 158;
  14; 51; 232; 61; 170; 124; 176; 126; 85; 80; 96; 11; 72; 118; 168; 67; 249; 117; 48; 33;
  126; 160; 198; 229; 202; 65; 195; 250; 180; 224; 22; 113; 88; 198; 234; 140; 120; 68;
  134; 144; 69; 65; 233; 216; 209; 136; 50; 99; 180; 42; 122; 241; 139; 96; 12; 163; 24;
  199; 72; 198; 50; 154; 241; 140; 104; 76; 163; 26; 215; 200; 198; 54; 186; 241; 141; 112;
  140; 163; 28; 231; 72; 199; 131; 4; 4; 0; 59; 39; 130; 125; 29; 97; 112; 112; 108; 105;
  99; 97; 116; 105; 111; 110; 47; 115; 109; 105; 108; 0; 133; 109; 109; 115; 46; 115; 109;
  105; 108; 0; 129; 234; 192; 34; 60; 65; 65; 65; 65; 62; 0; 60; 115; 109; 105; 108; 62;
  60; 104; 101; 97; 100; 62; 60; 108; 97; 121; 111; 117; 116; 62; 60; 114; 111; 111; 116;
  45; 108; 97; 121; 111; 117; 116; 32; 104; 101; 105; 103; 104; 116; 61; 34; 50; 52; 48;
  112; 120; 34; 32; 119; 105; 100; 116; 104; 61; 34; 49; 54; 48; 112; 120; 34; 47; 62; 13;
  10; 60; 114; 101; 103; 105; 111; 110; 32; 105; 100; 61; 34; 73; 109; 97; 103; 101; 34;
  32; 116; 111; 112; 61; 34; 48; 34; 32; 108; 101; 102; 116; 61; 34; 48; 34; 32; 104; 101;
  105; 103; 104; 116; 61; 34; 53; 48; 37; 34; 32; 119; 105; 100; 116; 104; 61; 34; 49; 48;
  48; 37; 34; 32; 102; 105; 116; 61; 34; 104; 105; 100; 100; 101; 110; 34; 47; 62; 13; 10;
  60; 114; 101; 103; 105; 111; 110; 32; 105; 100; 61; 34; 84; 101; 120; 116; 34; 32; 116;
  111; 112; 61; 34; 53; 48; 37; 34; 32; 108; 101; 102; 116; 61; 34; 48; 34; 32; 104; 101;
  105; 103; 104; 116; 61; 34; 53; 48; 37; 34; 32; 119; 105; 100; 116; 104; 61; 34; 49; 48;
  48; 37; 34; 32; 102; 105; 116; 61; 34; 104; 105; 100; 100; 101; 110; 34; 47; 62; 13; 10;
  60; 47; 108; 97; 121; 111; 117; 116; 62; 13; 10; 60; 47; 104; 101; 97; 100; 62; 13; 10;
  60; 98; 111; 100; 121; 62; 60; 112; 97; 114; 32; 100; 117; 114; 61; 34; 50; 48; 48; 48;
  109; 115; 34; 62; 60; 116; 101; 120; 116; 32; 115; 114; 99; 61; 34; 109; 109; 115; 46;
  116; 120; 116; 34; 32; 114; 101; 103; 105; 111; 110; 61; 34; 84; 101; 120; 116; 34; 62;
  60; 47; 116; 101; 120; 116; 62; 13; 10; 60; 105; 109; 103; 32; 115; 114; 99; 61; 34; 83;
  111; 110; 121; 104; 69; 114; 46; 103; 105; 102; 34; 32; 114; 101; 103; 105; 111; 110; 61;
  34; 73; 109; 97; 103; 101; 34; 62; 60; 47; 105; 109; 103; 62; 13; 10; 60; 47; 112; 97;
  114; 62; 13; 10; 60; 47; 98; 111; 100; 121; 62; 13; 10; 60; 47; 115; 109; 105; 108; 62;
  13; 10].
Example mms_5_headers : match decode_data mms_5 with
  | Ok m => has_headers m
    [(str "Sender-Visibility", HStr (str "Show"));
     (str "From", HStr (str "<not inserted>"));
     (str "Read-Reply", HBool false);
     (str "Message-Class", HStr (str "Personal"));
     (str "Transaction-Id", HStr (str "4-fc60"));
     (str "MMS-Version", HStr (str "1.0"));
     (str "Priority", HStr (str "Normal"));
     (str "To", HStr (str "12345/TYPE=PLMN"));
     (str "Delivery-Report", HBool false);
     (str "Message-Type", HStr (str "m-send-req"));
     (str "Date", HDate 1085325220);
     (str "Content-Type", HType (str "application/vnd.wap.multipart.related") [(str "Type", PStr (str "application/smil")); (str "Start", PStr (str "<AAAA>"))]);
     (str "Subject", HStr (str "Hej"))]
    /\ content_type m = Ok (str "application/vnd.wap.multipart.related")
  | Err _ => False end.
Proof. vm_compute. repeat split. Qed.
Example mms_5_count : match decode_data mms_5 with
  | Ok m => length (m_parts m) = 3%nat | Err _ => False end.
Proof. vm_compute. reflexivity. Qed.
Example mms_5_part_1 : match decode_data mms_5 with
  | Ok m => match nth_error (m_parts m) 0 with
            | Some p => part_content_type p = Some (str "text/plain")
              /\ dp_data p = Some [74; 111; 110; 97; 116; 97; 110; 32; 195; 164; 114; 32;
  101; 110; 32; 71; 78; 85]
            | None => False end
  | Err _ => False end.
Proof. vm_compute. repeat split. Qed.
Example mms_5_part_2 : match decode_data mms_5 with
  | Ok m => match nth_error (m_parts m) 1 with
            | Some p => part_content_type p = Some (str "image/gif")
            | None => False end
  | Err _ => False end.
Proof. vm_compute. repeat split. Qed.
Example mms_5_part_3 : match decode_data mms_5 with
  | Ok m => match nth_error (m_parts m) 2 with
            | Some p => part_content_type p = Some (str "application/smil")
              /\ length (dp_params p) = 2%nat
              /\ d_get leqb (str "Charset") (dp_params p) = Some (PStr (str "utf-8"))
              /\ d_get leqb (str "Name") (dp_params p) = Some (PStr (str "mms.smil"))
              /\ dp_data p = Some [60; 115; 109; 105; 108; 62; 60; 104; 101; 97; 100; 62;
  60; 108; 97; 121; 111; 117; 116; 62; 60; 114; 111; 111; 116; 45; 108; 97; 121; 111; 117;
  116; 32; 104; 101; 105; 103; 104; 116; 61; 34; 50; 52; 48; 112; 120; 34; 32; 119; 105;
  100; 116; 104; 61; 34; 49; 54; 48; 112; 120; 34; 47; 62; 13; 10; 60; 114; 101; 103; 105;
  111; 110; 32; 105; 100; 61; 34; 73; 109; 97; 103; 101; 34; 32; 116; 111; 112; 61; 34; 48;
  34; 32; 108; 101; 102; 116; 61; 34; 48; 34; 32; 104; 101; 105; 103; 104; 116; 61; 34; 53;
  48; 37; 34; 32; 119; 105; 100; 116; 104; 61; 34; 49; 48; 48; 37; 34; 32; 102; 105; 116;
  61; 34; 104; 105; 100; 100; 101; 110; 34; 47; 62; 13; 10; 60; 114; 101; 103; 105; 111;
  110; 32; 105; 100; 61; 34; 84; 101; 120; 116; 34; 32; 116; 111; 112; 61; 34; 53; 48; 37;
  34; 32; 108; 101; 102; 116; 61; 34; 48; 34; 32; 104; 101; 105; 103; 104; 116; 61; 34; 53;
  48; 37; 34; 32; 119; 105; 100; 116; 104; 61; 34; 49; 48; 48; 37; 34; 32; 102; 105; 116;
  61; 34; 104; 105; 100; 100; 101; 110; 34; 47; 62; 13; 10; 60; 47; 108; 97; 121; 111; 117;
  116; 62; 13; 10; 60; 47; 104; 101; 97; 100; 62; 13; 10; 60; 98; 111; 100; 121; 62; 60;
  112; 97; 114; 32; 100; 117; 114; 61; 34; 50; 48; 48; 48; 109; 115; 34; 62; 60; 116; 101;
  120; 116; 32; 115; 114; 99; 61; 34; 109; 109; 115; 46; 116; 120; 116; 34; 32; 114; 101;
  103; 105; 111; 110; 61; 34; 84; 101; 120; 116; 34; 62; 60; 47; 116; 101; 120; 116; 62;
  13; 10; 60; 105; 109; 103; 32; 115; 114; 99; 61; 34; 83; 111; 110; 121; 104; 69; 114; 46;
  103; 105; 102; 34; 32; 114; 101; 103; 105; 111; 110; 61; 34; 73; 109; 97; 103; 101; 34;
  62; 60; 47; 105; 109; 103; 62; 13; 10; 60; 47; 112; 97; 114; 62; 13; 10; 60; 47; 98; 111;
  100; 121; 62; 13; 10; 60; 47; 115; 109; 105; 108; 62; 13; 10]
            | None => False end
  | Err _ => False end.
Proof. vm_compute. repeat split. Qed.

(** test_mms.py 367-380.  The rendering of the presentation is not modelled; any of
    128 to 255 octets gives the expected start. *)
Example mms_notifyresp :
  let w := World (fun _ => None) (fun _ => None) (fun l => l) in
  let m := with_headers
    [(str "Message-Type", HStr (str "m-notifyresp-ind"));
     (str "Transaction-Id", HStr (str "NOK5AIdhfTMYSG4JeIgAAsHtp72AGAAAAAAAA"));
     (str "MMS-Version", HStr (str "1.0")); (str "Status", HStr (str "Retrieved"));
     (str "Content-Type", HType (str "application/vnd.wap.multipart.mixed") [])] new_message in
  match fst (encode (fun _ => repeat 32 200) w 1234 m) with
  | Ok b => firstn 50 b = [140; 131; 152; 78; 79; 75; 53; 65; 73; 100; 104; 102; 84; 77; 89; 83; 71; 52; 74; 101; 73;
  103; 65; 65; 115; 72; 116; 112; 55; 50; 65; 71; 65; 65; 65; 65; 65; 65; 65; 65; 0; 141;
  144; 149; 129; 132; 163; 1; 35; 129]
  | Err _ => False end.
Proof. vm_compute. reflexivity. Qed.
