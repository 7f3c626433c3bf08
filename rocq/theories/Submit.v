(** Model of messaging/sms/submit.py, sms/pdu.py and sms/consts.py. *)
From Verif Require Import Py Utils Gsm.
Open Scope Z_scope.

(** consts.py 2-7. *)
Definition SEVENBIT_SIZE : Z := 160.
Definition EIGHTBIT_SIZE : Z := 140.
Definition UCS2_SIZE : Z := 70.
Definition SEVENBIT_MP_SIZE : Z := SEVENBIT_SIZE - 7.
Definition EIGHTBIT_MP_SIZE : Z := EIGHTBIT_SIZE - 6.
Definition UCS2_MP_SIZE : Z := UCS2_SIZE - 3.

(** pdu.py 4-10: [Pdu]. *)
Record pdu := Pdu { p_pdu : list Z; p_length : Z; p_cnt : Z; p_seq : Z }.

(** pdu.py 6-10: the constructor. *)
Definition mk_pdu (s : list Z) (len_smsc cnt seq : Z) : pdu :=
  Pdu (py_upper s) (zlen s / 2 - len_smsc) cnt seq.

(** submit.py 56-63: the values the validity property accepts. *)
Inductive validity := NoValidity | Relative (t : timedelta) | Absolute (d : datetime).

(** submit.py 23-38 and base.py 6-14: the attributes of [SmsSubmit] that any
    method reads.  [request_status] is used as a truth value.  Numbers are the
    codes of their characters. *)
Record submit := Submit {
  s_number : option (list Z);
  s_csca : option (list Z);
  s_klass : option Z;
  s_validity : validity;
  s_request_status : bool;
  s_ref : option Z;
  s_rand_id : option Z;
  s_id_list : list Z;
  s_pid : Z;
  s_text : pystr;
  s_text_gsm : option (list Z);
  s_fmt : option Z;
  s_dcs : option Z }.

(** Attribute assignments ([self.x = v]). *)
Definition with_number v s := Submit v (s_csca s) (s_klass s) (s_validity s)
  (s_request_status s) (s_ref s) (s_rand_id s) (s_id_list s) (s_pid s) (s_text s)
  (s_text_gsm s) (s_fmt s) (s_dcs s).
Definition with_csca v s := Submit (s_number s) v (s_klass s) (s_validity s)
  (s_request_status s) (s_ref s) (s_rand_id s) (s_id_list s) (s_pid s) (s_text s)
  (s_text_gsm s) (s_fmt s) (s_dcs s).
Definition with_klass v s := Submit (s_number s) (s_csca s) v (s_validity s)
  (s_request_status s) (s_ref s) (s_rand_id s) (s_id_list s) (s_pid s) (s_text s)
  (s_text_gsm s) (s_fmt s) (s_dcs s).
Definition with_validity v s := Submit (s_number s) (s_csca s) (s_klass s) v
  (s_request_status s) (s_ref s) (s_rand_id s) (s_id_list s) (s_pid s) (s_text s)
  (s_text_gsm s) (s_fmt s) (s_dcs s).
Definition with_request_status v s := Submit (s_number s) (s_csca s) (s_klass s)
  (s_validity s) v (s_ref s) (s_rand_id s) (s_id_list s) (s_pid s) (s_text s)
  (s_text_gsm s) (s_fmt s) (s_dcs s).
Definition with_ref v s := Submit (s_number s) (s_csca s) (s_klass s)
  (s_validity s) (s_request_status s) v (s_rand_id s) (s_id_list s) (s_pid s)
  (s_text s) (s_text_gsm s) (s_fmt s) (s_dcs s).
Definition with_rand_id v s := Submit (s_number s) (s_csca s) (s_klass s)
  (s_validity s) (s_request_status s) (s_ref s) v (s_id_list s) (s_pid s)
  (s_text s) (s_text_gsm s) (s_fmt s) (s_dcs s).
Definition with_id_list v s := Submit (s_number s) (s_csca s) (s_klass s)
  (s_validity s) (s_request_status s) (s_ref s) (s_rand_id s) v (s_pid s)
  (s_text s) (s_text_gsm s) (s_fmt s) (s_dcs s).
Definition with_pid v s := Submit (s_number s) (s_csca s) (s_klass s)
  (s_validity s) (s_request_status s) (s_ref s) (s_rand_id s) (s_id_list s) v
  (s_text s) (s_text_gsm s) (s_fmt s) (s_dcs s).
Definition with_text v s := Submit (s_number s) (s_csca s) (s_klass s)
  (s_validity s) (s_request_status s) (s_ref s) (s_rand_id s) (s_id_list s)
  (s_pid s) v (s_text_gsm s) (s_fmt s) (s_dcs s).
Definition with_text_gsm v s := Submit (s_number s) (s_csca s) (s_klass s)
  (s_validity s) (s_request_status s) (s_ref s) (s_rand_id s) (s_id_list s)
  (s_pid s) (s_text s) v (s_fmt s) (s_dcs s).
Definition with_fmt v s := Submit (s_number s) (s_csca s) (s_klass s)
  (s_validity s) (s_request_status s) (s_ref s) (s_rand_id s) (s_id_list s)
  (s_pid s) (s_text s) (s_text_gsm s) v (s_dcs s).
Definition with_dcs v s := Submit (s_number s) (s_csca s) (s_klass s)
  (s_validity s) (s_request_status s) (s_ref s) (s_rand_id s) (s_id_list s)
  (s_pid s) (s_text s) (s_text_gsm s) (s_fmt s) v.

Definition is_digit (c : Z) : bool := (48 <=? c) && (c <=? 57).

(** submit.py 17: [VALID_NUMBER.match(s)] for the pattern
    [^\+?\d{3,20}$]; the anchor [$] also matches before a final newline. *)
Definition valid_number (s : list Z) : bool :=
  let s := match s with c :: r => if c =? 43 then r else s | [] => s end in
  let digits := match rev s with
                | c :: r => if c =? 10 then rev r else s
                | [] => s
                end in
  forallb is_digit digits && (3 <=? zlen digits) && (zlen digits <=? 20).

(** submit.py 40-46: [_set_number]; [None] and the empty string pass. *)
Definition set_number (v : option (list Z)) : ST submit unit :=
  match v with
  | None | Some [] => st_upd (with_number v)
  | Some n => if valid_number n then st_upd (with_number v) else st_err ValueError
  end.

(** submit.py 48-54: [_set_csca]. *)
Definition set_csca (v : option (list Z)) : ST submit unit :=
  match v with
  | None | Some [] => st_upd (with_csca v)
  | Some n => if valid_number n then st_upd (with_csca v) else st_err ValueError
  end.

(** submit.py 65-74: [_set_klass] on an int (other types raise TypeError and are
    not represented). *)
Definition set_klass (k : Z) : ST submit unit :=
  if (0 <=? k) && (k <=? 3) then st_upd (with_klass (Some k)) else st_err ValueError.

(** [range(0, 255)] in submit.py 32 and 328. *)
Definition id_range : list Z := map Z.of_nat (seq 0 255).

(** submit.py 23-38: [SmsSubmit(number, text)]. *)
Definition new_submit (number : option (list Z)) (text : pystr) : res submit :=
  let s := Submit None None None NoValidity false None None id_range 0 text None
                  None None in
  match set_number number s with
  | (Ok _, s) => Ok s
  | (Err e, _) => Err e
  end.

(** submit.py 146-148 and 174-176: swap two characters and parse. *)
Definition swapped_octet (p : list Z) : res Z :=
  match p with
  | [a; b] => n <- py_int 16 [b; a] ;; py_chr n
  | _ => Err IndexError
  end.

(** submit.py 132-153: [_get_smsc_pdu]. *)
Definition get_smsc_pdu (s : submit) : res (list Z) :=
  match s_csca s with
  | None | Some [] => Ok (str "00")
  | Some csca =>
      match py_strip csca with
      | [] => Ok (str "00")
      | _ =>
          let number := clean_number csca in
          c <- py_index number 0 ;;
          let '(ptype, number) := if c =? 43 then (145, py_from number 1)
                                  else (129, number) in
          let number := if negb (zlen number mod 2 =? 0) then number ++ [70]
                        else number in
          ps <- mapM swapped_octet (chunks2 number) ;;
          let ps := ptype :: ps in
          pl <- py_chr (zlen ps) ;;
          Ok (encode_str (pl :: ps))
      end
  end.

(** submit.py 326-330: [_get_rand_id]. *)
Definition get_rand_id : ST submit Z :=
  s <~ st_get ;;
  let l := match s_id_list s with [] => id_range | l => l end in
  '(i, l) <~ st_lift (pop0 l) ;;
  _ <~ st_upd (with_id_list l) ;;
  st_ret i.

(** submit.py 155-160: [_get_tpmessref_pdu]. *)
Definition get_tpmessref_pdu : ST submit (list Z) :=
  s <~ st_get ;;
  r <~ (match s_ref s with
        | None => i <~ get_rand_id ;; _ <~ st_upd (with_ref (Some i)) ;; st_ret i
        | Some r => st_ret r
        end) ;;
  let r := Z.land r 255 in
  _ <~ st_upd (with_ref (Some r)) ;;
  c <~ st_lift (py_chr r) ;;
  st_ret (encode_str [c]).

(** submit.py 162-179: [_get_phone_pdu].  [None] has no [strip]. *)
Definition get_phone_pdu (s : submit) : res (list Z) :=
  match s_number s with
  | None => Err AttributeError
  | Some number =>
      let number := clean_number number in
      c <- py_index number 0 ;;
      let '(ptype, number) := if c =? 43 then (145, py_from number 1)
                              else (129, number) in
      let pl := zlen number in
      let number := if negb (zlen number mod 2 =? 0) then number ++ [70]
                    else number in
      ps <- mapM swapped_octet (chunks2 number) ;;
      pl <- py_chr pl ;;
      Ok (encode_str (pl :: ptype :: ps))
  end.

(** submit.py 181-182: [_get_tppid_pdu]. *)
Definition get_tppid_pdu (s : submit) : res (list Z) :=
  c <- py_chr (s_pid s) ;; Ok (encode_str [c]).

(** submit.py 184-202: [_get_sms_submit_pdu]. *)
Definition get_sms_submit_pdu (s : submit) (udh : bool) : res (list Z) :=
  let o := 1 in
  let o := match s_validity s with
           | NoValidity => o
           | Absolute _ => Z.lor o 24
           | Relative _ => Z.lor o 16
           end in
  let o := if s_request_status s then Z.lor o 32 else o in
  let o := if udh then Z.lor o 64 else o in
  c <- py_chr o ;; Ok (encode_str [c]).

(** submit.py 292-298: the splitting loop, with fuel. *)
Fixpoint split_loop (fuel : nat) (text : list Z) (total w pi pe : Z)
  : res (list (list Z)) :=
  if pi <? total then
    match fuel with
    | O => Err OutOfFuel
    | S f =>
        last <- py_index (py_slice text pi pe) (-1) ;;
        let pe := if last =? 27 then pe - 1 else pe in
        rest <- split_loop f text total w pe (pe + w) ;;
        Ok (py_slice text pi pe :: rest)
    end
  else Ok [].

(** submit.py 289-298: the parts of a text, for a part size. *)
Definition split_text (text : list Z) (w : Z) : res (list (list Z)) :=
  split_loop (S (length text)) text (zlen text) w 0 w.

(** submit.py 312-322, 7-bit branch: one part. *)
Definition part_7bit (sms_ref total i : Z) (msg : list Z) : res (list Z) :=
  r <- py_chr sms_ref ;;
  t <- py_chr total ;;
  i <- py_chr i ;;
  pack_8bits_to_7bits ([32] ++ msg) (Some [5; 0; 3; r; t; i]).

(** submit.py 316-322, other branch: one part, [pack] being the packing
    function.  [int("%04x" % n, 16)] is [n]. *)
Definition part_wide (pack : pystr -> option pystr -> res (list Z))
  (sms_ref total i : Z) (msg : pystr) : res (list Z) :=
  a <- py_unichr (Z.lor (Z.shiftl 5 8) 0) ;;
  b <- py_unichr (Z.lor (Z.shiftl 3 8) sms_ref) ;;
  c <- py_unichr (Z.lor (Z.shiftl total 8) i) ;;
  pack msg (Some (PyStr true [a; b; c])).

(** submit.py 309-322: [for i, msg in enumerate(msgs)], counting from [i]. *)
Fixpoint parts_loop {A} (f : Z -> A -> res (list Z)) (i : Z) (msgs : list A)
  : res (list (list Z)) :=
  match msgs with
  | [] => Ok []
  | m :: r => p <- f i m ;; ps <- parts_loop f (i + 1) r ;; Ok (p :: ps)
  end.

(** submit.py 270-324: [_split_sms_message], given the texts already fetched
    from the object ([self.text_gsm] or [self.text]). *)
Definition split_sms_message (fmt : Z) (text : pystr) : ST submit (list (list Z)) :=
  let w := if fmt =? 0 then SEVENBIT_MP_SIZE
           else if fmt =? 4 then EIGHTBIT_MP_SIZE else UCS2_MP_SIZE in
  msgs <~ st_lift (split_text (chars text) w) ;;
  s <~ st_get ;;
  r <~ (match s_rand_id s with None => get_rand_id | Some r => st_ret r end) ;;
  let sms_ref := Z.land r 255 in
  let total := zlen msgs in
  st_lift
    (if fmt =? 0 then parts_loop (part_7bit sms_ref total) 1 msgs
     else
       let pack := if fmt =? 4 then pack_8bits_to_8bit else pack_8bits_to_ucs2 in
       parts_loop (part_wide pack sms_ref total) 1
                  (map (PyStr (is_uni text)) msgs)).

(** submit.py 226-240: the validity octets, in hexadecimal. *)
Definition get_msgvp_pdu (v : validity) : res (list Z) :=
  match v with
  | NoValidity => Ok []
  | Relative t =>
      r <- timedelta_to_relative_validity t ;;
      match r with
      | Some vp => c <- py_chr vp ;; Ok (encode_str [c])
      | None => Err TypeError
      end
  | Absolute d =>
      l <- datetime_to_absolute_validity d ;;
      cs <- mapM py_chr l ;;
      Ok (concat (map (fun c => encode_str [c]) cs))
  end.

(** submit.py 212-222: the data coding scheme for a class.  A class is always
    0..3 because of [_set_klass]. *)
Definition dcs_of (fmt : Z) (klass : option Z) : Z :=
  match klass with
  | None => fmt
  | Some k => if k =? 0 then Z.lor fmt 16
              else if k =? 1 then Z.lor fmt 17
              else if k =? 2 then Z.lor fmt 18
              else if k =? 3 then Z.lor fmt 19 else fmt
  end.

(** submit.py 242-262: UDL and UD of each part. *)
Definition message_ud (fmt : Z) (text : pystr) : ST submit (list (list Z)) :=
  if fmt =? 0 then
    tg <~ st_lift (gsm_encode text) ;;
    _ <~ st_upd (with_text_gsm (Some tg)) ;;
    if zlen tg <=? SEVENBIT_SIZE then
      m <~ st_lift (pack_8bits_to_7bits tg None) ;; st_ret [m]
    else split_sms_message 0 (PyStr false tg)
  else if fmt =? 4 then
    if zlen (chars text) <=? EIGHTBIT_SIZE then
      m <~ st_lift (pack_8bits_to_8bit text None) ;; st_ret [m]
    else split_sms_message 4 text
  else if fmt =? 8 then
    if zlen (chars text) <=? UCS2_SIZE then
      m <~ st_lift (pack_8bits_to_ucs2 text None) ;; st_ret [m]
    else split_sms_message 8 text
  else st_err ValueError.

(** submit.py 204-268: [_get_msg_pdu]. *)
Definition get_msg_pdu : ST submit (list (list Z)) :=
  s <~ st_get ;;
  fmt <~ (match s_fmt s with
          | None =>
              let f := if is_gsm_text (Some (s_text s)) then 0 else 8 in
              _ <~ st_upd (with_fmt (Some f)) ;; st_ret f
          | Some f => st_ret f
          end) ;;
  let dcs := dcs_of fmt (s_klass s) in
  _ <~ st_upd (with_dcs (Some dcs)) ;;
  dcs_c <~ st_lift (py_chr dcs) ;;
  let dcs_pdu := encode_str [dcs_c] in
  msgvp_pdu <~ st_lift (get_msgvp_pdu (s_validity s)) ;;
  message_pdu <~ message_ud fmt (s_text s) ;;
  st_ret (map (fun msg => dcs_pdu ++ msgvp_pdu ++ msg) message_pdu).

(** submit.py 109-128: number the parts. *)
Fixpoint number_pdus (prefix : list Z) (len_smsc cnt seq : Z)
  (msgs : list (list Z)) : list pdu :=
  match msgs with
  | [] => []
  | m :: r => mk_pdu (prefix ++ m) len_smsc cnt seq
              :: number_pdus prefix len_smsc cnt (seq + 1) r
  end.

(** submit.py 76-130: [to_pdu].  The debug calls have no effect. *)
Definition to_pdu : ST submit (list pdu) :=
  s <~ st_get ;;
  smsc_pdu <~ st_lift (get_smsc_pdu s) ;;
  sms_submit_pdu <~ st_lift (get_sms_submit_pdu s false) ;;
  tpmessref_pdu <~ get_tpmessref_pdu ;;
  sms_phone_pdu <~ st_lift (get_phone_pdu s) ;;
  tppid_pdu <~ st_lift (get_tppid_pdu s) ;;
  sms_msg_pdu <~ get_msg_pdu ;;
  let len_smsc := zlen smsc_pdu / 2 in
  match sms_msg_pdu with
  | [m] =>
      st_ret [mk_pdu (smsc_pdu ++ sms_submit_pdu ++ tpmessref_pdu
                      ++ sms_phone_pdu ++ tppid_pdu ++ m) len_smsc 1 1]
  | _ =>
      sms_submit_pdu <~ st_lift (get_sms_submit_pdu s true) ;;
      st_ret (number_pdus (smsc_pdu ++ sms_submit_pdu ++ tpmessref_pdu
                           ++ sms_phone_pdu ++ tppid_pdu) len_smsc
                          (zlen sms_msg_pdu) 1 sms_msg_pdu)
  end.
