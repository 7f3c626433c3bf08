(** C18, C19, C21 and C29-C39: what [SmsDeliver] makes of a PDU.  The layout of
    the PDUs is in SpecDeliver.v. *)
From Coq Require Import Lia ZifyBool.
From Verif Require Import Py PyFacts SpecGsm SpecPack SpecAddress SpecTime SpecSubmit SpecDeliver DeliverClaims SpecCut
  Utils Gsm GsmFacts Submit SubmitClaims SubmitFacts ToPduFacts Udh UdhFacts Deliver DeliverFacts
  DeliverCutFacts PropSubmit.
Open Scope Z_scope.

(** * C30: decoding *)

(** C30: every well-formed SMS-DELIVER, in upper or lower case, decodes to exactly
    its fields; the date is in UTC.  The sender is a number or a name
    (DeliverClaims.v: a name of 7 modulo 8 septets is shown with a commercial at
    appended, C32).  The header seen on the object is spelled out in C33. *)
Theorem C30_deliver : forall pdu o strict smsc sc fo snd oa pid dcs coding ts t oz hdr text udl ud,
  reads_hex pdu o -> smsc_field smsc sc -> message_type fo = 0 ->
  shown_as snd oa -> common_scheme dcs -> alphabet dcs = Some coding -> stamp ts t ->
  udhi fo = match hdr with Some _ => true | None => false end ->
  deliver_ud hdr coding text udl ud ->
  o = deliver_octets sc fo oa pid dcs ts oz udl ud ->
  exists d, new_deliver pdu strict = Ok d /\
    d_csca d = smsc_text smsc /\ d_number d = Some snd /\ d_pid d = Some pid /\
    d_dcs d = Some dcs /\ d_fmt d = Some coding /\ d_text d = Some text /\
    d_date d = Some (t - 900 * zone_quarters oz) /\ d_mtype d = Some fo /\
    d_type d = None /\ d_sr d = None /\ d_pdu d = Some pdu /\
    match hdr, d_udh d with
    | None, None => True
    | Some els, Some u => concat_view u = concatenation els /\
        ports_view u = port_addresses els /\
        forall i, d_get Z.eqb i (h_headers u) = element_data i els
    | _, _ => False
    end.
Proof.
  intros pdu o strict smsc sc fo snd oa pid dcs coding ts t oz hdr text udl ud
    Hx Hsc Hmt Hs Hcs Ha Hts Hhd Hud Eo.
  destruct (deliver_sender _ pdu o strict smsc sc fo snd oa pid dcs coding ts t oz hdr text
    udl ud [] eq_refl Hx) as (d & Ed & D); try assumption; try discriminate.
  - now right.
  - now rewrite app_nil_r.
  - exists d. unfold decoded in D. tauto.
Qed.
Print Assumptions C30_deliver.
(** "How are you?", from the project's tests. *)
Example C30_case : match new_deliver (str "07911326040000F0040B911346610089F60000208062917314080CC8F71D14969741F977FD07") true with
  | Ok d => d_text d = Some (str "How are you?") /\ d_csca d = Some (str "+31624000000") /\
            d_number d = Some (str "+31641600986") /\ d_date d = Some (civil_seconds 2002 8 26 19 37 41)
  | Err _ => False end.
Proof. vm_compute. repeat split. Qed.

(** From a named sender: the address is that of FONIC in the project's tests. *)
Example C30_case_name : shown_as (str "FONIC") [0x09; 0xd0; 0xc6; 0xa7; 0x33; 0x39; 0x04].
Proof.
  right. exists (str "FONIC"), (str "FONIC").
  assert (gsm_text (str "FONIC") (str "FONIC")) as G
    by (apply (proj1 (gsm_encode_text (PyStr true (str "FONIC")) _)); vm_compute; reflexivity).
  split; [|split; [exact G|split; [vm_compute; discriminate|reflexivity]]].
  apply (sender_name 0xd0). split; [reflexivity|].
  exists (str "FONIC"), [0xc6; 0xa7; 0x33; 0x39; 0x04].
  split; [exact G|]. split; [|reflexivity].
  split; [repeat constructor; lia|]. split; reflexivity.
Qed.
(** A concrete PDU meeting the hypotheses of C30: sender 12345, 7-bit "hi". *)
Definition case_octets (fo dcs udl : Z) (ud : list Z) : list Z :=
  deliver_octets [0] fo [5; 0x81; 0x21; 0x43; 0xf5] 0 dcs [0x01; 0x20; 0x81; 0x11; 0x13; 0x45] 0x80 udl ud.
Lemma case_delivers coding fo dcs udl ud : message_type fo = 0 ->
  common_scheme dcs -> alphabet dcs = Some coding ->
  delivers coding (udhi fo) udl ud (case_octets fo dcs udl ud).
Proof.
  intros Hm Hc Ha.
  exists None, [0], fo, false, (number_text 0x81 [1; 2; 3; 4; 5]), [5; 0x81; 0x21; 0x43; 0xf5], 0, dcs,
    [0x01; 0x20; 0x81; 0x11; 0x13; 0x45], (civil_seconds 2010 2 18 11 31 54), 0x80.
  split; [reflexivity|]. split; [exact Hm|]. split; [reflexivity|].
  split.
  { apply sender_number; [vm_compute; discriminate|].
    exists [0x21; 0x43; 0xf5]. split; [|reflexivity].
    apply (semi_two 1 2 [3; 4; 5] [0x43; 0xf5]); [lia|lia|].
    apply (semi_two 3 4 [5] [0xf5]); [lia|lia|]. apply (semi_one 5). lia. }
  split; [discriminate|].
  split; [exact Hc|]. split; [exact Ha|]. split; [|reflexivity].
  exists 0x01, 0x20, 0x81, 0x11, 0x13, 0x45. split; [reflexivity|].
  split; [repeat constructor; vm_compute; discriminate|].
  split; [|reflexivity]. vm_compute. repeat split; discriminate.
Qed.
Example C30_case_hypotheses : delivers 0 false 2 [0xe8; 0x34] (case_octets 4 0 2 [0xe8; 0x34]) /\
  deliver_ud None 0 (str "hi") 2 [0xe8; 0x34].
Proof.
  split; [apply (case_delivers 0 4); [reflexivity|left|reflexivity]|].
  - cbn. repeat split; lia.
  - apply dud_plain. apply (ud_gsm (str "hi") (str "hi")); [|vm_compute; discriminate|].
    + apply (proj1 (gsm_encode_text (PyStr true (str "hi")) _)). vm_compute. reflexivity.
    + split; [repeat constructor; lia|]. split; reflexivity.
Qed.

(** * C31: dates *)

(** C31: whatever the rest of the PDU, the date is the local time stamp minus the
    signed offset, a quarter of an hour being 900 seconds. *)
Theorem C31_utc : forall pdu o strict d smsc sc fo snd oa pid dcs coding ts t oz hdr text udl ud,
  reads_hex pdu o -> smsc_field smsc sc -> message_type fo = 0 ->
  shown_as snd oa -> common_scheme dcs -> alphabet dcs = Some coding -> stamp ts t ->
  udhi fo = match hdr with Some _ => true | None => false end ->
  deliver_ud hdr coding text udl ud ->
  o = deliver_octets sc fo oa pid dcs ts oz udl ud ->
  new_deliver pdu strict = Ok d -> d_date d = Some (t - 900 * zone_quarters oz).
Proof.
  intros pdu o strict d smsc sc fo snd oa pid dcs coding ts t oz hdr text udl ud
    H1 H2 H3 H4 H5 H6 H7 H8 H9 H10 H.
  destruct (C30_deliver pdu o strict smsc sc fo snd oa pid dcs coding ts t oz hdr text udl ud
    H1 H2 H3 H4 H5 H6 H7 H8 H9 H10) as (d' & E & D).
  assert (d' = d) by congruence. subst. tauto.
Qed.
Print Assumptions C31_utc.
(** An offset of -3 hours, from the project's tests. *)
Example C31_case : match new_deliver (str "0791553001000001040491578800000190115101112979CF340B342F9FEBE536E83D0791C3E4F71C440E83E6F53068FE66A7C7697A781C7EBB4050F99BFE1EBFD96F1D48068BC16030182E66ABD560B41988FC06D1D3F03768FA66A7C7697A781C7E83CCEF34282C2ECBE96F50B90D8AC55EB0DC4B068BC140B1994E16D3D1622E") true with
  | Ok d => d_date d = Some (civil_seconds 2010 9 11 15 10 11 + 3 * 3600) | Err _ => False end.
Proof. vm_compute. reflexivity. Qed.

(** * C18, C19, C21: from SmsSubmit to SmsDeliver *)

(** C18: the parts of a 7-bit message, delivered in any SMS-DELIVER with the same
    user data, come back as texts that make up the message, with the common
    reference, the number of parts and their position. *)
Theorem C18_gsm_multipart : forall s pdus s',
  reachable s -> validity_ok (s_validity s) -> coding_of s = 0 ->
  to_pdu s = (Ok pdus, s') -> zlen pdus <> 1 ->
  exists texts ref, concat texts = chars (s_text s) /\ length texts = length pdus /\
    forall k p text, nth_error pdus k = Some p -> nth_error texts k = Some text ->
      exists udl ud, carries s 0 (message_ref s) true udl ud p /\
        forall pdu o strict, delivers 0 true udl ud o -> reads_hex pdu o ->
          exists d, new_deliver pdu strict = Ok d /\ d_text d = Some text /\
            concat_data d = Some (ref, zlen pdus, 1 + Z.of_nat k).
Proof.
  intros s pdus s' H Hv Hc E Hne.
  destruct (several_pdus s pdus s' (reachable_wf _ H) Hv ltac:(lia) E Hne)
    as (parts & Hl & Hp & _ & Hr). rewrite Hc in *.
  destruct Hp as (texts & Ht & Ec). destruct (Hr ltac:(lia)) as (Hn & ref & Href & Hk).
  exists texts, ref. split; [exact Ec|].
  assert (length texts = length parts) as Hlt by (clear - Ht; induction Ht; cbn; congruence).
  split; [congruence|]. intros k p text Hp Htx.
  assert (exists m, nth_error parts k = Some m /\ gsm_text text m) as (m & Hm & Hg).
  { clear - Ht Htx. revert k Htx. induction Ht; intros [|k] Hk; cbn in *; try discriminate.
    - injection Hk as ->. eauto.
    - eauto. }
  destruct (Hk k p m Hp Hm) as (udl & ud & C & P). exists udl, ud. split; [exact C|].
  intros pdu o strict D X.
  assert (k < length pdus)%nat as Hlk by (apply nth_error_Some; congruence).
  assert (octet (zlen pdus) /\ octet (1 + Z.of_nat k)) as [O1 O2]
    by (unfold octet; unfold zlen in *; lia).
  pose proof (part_deliver_ud _ _ _ _ _ text _ _ P Href O1 O2 Hg) as U.
  destruct (deliver_view _ (Some [(0, [ref; zlen pdus; 1 + Z.of_nat k])]) _ _ _ _ _ strict D U X) as (d & Ed & Et & Hh).
  exists d. split; [exact Ed|]. split; [exact Et|]. now apply concat_data_view.
Qed.
Print Assumptions C18_gsm_multipart.
Example C18_case : exists p q s',
  to_pdu (sample (PyStr true (repeat 97 152 ++ [8364] ++ repeat 98 20))) = (Ok [p; q], s').
Proof. exact C17_case. Qed.

(** C19: the same for UCS-2. *)
Theorem C19_ucs2_multipart : forall s pdus s',
  reachable s -> validity_ok (s_validity s) -> coding_of s = 8 ->
  to_pdu s = (Ok pdus, s') -> zlen pdus <> 1 ->
  exists texts ref, concat texts = chars (s_text s) /\ length texts = length pdus /\
    forall k p text, nth_error pdus k = Some p -> nth_error texts k = Some text ->
      exists udl ud, carries s 8 (message_ref s) true udl ud p /\
        forall pdu o strict, delivers 8 true udl ud o -> reads_hex pdu o ->
          exists d, new_deliver pdu strict = Ok d /\ d_text d = Some text /\
            concat_data d = Some (ref, zlen pdus, 1 + Z.of_nat k).
Proof.
  intros s pdus s' H Hv Hc E Hne.
  destruct (several_pdus s pdus s' (reachable_wf _ H) Hv ltac:(lia) E Hne)
    as (parts & Hl & Hp & _ & Hr). rewrite Hc in *.
  cbn in Hp. destruct (Hr ltac:(lia)) as (Hn & ref & Href & Hk).
  exists parts, ref. split; [exact Hp|]. split; [exact Hl|]. intros k p text Hpk Htx.
  destruct (Hk k p text Hpk Htx) as (udl & ud & C & P). exists udl, ud. split; [exact C|].
  intros pdu o strict D X.
  assert (k < length pdus)%nat as Hlk by (apply nth_error_Some; congruence).
  assert (octet (zlen pdus) /\ octet (1 + Z.of_nat k)) as [O1 O2]
    by (unfold octet; unfold zlen in *; lia).
  pose proof (part_deliver_ud _ _ _ _ _ text _ _ P Href O1 O2 eq_refl) as U.
  destruct (deliver_view _ (Some [(0, [ref; zlen pdus; 1 + Z.of_nat k])]) _ _ _ _ _ strict D U X) as (d & Ed & Et & Hh).
  exists d. split; [exact Ed|]. split; [exact Et|]. now apply concat_data_view.
Qed.
Print Assumptions C19_ucs2_multipart.
Example C19_case : exists p q r s',
  to_pdu (sample (PyStr true (repeat 20013 140))) = (Ok [p; q; r], s').
Proof. do 4 eexists. vm_compute. reflexivity. Qed.

(** C21: a message sent in one PDU comes back as its text, in every coding. *)
Theorem C21_single : forall s p s',
  reachable s -> validity_ok (s_validity s) ->
  (coding_of s = 4 -> Forall octet (chars (s_text s))) ->
  to_pdu s = (Ok [p], s') ->
  exists udl ud, carries s (coding_of s) (message_ref s) false udl ud p /\
    forall pdu o strict, delivers (coding_of s) false udl ud o -> reads_hex pdu o ->
      exists d, new_deliver pdu strict = Ok d /\ d_text d = Some (chars (s_text s)) /\
        d_udh d = None.
Proof.
  intros s p s' H Hv H4 E.
  destruct (one_pdu s p s' (reachable_wf _ H) Hv H4 E) as (udl & ud & C & U).
  exists udl, ud. split; [exact C|]. intros pdu o strict D X.
  destruct (deliver_view _ None _ _ _ _ _ strict D (dud_plain _ _ _ _ U) X) as (d & Ed & Et & Hh).
  exists d. split; [exact Ed|]. split; [exact Et|]. destruct (d_udh d); [contradiction|reflexivity].
Qed.
Print Assumptions C21_single.
Example C21_case : exists p s', to_pdu (sample (PyStr true (str "hola"))) = (Ok [p], s').
Proof. exact C26_case. Qed.

(** * C29: odd lengths *)

Theorem C29_strict : forall pdu, zlen pdu mod 2 = 1 -> new_deliver pdu true = Err ValueError.
Proof. exact set_pdu_odd_strict. Qed.
Print Assumptions C29_strict.

Theorem C29_not_strict : forall p c, zlen (p ++ [c]) mod 2 = 1 ->
  new_deliver (p ++ [c]) false = new_deliver p false.
Proof.
  intros p c H. unfold new_deliver. now rewrite (set_pdu_odd_lax p c H (deliver0 false) eq_refl).
Qed.
Print Assumptions C29_not_strict.
Example C29_case : match new_deliver (str "07911326040000F0040B911346610089F60000208062917314080CC8F71D14969741F977FD070") false with
  | Ok d => d_text d = Some (str "How are you?") | Err _ => False end.
Proof. vm_compute. reflexivity. Qed.

(** * C32: alphanumeric senders *)

(** C32, as far as it is true: a name comes back exactly unless its number of
    septets is 7 modulo 8 (the bound is far above the 11 of TS 23.040). *)
Theorem C32_names_partial : forall pdu o strict smsc sc fo name oa pid dcs coding ts t oz hdr text udl ud,
  reads_hex pdu o -> smsc_field smsc sc -> message_type fo = 0 ->
  sender_field true name oa ->
  (forall g, gsm_text name g -> zlen g <= 150 /\ zlen g mod 8 <> 7) ->
  common_scheme dcs -> alphabet dcs = Some coding -> stamp ts t ->
  udhi fo = match hdr with Some _ => true | None => false end ->
  deliver_ud hdr coding text udl ud ->
  o = deliver_octets sc fo oa pid dcs ts oz udl ud ->
  exists d, new_deliver pdu strict = Ok d /\ d_number d = Some name /\ d_text d = Some text.
Proof.
  intros pdu o strict smsc sc fo name oa pid dcs coding ts t oz hdr text udl ud
    Hx Hsc Hmt Hs Hnm Hcs Ha Hts Hhd Hud Eo.
  assert (shown_as name oa) as Hsn.
  { inversion Hs as [|ty x f (Ht & g & os & Hg & Hp & Ef)]; subst x f.
    right. exists name, g. destruct (Hnm g Hg) as [H1 H2]. unfold zlen in *.
    split; [exact Hs|]. split; [exact Hg|]. split; [exact H1|].
    destruct (Z.of_nat (length g) mod 8 =? 7) eqn:E; [lia|]. now rewrite app_nil_r. }
  destruct (C30_deliver pdu o strict smsc sc fo name oa pid dcs coding ts t oz hdr text udl ud
    Hx Hsc Hmt Hsn Hcs Ha Hts Hhd Hud Eo) as (d & Ed & D).
  exists d. tauto.
Qed.
Print Assumptions C32_names_partial.
Example C32_case : match new_deliver (str "07919471060040340409D0C6A733390400009060920173018002E834") true with
  | Ok d => d_number d = Some (str "FONIC") | Err _ => False end.
Proof. vm_compute. reflexivity. Qed.

(** C32 fails for a name of seven septets: a commercial at is appended. *)
Theorem C32_seven_refuted : exists name oa o d,
  sender_field true name oa /\ zlen name = 7 /\
  o = deliver_octets [0] 4 oa 0 0 [0x01; 0x20; 0x81; 0x11; 0x13; 0x45] 0 2 [0xe8; 0x34] /\
  new_deliver (hex_of o) true = Ok d /\ d_number d = Some (name ++ str "@").
Proof.
  exists (str "Telekom"), [13; 0xd0; 0xd4; 0x32; 0xbb; 0xbc; 0x7e; 0xb7; 0x01].
  do 2 eexists. split; [|split; [reflexivity|split; [reflexivity|split; [vm_compute; reflexivity|
    vm_compute; reflexivity]]]].
  apply (sender_name 0xd0). split; [reflexivity|].
  exists (str "Telekom"), [0xd4; 0x32; 0xbb; 0xbc; 0x7e; 0xb7; 0x01].
  split; [|split; [|reflexivity]].
  - apply (proj1 (gsm_encode_text (PyStr true (str "Telekom")) _)). vm_compute. reflexivity.
  - split; [repeat constructor; lia|]. split; reflexivity.
Qed.
Print Assumptions C32_seven_refuted.

(** C32, exactly: to every name of 7 modulo 8 septets a commercial at is appended,
    and to no other.  Seven fill bits are read as one more septet. *)
Theorem C32_exact : forall pdu o strict smsc sc fo name g oa pid dcs coding ts t oz hdr text udl ud,
  reads_hex pdu o -> smsc_field smsc sc -> message_type fo = 0 ->
  sender_field true name oa -> gsm_text name g -> zlen g <= 150 ->
  common_scheme dcs -> alphabet dcs = Some coding -> stamp ts t ->
  udhi fo = match hdr with Some _ => true | None => false end ->
  deliver_ud hdr coding text udl ud ->
  o = deliver_octets sc fo oa pid dcs ts oz udl ud ->
  exists d, new_deliver pdu strict = Ok d /\ d_text d = Some text /\
    d_number d = Some (name ++ if zlen g mod 8 =? 7 then str "@" else []).
Proof.
  intros pdu o strict smsc sc fo name g oa pid dcs coding ts t oz hdr text udl ud
    Hx Hsc Hmt Hs Hg Hl Hcs Ha Hts Hhd Hud Eo.
  assert (shown_as (name ++ if zlen g mod 8 =? 7 then str "@" else []) oa) as Hsn.
  { right. exists name, g. unfold zlen in *. repeat split; assumption. }
  destruct (C30_deliver pdu o strict smsc sc fo _ oa pid dcs coding ts t oz hdr text udl ud
    Hx Hsc Hmt Hsn Hcs Ha Hts Hhd Hud Eo) as (d & Ed & D).
  exists d. tauto.
Qed.
Print Assumptions C32_exact.

(** * C33, C34: user data headers *)

(** C33: every serialised list of elements parses; each element is recorded (the
    last one of each identifier), and the concatenation and port attributes are
    those of the last such element. *)
Theorem C33_elements : forall els, Forall element_ok els ->
  exists u, from_bytes (serial els) = Ok u /\
    concat_view u = concatenation els /\ ports_view u = port_addresses els /\
    forall i, d_get Z.eqb i (h_headers u) = element_data i els.
Proof. exact from_bytes_serial. Qed.
Print Assumptions C33_elements.
(** A 16-bit reference, an unknown element and 16-bit ports. *)
Example C33_case : match from_bytes (serial [(8, [159; 142; 2; 1]); (0x24, [1]); (5, [11; 132; 35; 240])]) with
  | Ok u => concat_view u = Some (40846, 2, 1) /\ ports_view u = Some (2948, 9200)
  | Err _ => False end.
Proof. vm_compute. auto. Qed.
Example C33_case_hypotheses : Forall element_ok [(8, [159; 142; 2; 1]); (0x24, [1]); (5, [11; 132; 35; 240])].
Proof. repeat constructor; unfold octet; cbn; lia. Qed.

(** C34: on every string of octets the parser stops with a header or with
    IndexError or ValueError; in particular the loop never runs out of fuel. *)
Theorem C34_total : forall data,
  (exists u, from_bytes data = Ok u) \/ from_bytes data = Err IndexError \/
  from_bytes data = Err ValueError.
Proof.
  intros data. destruct (from_bytes data) as [u|e] eqn:E; [eauto|].
  apply from_bytes_errors in E as [-> | ->]; auto.
Qed.
Print Assumptions C34_total.
Example C34_case_index : from_bytes [8] = Err IndexError.
Proof. reflexivity. Qed.
Example C34_case_value : from_bytes [0; 3; 1; 2] = Err ValueError.
Proof. reflexivity. Qed.

(** * C35: status reports *)

Theorem C35_status_report : forall pdu o strict smsc sc fo mr ty ds ra ts1 oz1 t1 ts2 oz2 t2 st more,
  reads_hex pdu o -> smsc_field smsc sc -> message_type fo = 2 ->
  numeric_field ty ds ra -> stamp ts1 t1 -> stamp ts2 t2 ->
  o = report_octets sc fo mr ra ts1 oz1 ts2 oz2 st more ->
  exists d, new_deliver pdu strict = Ok d /\
    concat_data d = Some (mr, 0, 0) /\ d_csca d = smsc_text smsc /\
    d_sr d = Some (SReport (number_text ty ds) (Some t1) (Some t2) (Some st)) /\
    d_date d = Some t1 /\
    d_number d = Some (if st =? 0 then str "SR-OK" else if st =? 0x30 then str "SR-STORED"
                       else str "SR-UNKNOWN") /\
    d_text d = Some (number_text ty ds ++ str "|" ++ stamp_text ts1 ++ str "|" ++
                     (if st =? 0 then stamp_text ts2 else [])).
Proof.
  intros pdu o strict smsc sc fo mr ty ds ra ts1 oz1 t1 ts2 oz2 t2 st more
    Hx Hsc Hmt (os & Hos & ->) Hs1 Hs2 Eo.
  rewrite (set_pdu_report strict pdu o smsc sc fo mr ty ds os ts1 oz1 t1 ts2 oz2 t2 st more)
    by assumption.
  eexists. split; [reflexivity|]. repeat split.
Qed.
Print Assumptions C35_status_report.
Example C35_case : match new_deliver (str "07914306073011F006270B913426565711F7012081111345400120811174054043") true with
  | Ok d => d_text d = Some (str "+43626575117|10/02/18 11:31:54|") /\
            d_csca d = Some (str "+34607003110") /\ d_number d = Some (str "SR-UNKNOWN") /\
            d_date d = Some (civil_seconds 2010 2 18 11 31 54)
  | Err _ => False end.
Proof. vm_compute. repeat split. Qed.

(** * C36: failures *)

Theorem C36_failures : forall pdu strict,
  (exists d, new_deliver pdu strict = Ok d) \/
  new_deliver pdu strict = Err ValueError \/ new_deliver pdu strict = Err IndexError \/
  new_deliver pdu strict = Err OverflowError.
Proof.
  intros pdu strict. destruct (new_deliver pdu strict) as [d|e] eqn:E; [eauto|].
  apply new_deliver_failure in E as [-> | [-> | ->]]; auto.
Qed.
Print Assumptions C36_failures.
Example C36_case_value : new_deliver (str "zz") true = Err ValueError.
Proof. reflexivity. Qed.
Example C36_case_index : new_deliver (str "0004") true = Err IndexError.
Proof. reflexivity. Qed.
Example C36_case_overflow : new_deliver (str "-1") true = Err OverflowError.
Proof. reflexivity. Qed.

(** * C37: assigning the pdu attribute *)

(** C37, as far as it is true: whatever the object was before, assigning a
    well-formed SMS-DELIVER sets these attributes to the ones of that PDU, and
    the header too when the PDU has one.  Missing: [udh] when the PDU has no
    header, [type] and [sr]. *)
Theorem C37_assign_partial : forall st pdu o smsc sc fo snd oa pid dcs coding ts t oz hdr text udl ud,
  reads_hex pdu o -> smsc_field smsc sc -> message_type fo = 0 ->
  shown_as snd oa -> common_scheme dcs -> alphabet dcs = Some coding -> stamp ts t ->
  udhi fo = match hdr with Some _ => true | None => false end ->
  deliver_ud hdr coding text udl ud ->
  o = deliver_octets sc fo oa pid dcs ts oz udl ud ->
  exists d d0, new_deliver pdu (d_strict st) = Ok d0 /\ set_pdu pdu st = (Ok tt, d) /\
    d_pdu d = d_pdu d0 /\ d_csca d = d_csca d0 /\ d_number d = d_number d0 /\
    d_text d = d_text d0 /\ d_fmt d = d_fmt d0 /\ d_dcs d = d_dcs d0 /\ d_pid d = d_pid d0 /\
    d_date d = d_date d0 /\ d_mtype d = d_mtype d0 /\
    (hdr <> None -> d_udh d = d_udh d0).
Proof.
  intros st pdu o smsc sc fo snd oa pid dcs coding ts t oz hdr text udl ud
    Hx Hsc Hmt Hsf Hcs Ha Hts Hhd Hud Eo.
  assert (octet dcs) as Od.
  { pose proof (reads_hex_octets _ _ Hx) as Ho. rewrite Eo in Ho. unfold deliver_octets in Ho.
    rewrite !Forall_app in Ho. destruct Ho as (_ & _ & _ & Ho & _).
    exact (Forall_inv (Forall_inv_tail Ho)). }
  pose proof (fmt_scheme dcs Od Hcs) as Hf. rewrite Ha in Hf. injection Hf as ->.
  destruct (sender_parts _ _ Hsf) as (n & ty & os & -> & Hn & Hs).
  assert (o = deliver_octets sc fo (n :: ty :: os) pid dcs ts oz udl (ud ++ [])) as Eo'
    by (rewrite app_nil_r; exact Eo).
  destruct (set_pdu_deliver pdu o smsc sc fo n ty os snd pid dcs ts oz t hdr text udl ud []
    Hx Eo' Hsc (or_introl Hmt) Hn Hs Hts Hud (or_intror eq_refl) Hhd) as (u & Hu & E).
  unfold new_deliver. do 2 eexists. split; [rewrite E; reflexivity|].
  split; [apply E|]. cbn. repeat split.
  intros Hne. destruct hdr as [els|]; [|congruence]. destruct u; [reflexivity|contradiction].
Qed.
Print Assumptions C37_assign_partial.

(** C37 fails: after a message with a header, assigning one without leaves the
    old header (and so the old concatenation data); after a status report the
    old [type] and [sr] remain. *)
Theorem C37_stale_refuted :
  (exists p1 p2 d1 d2 d, new_deliver p1 true = Ok d1 /\ new_deliver p2 true = Ok d2 /\
     set_pdu p2 d1 = (Ok tt, d) /\ concat_data d2 = None /\ concat_data d <> None) /\
  (exists p1 p2 d1 d2 d, new_deliver p1 true = Ok d1 /\ new_deliver p2 true = Ok d2 /\
     set_pdu p2 d1 = (Ok tt, d) /\ d_type d2 = None /\ d_type d = Some 3 /\
     d_sr d2 = None /\ d_sr d <> None).
Proof.
  split.
  - exists (hex_of (case_octets 0x44 4 7 [5; 0; 3; 9; 2; 1; 65])), (hex_of (case_octets 4 4 1 [65])).
    do 3 eexists. split; [vm_compute; reflexivity|]. split; [vm_compute; reflexivity|].
    split; [vm_compute; reflexivity|]. split; [reflexivity|]. vm_compute. discriminate.
  - exists (str "07914306073011F006270B913426565711F7012081111345400120811174054043"),
      (hex_of (case_octets 4 4 1 [65])).
    do 3 eexists. split; [vm_compute; reflexivity|]. split; [vm_compute; reflexivity|].
    split; [vm_compute; reflexivity|]. repeat split. vm_compute. discriminate.
Qed.
Print Assumptions C37_stale_refuted.

(** C37, exactly: these are the attributes that remain from before, always. *)
Theorem C37_exact : forall st pdu o smsc sc fo snd oa pid dcs coding ts t oz hdr text udl ud,
  reads_hex pdu o -> smsc_field smsc sc -> message_type fo = 0 ->
  shown_as snd oa -> common_scheme dcs -> alphabet dcs = Some coding -> stamp ts t ->
  udhi fo = match hdr with Some _ => true | None => false end ->
  deliver_ud hdr coding text udl ud ->
  o = deliver_octets sc fo oa pid dcs ts oz udl ud ->
  exists d, set_pdu pdu st = (Ok tt, d) /\ d_type d = d_type st /\ d_sr d = d_sr st /\
    (hdr = None -> d_udh d = d_udh st).
Proof.
  intros st pdu o smsc sc fo snd oa pid dcs coding ts t oz hdr text udl ud
    Hx Hsc Hmt Hsf Hcs Ha Hts Hhd Hud Eo.
  assert (octet dcs) as Od.
  { pose proof (reads_hex_octets _ _ Hx) as Ho. rewrite Eo in Ho. unfold deliver_octets in Ho.
    rewrite !Forall_app in Ho. destruct Ho as (_ & _ & _ & Ho & _).
    exact (Forall_inv (Forall_inv_tail Ho)). }
  pose proof (fmt_scheme dcs Od Hcs) as Hf. rewrite Ha in Hf. injection Hf as ->.
  destruct (sender_parts _ _ Hsf) as (n & ty & os & -> & Hn & Hs).
  assert (o = deliver_octets sc fo (n :: ty :: os) pid dcs ts oz udl (ud ++ [])) as Eo'
    by (rewrite app_nil_r; exact Eo).
  destruct (set_pdu_deliver pdu o smsc sc fo n ty os snd pid dcs ts oz t hdr text udl ud []
    Hx Eo' Hsc (or_introl Hmt) Hn Hs Hts Hud (or_intror eq_refl) Hhd) as (u & Hu & E).
  eexists. split; [apply E|]. cbn. split; [reflexivity|]. split; [reflexivity|].
  intros ->. destruct u; [contradiction|reflexivity].
Qed.
Print Assumptions C37_exact.

(** * C38: octets after the user data *)

(** C38, as far as it is true: in the GSM alphabet octets after the announced
    user data change nothing. *)
Theorem C38_gsm_partial : forall pdu o strict smsc sc fo snd oa pid dcs ts t oz hdr text udl ud more,
  reads_hex pdu o -> smsc_field smsc sc -> message_type fo = 0 ->
  shown_as snd oa -> common_scheme dcs -> alphabet dcs = Some 0 -> stamp ts t ->
  udhi fo = match hdr with Some _ => true | None => false end ->
  deliver_ud hdr 0 text udl ud ->
  o = deliver_octets sc fo oa pid dcs ts oz udl (ud ++ more) ->
  exists d, new_deliver pdu strict = Ok d /\ d_text d = Some text.
Proof.
  intros pdu o strict smsc sc fo snd oa pid dcs ts t oz hdr text udl ud more
    Hx Hsc Hmt Hs Hcs Ha Hts Hhd Hud Eo.
  destruct (deliver_sender _ pdu o strict smsc sc fo snd oa pid dcs 0 ts t oz hdr text
    udl ud more eq_refl Hx) as (d & Ed & D); try assumption; try discriminate; auto.
  exists d. unfold decoded in D. tauto.
Qed.
Print Assumptions C38_gsm_partial.
Example C38_case : match new_deliver (hex_of (case_octets 4 0 2 ([0xe8; 0x34] ++ [1; 2; 3]))) true with
  | Ok d => d_text d = Some (str "hi") | Err _ => False end.
Proof. vm_compute. reflexivity. Qed.

(** C38 fails in the other codings: the extra octets become part of the text, or
    the message is refused. *)
Theorem C38_other_codings_refuted :
  (exists text udl ud more d, deliver_ud None 4 text udl ud /\
     new_deliver (hex_of (case_octets 4 4 udl (ud ++ more))) true = Ok d /\
     d_text d <> Some text) /\
  (exists text udl ud more d, deliver_ud None 8 text udl ud /\
     new_deliver (hex_of (case_octets 4 8 udl (ud ++ more))) true = Ok d /\
     d_text d <> Some text) /\
  (exists text udl ud more, deliver_ud None 8 text udl ud /\
     new_deliver (hex_of (case_octets 4 8 udl (ud ++ more))) true = Err IndexError).
Proof.
  split; [|split].
  - exists [65], 1, [65], [66]. eexists.
    split; [apply dud_plain, (ud_8bit [65]); [repeat constructor; lia|cbn; lia]|].
    split; [vm_compute; reflexivity|]. vm_compute. discriminate.
  - exists [20013], 2, [0x4e; 0x2d], [0; 65]. eexists.
    split; [apply dud_plain, (ud_ucs2 [20013]); [repeat constructor; unfold unit16; lia|cbn; lia]|].
    split; [vm_compute; reflexivity|]. vm_compute. discriminate.
  - exists [20013], 2, [0x4e; 0x2d], [0].
    split; [apply dud_plain, (ud_ucs2 [20013]); [repeat constructor; unfold unit16; lia|cbn; lia]|].
    vm_compute. reflexivity.
Qed.
Print Assumptions C38_other_codings_refuted.

(** C38, exactly: in 8-bit data all octets that follow become part of the text; in
    UCS-2 they do so as characters, and an odd number of them makes the message
    unreadable. *)
Theorem C38_exact : forall pdu o strict smsc sc fo snd oa pid dcs coding ts t oz hdr text udl ud more,
  reads_hex pdu o -> smsc_field smsc sc -> message_type fo = 0 ->
  shown_as snd oa -> common_scheme dcs -> alphabet dcs = Some coding -> coding <> 0 ->
  stamp ts t -> udhi fo = match hdr with Some _ => true | None => false end ->
  deliver_ud hdr coding text udl ud ->
  o = deliver_octets sc fo oa pid dcs ts oz udl (ud ++ more) ->
  (coding = 4 -> exists d, new_deliver pdu strict = Ok d /\ d_text d = Some (text ++ more)) /\
  (coding = 8 -> zlen more mod 2 = 0 -> exists d us, more = be16 us /\
     new_deliver pdu strict = Ok d /\ d_text d = Some (text ++ us)) /\
  (coding = 8 -> zlen more mod 2 = 1 -> new_deliver pdu strict = Err IndexError).
Proof.
  intros pdu o strict smsc sc fo snd oa pid dcs coding ts t oz hdr text udl ud more
    Hx Hsc Hmt Hs Hcs Ha Hc Hts Hhd Hud ->.
  pose proof (reads_hex_octets _ _ Hx) as Ho. unfold deliver_octets in Ho, Hx.
  destruct (sender_parts _ _ Hs) as (n & ty & os & -> & Hn & Es).
  cbn [app] in Ho.
  repeat match goal with
  | H : Forall octet (_ ++ _) |- _ => apply Forall_app in H as [? H]
  | H : Forall octet (_ :: _) |- _ =>
      let A := fresh "O" in pose proof (Forall_inv H) as A; apply Forall_inv_tail in H
  end.
  assert (coding = fmt_of_dcs dcs) as Ec.
  { assert (alphabet dcs = Some (fmt_of_dcs dcs)) by (apply fmt_scheme; assumption). congruence. }
  destruct (process_more fo hdr coding text udl ud more Hud Hc) as (u & _ & E);
    [now rewrite udhi_bit by assumption|].
  destruct (plain_ud _ _ _ _ _ Hud Hc) as [Eud Hu16].
  assert (Forall octet (plain_octets coding text)) as Op
    by (rewrite Eud in *; match goal with H : Forall octet (header_octets _ ++ _) |- _ =>
          now apply Forall_app in H end).
  unfold new_deliver.
  rewrite (set_pdu_process pdu smsc sc fo n ty os snd pid dcs ts oz t (udl :: ud ++ more))
    by assumption.
  rewrite <- Ec, E. unfold finish, plain_octets in *.
  split; [|split].
  - intros ->. cbn [Z.eqb Pos.eqb]. eexists. split; [reflexivity|]. now destruct u.
  - intros -> He. cbn [Z.eqb Pos.eqb] in *.
    destruct (be16_exists more Ho He) as (us & -> & Hus).
    rewrite st_bind_eq. cbn [st_lift]. rewrite <- be16_app, ucs2_chars_be16
      by (apply Forall_app; auto).
    eexists. exists us. split; [reflexivity|]. split; [reflexivity|]. now destruct u.
  - intros -> He. cbn [Z.eqb Pos.eqb] in *. rewrite st_bind_eq. cbn [st_lift].
    rewrite ucs2_odd; [reflexivity|apply Forall_app; auto|].
    rewrite zlen_app. pose proof (be16_length text). lia.
Qed.
Print Assumptions C38_exact.

(** * C39: data coding scheme *)

(** C39, as far as it is true: schemes of the general groups with a defined
    alphabet and of the message class group. *)
Theorem C39_common_partial : forall dcs, octet dcs -> common_scheme dcs ->
  alphabet dcs = Some (fmt_of_dcs dcs).
Proof. exact fmt_scheme. Qed.
Print Assumptions C39_common_partial.
Example C39_case : common_scheme 0xf5 /\ alphabet 0xf5 = Some 4.
Proof. split; [right; lia|reflexivity]. Qed.

(** C39 fails for message waiting indications: 0xe0 announces UCS-2 and is read
    as GSM; 0xc8 announces GSM and is read as UCS-2. *)
Theorem C39_waiting_refuted :
  (exists d, new_deliver (hex_of (case_octets 4 0xe0 2 [0x4e; 0x2d])) true = Ok d /\
     alphabet 0xe0 = Some 8 /\ d_fmt d = Some 0) /\
  (exists d, new_deliver (hex_of (case_octets 4 0xc8 2 [0xe8; 0x34])) true = Ok d /\
     alphabet 0xc8 = Some 0 /\ d_fmt d = Some 8).
Proof.
  split; eexists; (split; [vm_compute; reflexivity|]); split; reflexivity.
Qed.
Print Assumptions C39_waiting_refuted.

(** C39, exactly: whatever the PDU, the coding read from it is the one TS 23.038
    assigns to its scheme for these schemes and no others. *)
Theorem C39_exact : forall pdu strict d dcs,
  new_deliver pdu strict = Ok d -> d_dcs d = Some dcs ->
  (d_fmt d = alphabet dcs <->
   common_scheme dcs \/ (128 <= dcs < 224 /\ (dcs / 4) mod 4 = 0)
   \/ (224 <= dcs < 240 /\ (dcs / 4) mod 4 = 2) \/ 252 <= dcs < 256).
Proof. exact scheme_exact. Qed.
Print Assumptions C39_exact.
Example C39_case_exact : exists d, new_deliver (hex_of (case_octets 4 0xe8 2 [0x4e; 0x2d])) true = Ok d
  /\ d_dcs d = Some 0xe8 /\ d_fmt d = Some 8.
Proof. eexists. split; [vm_compute; reflexivity|]. split; reflexivity. Qed.

(** * C67: dates of status reports *)

(** C67 fails: the offset of a status report is ignored, so its date is not in
    UTC (C35_status_report gives the date for every report: the local time). *)
Theorem C67_report_utc_refuted : exists o ts oz t d,
  stamp ts t /\
  o = report_octets [0] 2 7 [5; 0x81; 0x21; 0x43; 0xf5] ts oz ts oz 0 [] /\
  new_deliver (hex_of o) true = Ok d /\ d_date d <> Some (t - 900 * zone_quarters oz).
Proof.
  exists (report_octets [0] 2 7 [5; 0x81; 0x21; 0x43; 0xf5] [0x01; 0x20; 0x81; 0x11; 0x13; 0x45] 0x40
            [0x01; 0x20; 0x81; 0x11; 0x13; 0x45] 0x40 0 []),
    [0x01; 0x20; 0x81; 0x11; 0x13; 0x45], 0x40, (civil_seconds 2010 2 18 11 31 54).
  eexists. split.
  { exists 0x01, 0x20, 0x81, 0x11, 0x13, 0x45. split; [reflexivity|].
    split; [repeat constructor; vm_compute; discriminate|].
    split; [|reflexivity]. vm_compute. repeat split; discriminate. }
  split; [reflexivity|]. split; [vm_compute; reflexivity|]. vm_compute. discriminate.
Qed.
Print Assumptions C67_report_utc_refuted.

(** C67, exactly: the date of a report is in UTC just when its offset is nought. *)
Theorem C67_exact : forall pdu o strict smsc sc fo mr ty ds ra ts1 oz1 t1 ts2 oz2 t2 st more,
  reads_hex pdu o -> smsc_field smsc sc -> message_type fo = 2 ->
  numeric_field ty ds ra -> stamp ts1 t1 -> stamp ts2 t2 ->
  o = report_octets sc fo mr ra ts1 oz1 ts2 oz2 st more ->
  exists d, new_deliver pdu strict = Ok d /\
    (d_date d = Some (t1 - 900 * zone_quarters oz1) <-> zone_quarters oz1 = 0).
Proof.
  intros pdu o strict smsc sc fo mr ty ds ra ts1 oz1 t1 ts2 oz2 t2 st more H1 H2 H3 H4 H5 H6 H7.
  destruct (C35_status_report pdu o strict smsc sc fo mr ty ds ra ts1 oz1 t1 ts2 oz2 t2 st more
    H1 H2 H3 H4 H5 H6 H7) as (d & E & _ & _ & _ & D & _).
  exists d. split; [exact E|]. rewrite D. split; [|intros ->; f_equal; lia].
  intros X. assert (t1 = t1 - 900 * zone_quarters oz1) by congruence. lia.
Qed.
Print Assumptions C67_exact.
(** A report to 12345 whose offsets are one hour. *)
Example C67_case : let ts := [0x01; 0x20; 0x81; 0x11; 0x13; 0x45] in
  let o := report_octets [0] 2 7 [5; 0x81; 0x21; 0x43; 0xf5] ts 0x40 ts 0x40 0 [] in
  reads_hex (hex_of o) o /\ message_type 2 = 2 /\
  numeric_field 0x81 [1; 2; 3; 4; 5] [5; 0x81; 0x21; 0x43; 0xf5] /\
  stamp ts (civil_seconds 2010 2 18 11 31 54) /\ zone_quarters 0x40 = 4.
Proof.
  cbv zeta. split; [apply reads_hex_of; repeat constructor; vm_compute; congruence|]. split; [reflexivity|].
  split.
  { exists [0x21; 0x43; 0xf5]. split; [|reflexivity].
    apply (semi_two 1 2 [3; 4; 5] [0x43; 0xf5]); [lia|lia|].
    apply (semi_two 3 4 [5] [0xf5]); [lia|lia|]. apply (semi_one 5). lia. }
  split; [|reflexivity].
  exists 0x01, 0x20, 0x81, 0x11, 0x13, 0x45. split; [reflexivity|].
  split; [repeat constructor; vm_compute; discriminate|].
  split; [|reflexivity]. vm_compute. repeat split; discriminate.
Qed.

(** * C68: width of the ports *)

(** C68 fails: the ports of an 8-bit port element are flagged as 16-bit ones; this
    holds for every such element. *)
Theorem C68_port_width_refuted : forall d o, octet d -> octet o ->
  exists u p, from_bytes (serial [(4, [d; o])]) = Ok u /\ h_ports u = Some p /\
    p_dest p = d /\ p_orig p = o /\ p_eight p = false.
Proof. intros d o _ _. do 2 eexists. split; [reflexivity|]. repeat split. Qed.
Print Assumptions C68_port_width_refuted.
