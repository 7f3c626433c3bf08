(** C85: what [SmsDeliver] makes of a PDU that is cut short.  What can be left of
    a text is in SpecCut.v, the layout of the PDUs in SpecDeliver.v. *)
From Coq Require Import Lia ZifyBool.
From Verif Require Import Py PyFacts SpecGsm SpecPack SpecAddress SpecTime SpecSubmit SpecDeliver DeliverClaims
  SpecCut Utils Gsm GsmFacts Submit SubmitClaims SubmitFacts ToPduFacts Udh UdhFacts Deliver
  DeliverFacts DeliverCutFacts PropDeliver.
Open Scope Z_scope.

(** C85, as far as it is true: a message cut anywhere up to and including the
    length of its user data is rejected with IndexError, whoever the sender. *)
Theorem C85_no_text_partial : forall pdu p q strict smsc sc fo name snd oa pid dcs ts t oz udl ud,
  reads_hex pdu p -> smsc_field smsc sc -> message_type fo = 0 ->
  sender_field name snd oa -> stamp ts t -> Forall octet q ->
  p ++ q = deliver_octets sc fo oa pid dcs ts oz udl ud ->
  zlen q > zlen ud ->
  new_deliver pdu strict = Err IndexError.
Proof.
  intros pdu p q strict smsc sc fo name snd oa pid dcs ts t oz udl ud Hx Hsc Hmt Hs Hts Oq E Hq.
  apply (cut_rejected pdu p q strict smsc sc fo name snd oa pid dcs ts t oz udl ud);
    try assumption.
  - apply Forall_app. split; [exact (reads_hex_octets _ _ Hx)|exact Oq].
  - unfold zlen in Hq. lia.
Qed.
Print Assumptions C85_no_text_partial.
(** A message of 19 octets of which 13 are left. *)
Example C85_no_text_case : new_deliver (hex_of (firstn 13 (case_octets 4 0 2 [0xe8; 0x34]))) true
    = Err IndexError /\ zlen (case_octets 4 0 2 [0xe8; 0x34]) = 19 /\
  delivers 0 false 2 [0xe8; 0x34] (case_octets 4 0 2 [0xe8; 0x34]).
Proof.
  split; [vm_compute; reflexivity|]. split; [reflexivity|]. exact (proj1 C30_case_hypotheses).
Qed.

(** C85 fails for messages cut in their text: whatever the message, if the header
    of its user data is there and no UCS-2 character is split, the PDU is accepted
    as one with a shorter text.  The announced length is not looked at. *)
Theorem C85_text_refuted : forall pdu p q strict smsc sc fo snd oa pid dcs coding ts t oz hdr text udl ud,
  reads_hex pdu (deliver_octets sc fo oa pid dcs ts oz udl p) ->
  smsc_field smsc sc -> message_type fo = 0 ->
  shown_as snd oa -> common_scheme dcs -> alphabet dcs = Some coding -> stamp ts t ->
  udhi fo = match hdr with Some _ => true | None => false end ->
  deliver_ud hdr coding text udl ud -> Forall octet ud ->
  ud = p ++ q -> q <> [] -> zlen (header_octets hdr) <= zlen p ->
  coding <> 8 \/ (zlen p - zlen (header_octets hdr)) mod 2 = 0 ->
  exists d t', new_deliver pdu strict = Ok d /\
    d_csca d = smsc_text smsc /\ d_number d = Some snd /\ d_fmt d = Some coding /\
    d_date d = Some (t - 900 * zone_quarters oz) /\
    match hdr, d_udh d with
    | None, None => True
    | Some els, Some u => concat_view u = concatenation els /\
        ports_view u = port_addresses els /\
        forall i, d_get Z.eqb i (h_headers u) = element_data i els
    | _, _ => False
    end /\
    d_text d = Some t' /\ kept_text coding (zlen (header_octets hdr)) (zlen p) text t'.
Proof.
  intros pdu p q strict smsc sc fo snd oa pid dcs coding ts t oz hdr text udl ud
    Hx Hsc Hmt Hs Hcs Ha Hts Hhd Hud Oud Eud Hq Hh Hc.
  pose proof (reads_hex_octets _ _ Hx) as Ho. unfold deliver_octets in Ho, Hx.
  destruct (sender_parts _ _ Hs) as (n & ty & os & -> & Hn & Es).
  cbn [app] in Ho.
  repeat match goal with
  | H : Forall octet (_ ++ _) |- _ => apply Forall_app in H as [? H]
  | H : Forall octet (_ :: _) |- _ =>
      let A := fresh "O" in pose proof (Forall_inv H) as A; apply Forall_inv_tail in H
  end.
  assert (coding = fmt_of_dcs dcs) as Ec.
  { assert (alphabet dcs = Some (fmt_of_dcs dcs)) by (apply fmt_scheme; assumption). congruence. }
  destruct (process_cut fo hdr coding text udl ud p q Hud Oud Eud Hq Hh) as (u & t' & Hu & Ht & E);
    [now rewrite udhi_bit by assumption|exact Hc|].
  unfold new_deliver.
  rewrite (set_pdu_process pdu smsc sc fo n ty os snd pid dcs ts oz t (udl :: p)) by assumption.
  rewrite <- Ec, E. exists
    (set_d_text (Some t') match u with Some u => set_d_udh (Some u)
       (Deliver strict (Some pdu) None (Some snd) None (Some coding) (Some dcs) (Some pid)
         (smsc_text smsc) None (Some (t - 900 * zone_quarters oz)) (Some fo) None)
     | None => (Deliver strict (Some pdu) None (Some snd) None (Some coding) (Some dcs) (Some pid)
         (smsc_text smsc) None (Some (t - 900 * zone_quarters oz)) (Some fo) None) end), t'.
  split; [reflexivity|].
  destruct u; (do 4 (split; [reflexivity|])); (split; [exact Hu|]); now split.
Qed.
Print Assumptions C85_text_refuted.
(** Twelve characters of which two octets are left. *)
Example C85_text_case : match new_deliver (str "07911326040000F0040B911346610089F60000208062917314080CC8F7") true with
  | Ok d => d_text d = Some (str "Ho") | Err _ => False end.
Proof. vm_compute. reflexivity. Qed.

(** C85, as far as it is true: a PDU that ends in the middle of a UCS-2 character
    is rejected. *)
Theorem C85_split_partial : forall pdu p q strict smsc sc fo snd oa pid dcs ts t oz hdr text udl ud,
  reads_hex pdu (deliver_octets sc fo oa pid dcs ts oz udl p) ->
  smsc_field smsc sc -> message_type fo = 0 ->
  shown_as snd oa -> common_scheme dcs -> alphabet dcs = Some 8 -> stamp ts t ->
  udhi fo = match hdr with Some _ => true | None => false end ->
  deliver_ud hdr 8 text udl ud -> Forall octet ud -> ud = p ++ q ->
  zlen (header_octets hdr) <= zlen p -> (zlen p - zlen (header_octets hdr)) mod 2 = 1 ->
  new_deliver pdu strict = Err IndexError.
Proof.
  intros pdu p q strict smsc sc fo snd oa pid dcs ts t oz hdr text udl ud
    Hx Hsc Hmt Hs Hcs Ha Hts Hhd Hud Oud Eud Hh Hc.
  pose proof (reads_hex_octets _ _ Hx) as Ho. unfold deliver_octets in Ho, Hx.
  destruct (sender_parts _ _ Hs) as (n & ty & os & -> & Hn & Es).
  cbn [app] in Ho.
  repeat match goal with
  | H : Forall octet (_ ++ _) |- _ => apply Forall_app in H as [? H]
  | H : Forall octet (_ :: _) |- _ =>
      let A := fresh "O" in pose proof (Forall_inv H) as A; apply Forall_inv_tail in H
  end.
  assert (fmt_of_dcs dcs = 8) as Ec.
  { assert (alphabet dcs = Some (fmt_of_dcs dcs)) by (apply fmt_scheme; assumption). congruence. }
  apply new_deliver_err.
  rewrite (set_pdu_process pdu smsc sc fo n ty os snd pid dcs ts oz t (udl :: p)) by assumption.
  rewrite Ec. apply (process_odd fo hdr text udl ud p q); try assumption.
  now rewrite udhi_bit by assumption.
Qed.
Print Assumptions C85_split_partial.
Example C85_split_case : new_deliver (hex_of (case_octets 4 8 4 [0x4e; 0x2d; 0x65])) true = Err IndexError.
Proof. vm_compute. reflexivity. Qed.

(** C85: wherever the user data is cut, also in its header, an accepted PDU never
    shows anything but the beginning of the text; with the GSM alphabet a no-break
    space may stand for a split character.  The other attributes are those of the
    message. *)
Theorem C85_shorter : forall pdu p q strict d smsc sc fo snd oa pid dcs coding ts t oz hdr text udl ud,
  reads_hex pdu (deliver_octets sc fo oa pid dcs ts oz udl p) ->
  smsc_field smsc sc -> message_type fo = 0 ->
  shown_as snd oa -> common_scheme dcs -> alphabet dcs = Some coding -> stamp ts t ->
  udhi fo = match hdr with Some _ => true | None => false end ->
  deliver_ud hdr coding text udl ud -> Forall octet ud -> ud = p ++ q -> q <> [] ->
  new_deliver pdu strict = Ok d ->
  d_csca d = smsc_text smsc /\ d_number d = Some snd /\ d_fmt d = Some coding /\
  d_date d = Some (t - 900 * zone_quarters oz) /\
  exists t', d_text d = Some t' /\
    (starts t' text \/ (coding = 0 /\ exists w, starts w text /\ t' = w ++ [0xA0])).
Proof.
  intros pdu p q strict d smsc sc fo snd oa pid dcs coding ts t oz hdr text udl ud
    Hx Hsc Hmt Hs Hcs Ha Hts Hhd Hud Oud Eud Hq Hd.
  pose proof (reads_hex_octets _ _ Hx) as Ho. unfold deliver_octets in Ho, Hx.
  destruct (sender_parts _ _ Hs) as (n & ty & os & -> & Hn & Es).
  cbn [app] in Ho.
  repeat match goal with
  | H : Forall octet (_ ++ _) |- _ => apply Forall_app in H as [? H]
  | H : Forall octet (_ :: _) |- _ =>
      let A := fresh "O" in pose proof (Forall_inv H) as A; apply Forall_inv_tail in H
  end.
  assert (coding = fmt_of_dcs dcs) as Ec.
  { assert (alphabet dcs = Some (fmt_of_dcs dcs)) by (apply fmt_scheme; assumption). congruence. }
  unfold new_deliver in Hd.
  rewrite (set_pdu_process pdu smsc sc fo n ty os snd pid dcs ts oz t (udl :: p)) in Hd by assumption.
  rewrite <- Ec in Hd.
  destruct (process_message fo coding (udl :: p) _) as [[[]|] o'] eqn:E; [|discriminate].
  injection Hd as <-.
  destruct (process_any fo hdr coding text udl ud p q _ o' Hud Oud Eud Hq
    ltac:(now rewrite udhi_bit by assumption) E) as (t' & u & Ht & ->).
  cbn. do 4 (split; [reflexivity|]). exists t'. split; [reflexivity|exact Ht].
Qed.
Print Assumptions C85_shorter.
(** "a{b" cut after the escape of the brace: the text reads "a" and a no-break
    space. *)
Example C85_shorter_case : match new_deliver (hex_of (case_octets 4 0 4 [0xe1; 0x0d])) true,
    new_deliver (hex_of (case_octets 4 0 4 [0xe1; 0x0d; 0x4a; 0x0c])) true with
  | Ok d, Ok d' => d_text d = Some (97 :: 0xA0 :: nil) /\ d_text d' = Some (str "a{b")
  | _, _ => False end.
Proof. vm_compute. auto. Qed.

(** C85 for status reports, as far as it is true: one cut up to and including the
    type of the recipient's number is rejected. *)
Theorem C85_report_partial : forall pdu p q strict smsc sc fo mr n ty,
  reads_hex pdu p -> smsc_field smsc sc -> message_type fo = 2 ->
  Forall octet q -> p ++ q = sc ++ [fo; mr; n; ty] -> q <> [] ->
  new_deliver pdu strict = Err IndexError.
Proof.
  intros pdu p q strict smsc sc fo mr n ty Hx Hsc Hmt Oq E Hq.
  apply (report_rejected strict pdu smsc sc fo mr n ty p q); try assumption.
  apply Forall_app. split; [exact (reads_hex_octets _ _ Hx)|exact Oq].
Qed.
Print Assumptions C85_report_partial.
Example C85_report_case : new_deliver (str "0006270B") true = Err IndexError.
Proof. reflexivity. Qed.

(** C85 fails for status reports cut further on: each is accepted, with the digits
    of the recipient that are there and with the dates that are there.  Without
    the status octet the outcome is always unknown, never a delivery. *)
Theorem C85_report_refuted : forall pdu p q strict smsc sc fo mr ty ds os ts1 oz1 t1 ts2 oz2 t2,
  reads_hex pdu (sc ++ [fo; mr] ++ [Z.of_nat (length ds); ty] ++ p) ->
  smsc_field smsc sc -> message_type fo = 2 -> semi_octets ds os ->
  stamp ts1 t1 -> stamp ts2 t2 ->
  p ++ q = os ++ ts1 ++ [oz1] ++ ts2 ++ [oz2] ->
  exists d, new_deliver pdu strict = Ok d /\ d_number d = Some (str "SR-UNKNOWN") /\
    d_sr d = Some (SReport (number_text ty (firstn (Z.to_nat (2 * zlen p)) ds))
      (if zlen os + 6 <=? zlen p then Some t1 else None)
      (if zlen os + 13 <=? zlen p then Some t2 else None) None) /\
    d_date d = (if zlen os + 6 <=? zlen p then Some t1 else None).
Proof.
  intros pdu p q strict smsc sc fo mr ty ds os ts1 oz1 t1 ts2 oz2 t2.
  apply report_cut.
Qed.
Print Assumptions C85_report_refuted.
(** The report of C35 cut in the number: the recipient +43626575117 becomes
    +4362. *)
Example C85_report_refuted_case : match new_deliver (str "07914306073011F006270B913426") true with
  | Ok d => d_sr d = Some (SReport (str "+4362") None None None) | Err _ => False end.
Proof. vm_compute. reflexivity. Qed.
