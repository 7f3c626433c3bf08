(** C103: the dictionary of a received message. *)
From Coq Require Import Lia ZifyBool ZifyNat.
From Verif Require Import Py PyFacts SpecGsm SpecPack SpecAddress SpecTime SpecSubmit SpecDeliver DeliverClaims
  Utils Gsm Udh UdhFacts Submit SubmitClaims SubmitFacts ToPduFacts Deliver Data DeliverFacts DeliverCutFacts
  PropSubmit PropDeliver PropHex.
Open Scope Z_scope.

Definition text_or_none (o : option (list Z)) : dval :=
  match o with Some s => DText s | None => DNone end.

(** C103: the dictionary of a well-formed SMS-DELIVER is written out here: its
    text, protocol, coding scheme, service centre, sender, date and coding, no
    status report, and the keys ref, cnt and seq just when the header says that
    the message is a part. *)
Theorem C103_message : forall pdu o strict smsc sc fo snd oa pid dcs coding ts t oz hdr text udl ud,
  reads_hex pdu o -> smsc_field smsc sc -> message_type fo = 0 ->
  shown_as snd oa -> common_scheme dcs -> alphabet dcs = Some coding -> stamp ts t ->
  udhi fo = match hdr with Some _ => true | None => false end ->
  deliver_ud hdr coding text udl ud ->
  o = deliver_octets sc fo oa pid dcs ts oz udl ud ->
  exists d, new_deliver pdu strict = Ok d /\ data d =
    [(str "text", DText text); (str "pid", DInt pid); (str "dcs", DInt dcs);
     (str "csca", text_or_none (smsc_text smsc)); (str "number", DText snd); (str "type", DNone);
     (str "date", DDate (t - 900 * zone_quarters oz)); (str "fmt", DInt coding); (str "sr", DNone)] ++
    match (match hdr with Some els => concatenation els | None => None end) with
    | Some (ref, cnt, seq) => [(str "ref", DInt ref); (str "cnt", DInt cnt); (str "seq", DInt seq)]
    | None => []
    end.
Proof.
  intros pdu o strict smsc sc fo snd oa pid dcs coding ts t oz hdr text udl ud
    Hx Hsc Hmt Hs Hcs Ha Hts Hhd Hud Eo.
  destruct (C30_deliver pdu o strict smsc sc fo snd oa pid dcs coding ts t oz hdr text udl ud)
    as (d & Ed & E1 & E2 & E3 & E4 & E5 & E6 & E7 & _ & E8 & E9 & _ & Eu); try assumption.
  exists d. split; [exact Ed|]. unfold data. rewrite E1, E2, E3, E4, E5, E6, E7, E8, E9.
  cbn [dopt]. f_equal.
  unfold concat_data. destruct hdr as [els|]; destruct (d_udh d) as [u|]; try contradiction; [|reflexivity].
  destruct Eu as (Eu & _). rewrite <- Eu. unfold concat_view.
  destruct (h_concat u) as [[r c s e]|]; reflexivity.
Qed.
Print Assumptions C103_message.

(** C103: the dictionary of a well-formed SMS-STATUS-REPORT. *)
Theorem C103_report : forall pdu o strict smsc sc fo mr ty ds ra ts1 oz1 t1 ts2 oz2 t2 st more,
  reads_hex pdu o -> smsc_field smsc sc -> message_type fo = 2 ->
  numeric_field ty ds ra -> stamp ts1 t1 -> stamp ts2 t2 ->
  o = report_octets sc fo mr ra ts1 oz1 ts2 oz2 st more ->
  exists d, new_deliver pdu strict = Ok d /\ data d =
    [(str "text", DText (number_text ty ds ++ str "|" ++ stamp_text ts1 ++ str "|" ++
                         (if st =? 0 then stamp_text ts2 else [])));
     (str "pid", DNone); (str "dcs", DNone); (str "csca", text_or_none (smsc_text smsc));
     (str "number", DText (if st =? 0 then str "SR-OK" else if st =? 0x30 then str "SR-STORED"
                           else str "SR-UNKNOWN"));
     (str "type", DInt 3); (str "date", DDate t1); (str "fmt", DInt 8);
     (str "sr", DReport (SReport (number_text ty ds) (Some t1) (Some t2) (Some st)));
     (str "ref", DInt mr); (str "cnt", DInt 0); (str "seq", DInt 0)].
Proof.
  intros pdu o strict smsc sc fo mr ty ds ra ts1 oz1 t1 ts2 oz2 t2 st more
    Hx Hsc Hmt (os & Hos & ->) Hs1 Hs2 Eo.
  rewrite (set_pdu_report strict pdu o smsc sc fo mr ty ds os ts1 oz1 t1 ts2 oz2 t2 st more)
    by assumption.
  eexists. split; [reflexivity|]. unfold data. cbn [d_text d_pid d_dcs d_csca d_number d_type d_date d_fmt d_sr
    dopt concat_data d_udh from_status_report_ref h_concat c_ref c_cnt c_seq app].
  destruct (smsc_text smsc); reflexivity.
Qed.
Print Assumptions C103_report.

(** * Telling reports from messages, in any PDU that is accepted *)

Definition keeps {X A} (f : deliver -> X) (m : ST deliver A) : Prop := forall s, f (snd (m s)) = f s.

Lemma keeps_bind X A B (f : deliver -> X) (m : ST deliver A) (k : A -> ST deliver B) :
  keeps f m -> (forall a, keeps f (k a)) -> keeps f (st_bind m k).
Proof.
  intros Hm Hk s. unfold st_bind. specialize (Hm s). destruct (m s) as [[a|e] s']; cbn [snd] in *; [|exact Hm].
  rewrite (Hk a s'). exact Hm.
Qed.
Lemma keeps_lift X A (f : deliver -> X) (r : res A) : keeps f (st_lift r).
Proof. intros s. reflexivity. Qed.
Lemma keeps_ret X A (f : deliver -> X) (a : A) : keeps f (st_ret a).
Proof. intros s. reflexivity. Qed.
Ltac keep := repeat first
  [ apply keeps_bind; [|intros] | apply keeps_lift | apply keeps_ret
  | match goal with |- keeps _ (match ?p with pair _ _ => _ end) => destruct p end
  | match goal with |- keeps _ (if ?b then _ else _) => destruct b eqn:? end
  | progress cbv zeta
  | intros ?s; reflexivity ].

Lemma keeps_smsc X (f : deliver -> X) data : (forall v s, f (set_d_csca v s) = f s) -> keeps f (decode_smsc data).
Proof. intros H. unfold decode_smsc. keep; intros s; apply H. Qed.

Lemma keeps_deliver X (f : deliver -> X) mt data :
  (forall v s, f (set_d_number v s) = f s) -> (forall v s, f (set_d_pid v s) = f s) ->
  (forall v s, f (set_d_dcs v s) = f s) -> (forall v s, f (set_d_fmt v s) = f s) ->
  (forall v s, f (set_d_date v s) = f s) -> (forall v s, f (set_d_text v s) = f s) ->
  (Z.land mt 64 = 0 \/ forall v s, f (set_d_udh v s) = f s) ->
  keeps f (decode_deliver mt data).
Proof.
  intros H1 H2 H3 H4 H5 H6 H7. unfold decode_deliver, process_message. keep.
  all: try (intros s; unfold assign, st_upd; cbn [snd]; first [apply H1|apply H2|apply H3|apply H4|apply H5|apply H6]; fail).
  all: intros s; destruct H7 as [H7|H7]; [|apply H7].
  all: match goal with H : _ |- _ => solve [rewrite H7 in H; discriminate H] end.
Qed.

(** C103: in the dictionary of any PDU that is accepted, sr is there just when
    the message type is that of status reports, and so is type; for other messages
    the keys ref, cnt and seq are there only if the user data has a header. *)
Theorem C103_kinds : forall pdu strict d l sc fo rest,
  reads_hex pdu (l :: sc ++ fo :: rest) -> Z.of_nat (length sc) = l -> new_deliver pdu strict = Ok d ->
  if fo mod 4 =? 2
  then (exists r, d_get leqb (str "sr") (data d) = Some (DReport r)) /\
    d_get leqb (str "type") (data d) = Some (DInt 3) /\
    (exists ref, d_get leqb (str "ref") (data d) = Some (DInt ref)) /\
    d_get leqb (str "cnt") (data d) = Some (DInt 0) /\ d_get leqb (str "seq") (data d) = Some (DInt 0)
  else d_get leqb (str "sr") (data d) = Some DNone /\ d_get leqb (str "type") (data d) = Some DNone /\
    (d_get leqb (str "ref") (data d) <> None -> Z.testbit fo 6 = true).
Proof.
  intros pdu strict d l sc fo rest H L E. unfold new_deliver in E.
  rewrite (set_pdu_array pdu (l :: sc ++ fo :: rest)) in E;
    [|now apply to_array_hex|pose proof (reads_hex_length _ _ H); lia].
  assert (D : forall d, exists d', decode_smsc (l :: sc ++ fo :: rest) d = (Ok (fo :: rest), d')).
  { intros d0. unfold decode_smsc. rewrite st_bind_eq. cbn [st_lift pop0].
    destruct sc as [|t sc].
    - cbn in L. subst l. cbn. eexists. reflexivity.
    - replace (0 <? l) with true by (cbn [length] in L; lia). cbn [app].
      rewrite st_bind_eq. cbn [st_lift pop0]. cbn zeta. rewrite st_bind_eq. cbn [assign st_upd].
      assert (P : py_from (sc ++ fo :: rest) (l - 1) = fo :: rest).
      { unfold py_from. replace (Z.to_nat (l - 1)) with (length sc) by (cbn [length] in L; lia).
        rewrite skipn_app, skipn_all, Nat.sub_diag. reflexivity. }
      rewrite P. rewrite st_bind_eq. destruct (_ =? 1); cbn; eexists; reflexivity. }
  destruct (D (set_d_pdu (Some pdu) (deliver0 strict))) as (d' & Ed).
  assert (K : forall X (f : deliver -> X), (forall v s, f (set_d_csca v s) = f s) ->
    f d' = f (set_d_pdu (Some pdu) (deliver0 strict))).
  { intros X f Hf. pose proof (keeps_smsc X f (l :: sc ++ fo :: rest) Hf
      (set_d_pdu (Some pdu) (deliver0 strict))) as Y. rewrite Ed in Y. exact Y. }
  unfold decode_octets in E. rewrite st_bind_eq, Ed in E. rewrite st_bind_eq in E. cbn [st_lift pop0] in E.
  rewrite st_bind_eq in E. cbn [assign st_upd] in E. cbn zeta in E. rewrite land_3 in E.
  set (s := set_d_mtype (Some fo) d') in E. destruct (fo mod 4 =? 2).
  - destruct (decode_status_report_pdu rest s) as [[[]|e] d1] eqn:X; [|discriminate].
    injection E as <-. clearbody s. clear - X. unfold decode_status_report_pdu in X.
    apply st_bind_ok in X. destruct X as ([ref r1] & s1 & X1 & X). apply st_lift_ok in X1. destruct X1 as [_ ->].
    apply st_bind_ok in X. destruct X as ([] & s2 & X2 & X). injection X2 as <-.
    apply st_bind_ok in X. destruct X as ([n r2] & s3 & X3 & X). apply st_lift_ok in X3. destruct X3 as [_ ->].
    cbv zeta in X.
    apply st_bind_ok in X. destruct X as ([ty r3] & s4 & X4 & X). apply st_lift_ok in X4. destruct X4 as [_ ->].
    cbv zeta in X.
    destruct (report_date (py_to (py_from r3 (addr_octets n)) 7)) as [a1 b1].
    apply st_bind_ok in X. destruct X as ([] & s5 & X5 & X).
    assert (U : d_udh s5 = Some (from_status_report_ref ref)).
    { destruct b1; injection X5 as <-; reflexivity. }
    clear X5. destruct (report_date (py_to (py_from (py_from r3 (addr_octets n)) 7) 7)) as [a2 b2].
    match type of X with (let '(_, _) := ?p in _) _ = _ => destruct p as [[stat third] snd] end.
    cbn in X. injection X as <-. unfold data, concat_data. cbn. rewrite U. cbn.
    split; [eexists; reflexivity|]. split; [reflexivity|]. split; [eexists; reflexivity|]. split; reflexivity.
  - destruct (fo mod 4 =? 1); [discriminate|].
    destruct (decode_deliver fo rest s) as [[[]|e] d1] eqn:X; [|discriminate]. injection E as <-.
    assert (KD : forall Y (f : deliver -> Y), keeps f (decode_deliver fo rest) -> f d1 = f s).
    { intros Y f Hf. specialize (Hf s). rewrite X in Hf. exact Hf. }
    assert (Sr : d_sr d1 = None).
    { rewrite (KD _ d_sr); [|apply keeps_deliver; auto; right; auto].
      change (d_sr s) with (d_sr d'). rewrite (K _ d_sr); reflexivity. }
    assert (Ty : d_type d1 = None).
    { rewrite (KD _ d_type); [|apply keeps_deliver; auto; right; auto].
      change (d_type s) with (d_type d'). rewrite (K _ d_type); reflexivity. }
    split; [unfold data; rewrite Sr; reflexivity|]. split; [unfold data; rewrite Ty; reflexivity|].
    intros R. destruct (Z.testbit fo 6) eqn:T; [reflexivity|]. exfalso. apply R.
    assert (Z0 : Z.land fo 64 = 0).
    { apply Z.bits_inj'. intros n Hn. rewrite Z.land_spec, Z.bits_0. change 64 with (2 ^ 6).
      destruct (Z.eq_dec n 6) as [->|N]; [rewrite T; reflexivity|].
      rewrite Z.pow2_bits_false by lia. apply Bool.andb_false_r. }
    assert (Ud : d_udh d1 = None).
    { rewrite (KD _ d_udh); [|apply keeps_deliver; auto].
      change (d_udh s) with (d_udh d'). rewrite (K _ d_udh); reflexivity. }
    unfold data, concat_data. rewrite Ud. reflexivity.
Qed.
Print Assumptions C103_kinds.

(** A part of a message, with header, and the report of the project's tests. *)
Example C103_part_case : match new_deliver (hex_of (case_octets 0x44 4 7 [5; 0; 3; 9; 2; 1; 65])) true with
  | Ok d => d_get leqb (str "text") (data d) = Some (DText (str "A")) /\
            d_get leqb (str "ref") (data d) = Some (DInt 9) /\ d_get leqb (str "sr") (data d) = Some DNone
  | Err _ => False end.
Proof. vm_compute. auto. Qed.
Example C103_report_case :
  match new_deliver (str "07914306073011F006270B913426565711F7012081111345400120811174054043") true with
  | Ok d => d_get leqb (str "number") (data d) = Some (DText (str "SR-UNKNOWN")) /\
            d_get leqb (str "ref") (data d) = Some (DInt 39) /\ d_get leqb (str "cnt") (data d) = Some (DInt 0)
  | Err _ => False end.
Proof. vm_compute. auto. Qed.
