(** C129: what an [SmsDeliver] shows after any number of assignments to [pdu], some of
    them refused.  What stands in a string is in SpecSeries.v. *)
From Coq Require Import Lia ZifyBool ZifyNat.
From Verif Require Import Py PyFacts SpecPack SpecTime SpecDeliver SpecUdh SpecUnread
  Udh UdhFacts Deliver SeriesFacts SpecShown SpecSeries ShownClaims.
Open Scope Z_scope.

(** The object after these assignments; it is made with the first, which is accepted. *)
Definition assigned_in_turn (strict : bool) (ps : list (list Z)) : deliver :=
  fold_left (fun d p => snd (set_pdu p d)) ps (deliver0 strict).

(** Every attribute is the one in the last string that has it.  The service centre is
    taken from any string of octets that has an address or says it has none.  The
    report's time of submission is the date the object had after the report. *)
Record shows (strict : bool) (ps : list (list Z)) (d : deliver) : Prop := Shows {
  sh_strict : d_strict d = strict;
  sh_pdu : last_in (kept strict) ps (d_pdu d);
  sh_centre : exists c, last_in (centre_in strict) ps c /\
    d_csca d = match c with Some v => v | None => None end;
  sh_first : last_in (octet_in strict) ps (d_mtype d);
  sh_number : last_in (number_in strict) ps (d_number d);
  sh_pid : last_in (pid_in strict) ps (d_pid d);
  sh_dcs : last_in (dcs_in strict) ps (d_dcs d);
  sh_coding : last_in (coding_in strict) ps (d_fmt d);
  sh_date : last_in (date_in strict) ps (d_date d);
  sh_text : last_in (text_in strict) ps (d_text d);
  sh_type : last_in (type_in strict) ps (d_type d);
  sh_header : exists h, last_in (header_in strict) ps h /\
    match h with
    | Some (HeaderOctets o) => header_shown o (d_udh d)
    | Some (ReportReference mr) => exists u, d_udh d = Some u /\ concat_view u = Some (mr, 0, 0) /\
        ports_view u = None /\ forall i, d_get Z.eqb i (h_headers u) = None
    | None => d_udh d = None
    end;
  sh_report : (d_sr d = None /\ last_in (result_in strict) ps None) \/
    (exists before p after to dt st date, ps = before ++ p :: after /\ result_in strict p (to, dt, st) /\
       (forall p' a, In p' after -> ~ result_in strict p' a) /\ last_in (date_in strict) (before ++ [p]) date /\
       d_sr d = Some (SReport to date dt st)) }.

Lemma in_keep {A} (P : list Z -> A -> Prop) ps o p : last_in P ps o -> (forall a, ~ P p a) -> last_in P (ps ++ [p]) o.
Proof.
  intros [qs N|b c0 a af H N] Hc.
  - apply li_never. intros c' a' I. apply in_app_iff in I. destruct I as [I|[<-|[]]]; [now apply N|apply Hc].
  - rewrite <- app_assoc. cbn [app]. apply li_last; [exact H|].
    intros c' a' I. apply in_app_iff in I. destruct I as [I|[<-|[]]]; [now apply N|apply Hc].
Qed.
Lemma in_new {A} (P : list Z -> A -> Prop) ps a p : P p a -> last_in P (ps ++ [p]) (Some a).
Proof. intros H. apply li_last; [exact H|intros c' a' []]. Qed.
Lemma in_settles {A} (P : list Z -> A -> Prop) ps old p new :
  last_in P ps old -> settles (P p) old new -> last_in P (ps ++ [p]) new.
Proof.
  intros H [(v & V & ->)|(N & ->)]; [apply in_new; now apply V|now apply in_keep].
Qed.

(** C129: after any sequence of assignments, refused ones included. *)
Theorem C129_shows : forall strict ps, shows strict ps (assigned_in_turn strict ps).
Proof.
  intros strict. induction ps as [|p ps IH] using rev_ind.
  - assert (N : forall A (P : list Z -> A -> Prop), last_in P [] None) by (intros A P; apply li_never; intros ? ? []).
    constructor; try apply N; [reflexivity| | |].
    + exists None. split; [apply N|reflexivity].
    + exists None. split; [apply N|reflexivity].
    + left. split; [reflexivity|apply N].
  - unfold assigned_in_turn in *. rewrite fold_left_app. cbn [fold_left].
    set (s := fold_left (fun d p => snd (set_pdu p d)) ps (deliver0 strict)) in *. clearbody s.
    destruct IH as [I0 I1 (c & I2 & Ec) I3 I4 I5 I6 I7 I8 I9 I10 (h & I11 & Eh) I12].
    pose proof (assigned p s) as X. cbn zeta in X. rewrite I0 in X.
    destruct X as ([S1 S2 S3 S4 S5 S6 S7 S8 S9] & [F1 F2 F3 F4]).
    set (s' := snd (set_pdu p s)) in *. clearbody s'.
    constructor; try (eapply in_settles; eassumption).
    + congruence.
    + destruct F4 as [(v & V & E)|(N & E)].
      * exists (Some v). split; [apply in_new; now apply V|exact E].
      * exists c. split; [now apply in_keep|congruence].
    + destruct S8 as [(v & V & E)|(N & E)].
      * exists (Some v). split; [apply in_new; now apply V|]. destruct v; exact E.
      * exists h. split; [now apply in_keep|]. rewrite E. exact Eh.
    + destruct S9 as [(v & V & E)|(N & E)].
      * right. destruct v as [[to dt] st]. exists ps, p, [], to, dt, st, (d_date s').
        split; [reflexivity|]. split; [now apply V|]. split; [intros ? ? []|]. split; [eapply in_settles; eassumption|exact E].
      * destruct I12 as [(Q & L)|(b & q & af & to & dt & st & dd & -> & R & M & L & Q)].
        { left. split; [congruence|now apply in_keep]. }
        right. exists b, q, (af ++ [p]), to, dt, st, dd. split; [now rewrite <- app_assoc|].
        split; [exact R|]. split; [|split; [exact L|congruence]].
        intros p' a I. apply in_app_iff in I. destruct I as [I|[<-|[]]]; [now apply M|apply N].
Qed.
Print Assumptions C129_shows.

(** An object made of a string and then assigned others. *)
Theorem C129_object : forall p strict d ps, new_deliver p strict = Ok d ->
  fold_left (fun d p => snd (set_pdu p d)) ps d = assigned_in_turn strict (p :: ps).
Proof.
  intros p strict d ps H. unfold assigned_in_turn. cbn [fold_left]. f_equal.
  unfold new_deliver in H. destruct (set_pdu p (deliver0 strict)) as [[[]|e] x]; [|discriminate H]. now injection H as ->.
Qed.
Print Assumptions C129_object.

(** A string has each of these at most once. *)
Lemma settles_fun {A} (P : A -> Prop) o n a b : settles P o n -> P a -> P b -> a = b.
Proof.
  intros [(v & V & _)|(N & _)] Ha Hb; [|destruct (N _ Ha)]. apply V in Ha, Hb. congruence.
Qed.
Theorem C129_once : forall strict p,
  (forall a b, kept strict p a -> kept strict p b -> a = b) /\
  (forall a b, centre_in strict p a -> centre_in strict p b -> a = b) /\
  (forall a b, octet_in strict p a -> octet_in strict p b -> a = b) /\
  (forall a b, number_in strict p a -> number_in strict p b -> a = b) /\
  (forall a b, pid_in strict p a -> pid_in strict p b -> a = b) /\
  (forall a b, dcs_in strict p a -> dcs_in strict p b -> a = b) /\
  (forall a b, coding_in strict p a -> coding_in strict p b -> a = b) /\
  (forall a b, date_in strict p a -> date_in strict p b -> a = b) /\
  (forall a b, text_in strict p a -> text_in strict p b -> a = b) /\
  (forall a b, type_in strict p a -> type_in strict p b -> a = b) /\
  (forall a b, header_in strict p a -> header_in strict p b -> a = b) /\
  (forall a b, result_in strict p a -> result_in strict p b -> a = b).
Proof.
  intros strict p. pose proof (assigned p (deliver0 strict)) as X. cbn zeta in X.
  change (d_strict (deliver0 strict)) with strict in X.
  destruct X as ([S1 S2 S3 S4 S5 S6 S7 S8 S9] & [F1 F2 F3 F4]).
  repeat split; try (intros a b Ha Hb; match goal with S : settles ?P _ _, _ : ?P a |- _ =>
    exact (settles_fun P _ _ a b S Ha Hb) end).
  - intros a b Ha Hb. destruct F4 as [(v & V & _)|(N & _)]; [|destruct (N _ Ha)]. apply V in Ha, Hb. congruence.
  - intros a b Ha Hb. destruct S8 as [(v & V & _)|(N & _)]; [|destruct (N _ Ha)]. apply V in Ha, Hb. congruence.
  - intros a b Ha Hb. destruct S9 as [(v & V & _)|(N & _)]; [|destruct (N _ Ha)]. apply V in Ha, Hb. congruence.
Qed.
Print Assumptions C129_once.

Theorem C129_last : forall A (P : list Z -> A -> Prop) ps o o',
  (forall p a b, P p a -> P p b -> a = b) -> last_in P ps o -> last_in P ps o' -> o = o'.
Proof.
  intros A P ps. induction ps as [|c cs IH] using rev_ind; intros o o' F H H'.
  - assert (E : forall o, last_in P [] o -> o = None).
    { clear. intros o H. remember (@nil (list Z)) as ps. destruct H as [|b c a af]; [reflexivity|destruct b; discriminate Heqps]. }
    rewrite (E _ H), (E _ H'). reflexivity.
  - assert (S : forall o, last_in P (cs ++ [c]) o ->
      (exists a, P c a /\ o = Some a) \/ ((forall a, ~ P c a) /\ last_in P cs o)).
    { clear. intros o H. remember (cs ++ [c]) as ps eqn:E. destruct H as [ps N|b c0 a af H N]; subst.
      - right. split; [intros a; apply N; apply in_app_iff; right; now left|].
        apply li_never. intros c' a' I. apply N. apply in_app_iff. now left.
      - destruct af as [|x af _] using rev_ind.
        + apply app_inj_tail in E. destruct E as (-> & ->). left. eauto.
        + change (b ++ c0 :: af ++ [x]) with (b ++ (c0 :: af) ++ [x]) in E. rewrite app_assoc in E.
          apply app_inj_tail in E. destruct E as (<- & <-). right. split.
          * intros a'. apply N. apply in_app_iff. right. now left.
          * apply li_last; [exact H|]. intros c' a' I. apply N. apply in_app_iff. now left. }
    apply S in H, H'. destruct H as [(a & H & ->)|(N & H)], H' as [(a' & H' & ->)|(N' & H')].
    + f_equal. exact (F _ _ _ H H').
    + destruct (N' _ H).
    + destruct (N _ H').
    + exact (IH _ _ F H H').
Qed.
Print Assumptions C129_last.

(** A message, then one that breaks off behind its sender, then a report without dates:
    the sender of the second beside the text of the first, and the date of the first as
    the time of submission in the report. *)
Definition first_message : list Z := str "0000058121436500000120811113450003C16010".
Definition broken_message : list Z := str "000003812143".
Definition bare_report : list Z := str "0002070291940120".
Example C129_case :
  let d := assigned_in_turn true [first_message; broken_message; bare_report] in
  number_in true broken_message (str "1234") /\ (forall t, ~ text_in true broken_message t) /\
  (forall t, ~ date_in true bare_report t) /\ result_in true bare_report (str "+49", None, None) /\
  d_text (assigned_in_turn true [first_message; broken_message]) = Some (str "AAA") /\
  d_number (assigned_in_turn true [first_message; broken_message]) = Some (str "1234") /\
  d_sr d = Some (SReport (str "+49") (Some 1266492714) None None).
Proof.
  pose proof (assigned broken_message (deliver0 true)) as ([A1 _ _ _ _ A2 _ _ _] & _).
  pose proof (assigned bare_report (deliver0 true)) as ([_ _ _ _ B1 _ _ _ B2] & _). cbn zeta in *.
  change (d_strict (deliver0 true)) with true in *.
  split.
  { destruct A1 as [(v & V & Q)|(_ & Q)]; vm_compute in Q; [injection Q as <-; now apply V|discriminate Q]. }
  split.
  { destruct A2 as [(v & V & Q)|(N & _)]; [vm_compute in Q; discriminate Q|exact N]. }
  split.
  { destruct B1 as [(v & V & Q)|(N & _)]; [vm_compute in Q; discriminate Q|exact N]. }
  split.
  { destruct B2 as [([[a b] c] & V & Q)|(_ & Q)]; vm_compute in Q; [injection Q as <- <- <-; now apply V|discriminate Q]. }
  repeat split.
Qed.
