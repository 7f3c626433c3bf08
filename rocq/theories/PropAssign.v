(** C37 for all strings and all objects: what an object shows after its pdu
    attribute was assigned, compared with a new object made from that PDU; and C105,
    what it shows after an assignment that was refused. *)
From Coq Require Import Lia.
From Verif Require Import Py PyFacts SpecGsm SpecPack SpecAddress SpecTime SpecSubmit SpecDeliver
  Utils Gsm Udh Deliver PropDeliver.
Open Scope Z_scope.

(** What an attribute shows that the new PDU sets to [new] when it sets it at all
    ([None]: it does not, a new object shows nothing there). *)
Definition kept {A} (old new : option A) : option A :=
  match new with Some v => Some v | None => old end.

(** The report of a report without readable time stamp of the service centre takes
    the date the object had. *)
Definition kept_report (date : option Z) (old new : option sreport) : option sreport :=
  match new with
  | Some (SReport r scts dt st) => Some (SReport r (kept date scts) dt st)
  | None => old
  end.

(** [d] is the object [old] after an assignment, [d0] a new object for that PDU. *)
Record remains (old d0 d : deliver) : Prop := {
  rm_strict : d_strict d = d_strict d0;
  rm_pdu : d_pdu d = d_pdu d0;
  rm_csca : d_csca d = d_csca d0;
  rm_number : d_number d = d_number d0;
  rm_text : d_text d = d_text d0;
  rm_fmt : d_fmt d = d_fmt d0;
  rm_mtype : d_mtype d = d_mtype d0;
  rm_udh : d_udh d = kept (d_udh old) (d_udh d0);
  rm_dcs : d_dcs d = kept (d_dcs old) (d_dcs d0);
  rm_pid : d_pid d = kept (d_pid old) (d_pid d0);
  rm_type : d_type d = kept (d_type old) (d_type d0);
  rm_date : d_date d = kept (d_date old) (d_date d0);
  rm_sr : d_sr d = kept_report (d_date old) (d_sr old) (d_sr d0) }.

(** * Two runs side by side *)

Record R0 (old d0 d : deliver) : Prop := {
  r_strict : d_strict d = d_strict d0;
  r_pdu : d_pdu d = kept (d_pdu old) (d_pdu d0);
  r_number : d_number d = kept (d_number old) (d_number d0);
  r_text : d_text d = kept (d_text old) (d_text d0);
  r_fmt : d_fmt d = kept (d_fmt old) (d_fmt d0);
  r_mtype : d_mtype d = kept (d_mtype old) (d_mtype d0);
  r_udh : d_udh d = kept (d_udh old) (d_udh d0);
  r_dcs : d_dcs d = kept (d_dcs old) (d_dcs d0);
  r_pid : d_pid d = kept (d_pid old) (d_pid d0);
  r_type : d_type d = kept (d_type old) (d_type d0);
  r_date : d_date d = kept (d_date old) (d_date d0);
  r_sr : d_sr d = kept_report (d_date old) (d_sr old) (d_sr d0) }.

Definition R1 old d0 d := R0 old d0 d /\ d_csca d = d_csca d0.

Definition sim {A} (P Q : deliver -> deliver -> Prop) (m : ST deliver A) : Prop :=
  forall d0 d, P d0 d ->
    fst (m d) = fst (m d0) /\
    (forall a, fst (m d0) = Ok a -> Q (snd (m d0)) (snd (m d))).

Lemma sim_bind : forall A B P Q T (m : ST deliver A) (f : A -> ST deliver B),
  sim P Q m -> (forall a, sim Q T (f a)) -> sim P T (st_bind m f).
Proof.
  intros A B P Q T m f H K d0 d HP. unfold st_bind.
  destruct (H d0 d HP) as [E1 E2].
  destruct (m d) as [x d'], (m d0) as [x0 d0']. cbn [fst snd] in *. subst x0.
  destruct x as [a | e].
  - apply K. apply (E2 a eq_refl).
  - split; [reflexivity | intros a F; discriminate].
Qed.

Lemma sim_lift : forall A P (r : res A), sim P P (st_lift r).
Proof. intros A P r d0 d HP. split; [reflexivity | intros; exact HP]. Qed.

Lemma sim_ret : forall A P (a : A), sim P P (st_ret a).
Proof. intros A P r d0 d HP. split; [reflexivity | intros; exact HP]. Qed.

Lemma sim_err : forall A P Q e, sim P Q (st_err e : ST deliver A).
Proof. intros A P Q e d0 d HP. split; [reflexivity | intros a F; discriminate]. Qed.

Lemma sim_upd : forall (P Q : deliver -> deliver -> Prop) f, (forall d0 d, P d0 d -> Q (f d0) (f d)) -> sim P Q (assign f).
Proof. intros P Q f H d0 d HP. split; [reflexivity | intros; apply H, HP]. Qed.

Ltac setter := intros d0 d [[] C]; split; [constructor; cbn; auto | exact C].

Lemma sim_udh : forall o u, sim (R1 o) (R1 o) (assign (set_d_udh (Some u))).
Proof. intros o u. apply sim_upd. setter. Qed.
Lemma sim_text : forall o u, sim (R1 o) (R1 o) (assign (set_d_text (Some u))).
Proof. intros o u. apply sim_upd. setter. Qed.
Lemma sim_number : forall o u, sim (R1 o) (R1 o) (assign (set_d_number (Some u))).
Proof. intros o u. apply sim_upd. setter. Qed.
Lemma sim_fmt : forall o u, sim (R1 o) (R1 o) (assign (set_d_fmt (Some u))).
Proof. intros o u. apply sim_upd. setter. Qed.
Lemma sim_dcs : forall o u, sim (R1 o) (R1 o) (assign (set_d_dcs (Some u))).
Proof. intros o u. apply sim_upd. setter. Qed.
Lemma sim_pid : forall o u, sim (R1 o) (R1 o) (assign (set_d_pid (Some u))).
Proof. intros o u. apply sim_upd. setter. Qed.
Lemma sim_date : forall o u, sim (R1 o) (R1 o) (assign (set_d_date (Some u))).
Proof. intros o u. apply sim_upd. setter. Qed.
Lemma sim_mtype : forall o u, sim (R1 o) (R1 o) (assign (set_d_mtype (Some u))).
Proof. intros o u. apply sim_upd. setter. Qed.
Lemma sim_type : forall o u, sim (R1 o) (R1 o) (assign (set_d_type (Some u))).
Proof. intros o u. apply sim_upd. setter. Qed.
Lemma sim_pdu : forall o u, sim (R0 o) (R0 o) (assign (set_d_pdu (Some u))).
Proof. intros o u. apply sim_upd. intros d0 d []; constructor; cbn; auto. Qed.
Lemma sim_csca : forall o u, sim (R0 o) (R1 o) (assign (set_d_csca u)).
Proof. intros o u. apply sim_upd. intros d0 d []; split; [constructor; cbn; auto | reflexivity]. Qed.
Lemma sim_csca' : forall o u, sim (R1 o) (R1 o) (assign (set_d_csca u)).
Proof. intros o u. apply sim_upd. intros d0 d [[] _]; split; [constructor; cbn; auto | reflexivity]. Qed.

Lemma sim_sr : forall o r dt st,
  sim (R1 o) (R1 o) (o' <~ st_get ;; assign (set_d_sr (Some (SReport r (d_date o') dt st)))).
Proof.
  intros o r dt st d0 d [[] C]. cbn. split; [reflexivity | intros _ _].
  split; [constructor; cbn; auto | exact C]. congruence.
Qed.

Ltac sims :=
  repeat match goal with
  | |- forall _, _ => intro
  | |- sim _ _ (st_bind st_get _) => apply sim_sr
  | |- sim ?P _ (st_bind _ _) => apply (sim_bind _ _ P P)
  | |- sim _ _ (match ?x with pair _ _ => _ end) => destruct x
  | |- sim _ _ (match ?x with Some _ => _ | None => _ end) => destruct x
  | |- sim _ _ (if ?b then _ else _) => destruct b
  | |- sim _ _ (st_lift _) => apply sim_lift
  | |- sim _ _ (st_ret _) => apply sim_ret
  | |- sim _ _ (st_err _) => apply sim_err
  | |- sim _ _ (assign (set_d_udh _)) => apply sim_udh
  | |- sim _ _ (assign (set_d_text _)) => apply sim_text
  | |- sim _ _ (assign (set_d_number _)) => apply sim_number
  | |- sim _ _ (assign (set_d_fmt _)) => apply sim_fmt
  | |- sim _ _ (assign (set_d_dcs _)) => apply sim_dcs
  | |- sim _ _ (assign (set_d_pid _)) => apply sim_pid
  | |- sim _ _ (assign (set_d_date _)) => apply sim_date
  | |- sim _ _ (assign (set_d_mtype _)) => apply sim_mtype
  | |- sim _ _ (assign (set_d_type _)) => apply sim_type
  end.

Lemma sim_process : forall o mt fmt data, sim (R1 o) (R1 o) (process_message mt fmt data).
Proof. intros. unfold process_message. cbv zeta. sims. Qed.

Lemma sim_report : forall o data, sim (R1 o) (R1 o) (decode_status_report_pdu data).
Proof. intros. unfold decode_status_report_pdu. cbv zeta. sims. Qed.

Lemma sim_deliver : forall o mt data, sim (R1 o) (R1 o) (decode_deliver mt data).
Proof. intros. unfold decode_deliver. cbv zeta. sims. apply sim_process. Qed.

Lemma sim_smsc : forall o data, sim (R0 o) (R1 o) (decode_smsc data).
Proof.
  intros. unfold decode_smsc.
  apply (sim_bind _ _ _ (R0 o)); [apply sim_lift | intros [smscl l]].
  destruct (0 <? smscl).
  - apply (sim_bind _ _ _ (R0 o)); [apply sim_lift | intros [ty l']]. cbv zeta.
    apply (sim_bind _ _ _ (R1 o)); [apply sim_csca | intros _].
    apply (sim_bind _ _ _ (R1 o)); [| intros _; apply sim_ret].
    destruct (_ =? 1); [apply sim_csca' | apply sim_ret].
  - apply (sim_bind _ _ _ (R1 o)); [apply sim_csca | intros _; apply sim_ret].
Qed.

Lemma sim_get : forall B (P Q : deliver -> deliver -> Prop) (k : deliver -> ST deliver B),
  (forall d0 d, P d0 d -> d_strict d = d_strict d0) ->
  (forall x y, d_strict x = d_strict y -> k x = k y) ->
  (forall x, sim P Q (k x)) -> sim P Q (st_bind st_get k).
Proof.
  intros B P Q k S K H d0 d HP. unfold st_bind, st_get.
  rewrite (K d d0 (S d0 d HP)). apply (H d0 d0 d HP).
Qed.

Lemma sim_set_pdu : forall o pdu, sim (R0 o) (R1 o) (set_pdu pdu).
Proof.
  intros o pdu. unfold set_pdu. apply sim_get.
  - intros d0 d H. apply (r_strict _ _ _ H).
  - intros x y E. rewrite E. reflexivity.
  - intro x. cbv zeta. destruct (negb _); [apply sim_err |].
    apply (sim_bind _ _ _ (R0 o)); [apply sim_pdu | intros _].
    apply (sim_bind _ _ _ (R0 o)); [apply sim_lift | intro data].
    apply (sim_bind _ _ _ (R1 o)); [apply sim_smsc | intro data1].
    sims; [apply sim_report | apply sim_deliver].
Qed.

(** On success these attributes are set. *)
Definition wpo {A} (m : ST deliver A) (Q : deliver -> Prop) (d : deliver) : Prop :=
  match m d with (Ok _, d') => Q d' | (Err _, _) => True end.

Lemma wpo_bind : forall A B (m : ST deliver A) (f : A -> ST deliver B) Q d,
  wpo m (fun d' => forall a, wpo (f a) Q d') d -> wpo (st_bind m f) Q d.
Proof.
  intros A B m f Q d H. unfold wpo, st_bind in *. destruct (m d) as [[a | e] d']; [apply H | exact I].
Qed.

Lemma wpo_any : forall A (m : ST deliver A) (Q : deliver -> Prop) d,
  (forall d', Q d') -> wpo m Q d.
Proof. intros A m Q d H. unfold wpo. destruct (m d) as [[a | e] d']; [apply H | exact I]. Qed.

Lemma wpo_lift : forall A (r : res A) (Q : deliver -> Prop) d, Q d -> wpo (st_lift r) Q d.
Proof. intros A r Q d H. unfold wpo, st_lift. destruct r; [exact H | exact I]. Qed.

Lemma wpo_err : forall A e (Q : deliver -> Prop) d, wpo (st_err e : ST deliver A) Q d.
Proof. intros. exact I. Qed.

Definition all_set (d : deliver) : Prop :=
  d_pdu d <> None /\ d_number d <> None /\ d_text d <> None /\ d_fmt d <> None /\ d_mtype d <> None.

Ltac wpos :=
  repeat match goal with
  | |- forall _, _ => intro
  | |- wpo (st_bind _ _) _ _ => apply wpo_bind
  | |- wpo (match ?x with pair _ _ => _ end) _ _ => destruct x
  | |- wpo (if ?b then _ else _) _ _ => destruct b
  | |- wpo (match ?x with Some _ => _ | None => _ end) _ _ => destruct x
  | |- wpo (st_lift _) _ _ => apply wpo_lift
  | |- wpo (st_err _) _ _ => exact I
  | |- wpo (st_ret _) ?Q ?d => change (Q d); cbv beta
  | |- wpo st_get ?Q ?d => change (Q d); cbv beta
  | |- wpo (assign ?f) ?Q ?d => change (Q (f d)); cbv beta
  end.

Ltac set_done :=
  unfold all_set in *; cbn in *;
  repeat match goal with H : _ /\ _ |- _ => destruct H end;
  repeat split; try discriminate; assumption.

Lemma fmt_cases : forall dcs, fmt_of_dcs dcs = 0 \/ fmt_of_dcs dcs = 4 \/ fmt_of_dcs dcs = 8.
Proof. intro dcs. unfold fmt_of_dcs. destruct (_ =? 0); [auto |]. destruct (negb _); auto. Qed.

Lemma process_sets : forall mt dcs data d,
  d_pdu d <> None -> d_number d <> None -> d_fmt d <> None -> d_mtype d <> None ->
  wpo (process_message mt (fmt_of_dcs dcs) data) all_set d.
Proof.
  intros mt dcs data d P N F M. unfold process_message. cbv zeta.
  destruct (fmt_cases dcs) as [-> | [-> | ->]]; cbn [Z.eqb Pos.eqb]; wpos; set_done.
Qed.

Lemma deliver_sets : forall mt data d, d_pdu d <> None -> d_mtype d <> None ->
  wpo (decode_deliver mt data) all_set d.
Proof.
  intros mt data d P M. unfold decode_deliver. cbv zeta. wpos.
  apply process_sets; cbn; try discriminate; assumption.
Qed.

Lemma report_sets : forall data d, d_pdu d <> None -> d_mtype d <> None ->
  wpo (decode_status_report_pdu data) all_set d.
Proof.
  intros data d P M. unfold decode_status_report_pdu. cbv zeta. wpos; set_done.
Qed.

Lemma smsc_keeps : forall data d (Q : deliver -> Prop), d_pdu d <> None ->
  (forall d', d_pdu d' <> None -> Q d') -> wpo (decode_smsc data) Q d.
Proof. intros data d Q P H. unfold decode_smsc. cbv zeta. wpos; apply H; exact P. Qed.

Lemma set_pdu_sets : forall pdu d, wpo (set_pdu pdu) all_set d.
Proof.
  intros pdu d. unfold set_pdu. apply wpo_bind. change (wpo st_get) with (fun Q (d : deliver) => Q d : Prop).
  cbv beta zeta. intro o. destruct (negb _); [exact I |]. apply wpo_bind. wpos.
  apply smsc_keeps; [cbn; discriminate |]. intros d' P. wpos.
  - apply report_sets; cbn; [exact P | discriminate].
  - apply deliver_sets; cbn; [exact P | discriminate].
Qed.

Lemma kept_set : forall A (o n : option A), n <> None -> kept o n = n.
Proof. intros A o [v |] H; [reflexivity | elim H; reflexivity]. Qed.

Lemma R0_start : forall st, R0 st (deliver0 (d_strict st)) st.
Proof. intro st. constructor; reflexivity. Qed.

(** * C37 *)

(** C37, settled for every string and whatever happened to the object before:
    assigning a PDU succeeds or fails as making a new object from it does, with the
    same exception; and the attributes the PDU does not set stay as they were, all
    others are those of the new object. *)
Theorem C37_all : forall st pdu,
  match set_pdu pdu st, new_deliver pdu (d_strict st) with
  | (Ok _, d), Ok d0 => remains st d0 d
  | (Err e, _), Err e' => e = e'
  | _, _ => False
  end.
Proof.
  intros st pdu. unfold new_deliver.
  destruct (sim_set_pdu st pdu _ _ (R0_start st)) as [E1 E2].
  pose proof (set_pdu_sets pdu (deliver0 (d_strict st))) as S. unfold wpo in S.
  destruct (set_pdu pdu st) as [[u | e] d], (set_pdu pdu (deliver0 (d_strict st))) as [[u0 | e0] d0];
    cbn [fst snd] in *; try discriminate.
  - specialize (E2 u0 eq_refl). destruct E2 as [[] C], S as (S1 & S2 & S3 & S4 & S5).
    rewrite kept_set in * by assumption. constructor; assumption.
  - congruence.
Qed.
Print Assumptions C37_all.

(** C37, exactly: the object is what a new one for that PDU is just when every
    attribute that the PDU does not set was not set before. *)
Theorem C37_same : forall st pdu d d0,
  set_pdu pdu st = (Ok tt, d) -> new_deliver pdu (d_strict st) = Ok d0 ->
  (d = d0 <->
   (d_udh d0 = None -> d_udh st = None) /\ (d_dcs d0 = None -> d_dcs st = None) /\
   (d_pid d0 = None -> d_pid st = None) /\ (d_type d0 = None -> d_type st = None) /\
   (d_date d0 = None -> d_date st = None) /\ (d_sr d0 = None -> d_sr st = None) /\
   (forall r, d_sr d0 = Some r -> sr_scts r = None -> d_date st = None)).
Proof.
  intros st pdu d d0 H H0. pose proof (C37_all st pdu) as A. rewrite H, H0 in A.
  destruct A as [A1 A2 A3 A4 A5 A6 A7 A8 A9 A10 A11 A12 A13]. split.
  - intros <-. destruct d as [a1 a2 a3 a4 a5 a6 a7 a8 a9 a10 a11 a12 a13].
    cbn [d_udh d_dcs d_pid d_type d_date d_sr d_number] in *.
    repeat split.
    all: try (intros ->; cbn [kept kept_report] in *; congruence).
    intros [r1 r2 r3 r4] ->. cbn [sr_scts kept_report]. intros ->. cbn [kept_report kept] in *. congruence.
  - intros (B1 & B2 & B3 & B4 & B5 & B6 & B7).
    assert (K : forall X (o n : option X), (n = None -> o = None) -> kept o n = n).
    { intros X o [v |] E; [reflexivity | cbn; auto]. }
    rewrite K in A8, A9, A10, A11, A12 by assumption.
    assert (A14 : d_sr d = d_sr d0).
    { rewrite A13. destruct (d_sr d0) as [[r s t u] |]; [| cbn; auto].
      cbn. rewrite K; [reflexivity |]. intro E. apply (B7 _ eq_refl). exact E. }
    clear - A1 A2 A3 A4 A5 A6 A7 A8 A9 A10 A11 A12 A14.
    destruct d, d0. cbn in *. subst. reflexivity.
Qed.
Print Assumptions C37_same.

(** * C105: refused PDUs *)

Definition wpe {A} (m : ST deliver A) (Q E : deliver -> Prop) (d : deliver) : Prop :=
  match m d with (Ok _, d') => Q d' | (Err _, d') => E d' end.

Lemma wpe_bind : forall A B (m : ST deliver A) (f : A -> ST deliver B) Q E d,
  wpe m (fun d' => forall a, wpe (f a) Q E d') E d -> wpe (st_bind m f) Q E d.
Proof.
  intros A B m f Q E d H. unfold wpe, st_bind in *. destruct (m d) as [[a | e] d']; [apply H | exact H].
Qed.

Lemma wpe_lift : forall A (r : res A) (Q E : deliver -> Prop) d, Q d -> E d -> wpe (st_lift r) Q E d.
Proof. intros A r Q E d H K. unfold wpe, st_lift. destruct r; assumption. Qed.

Ltac wpes :=
  repeat match goal with
  | |- forall _, _ => intro
  | |- wpe (st_bind _ _) _ _ _ => apply wpe_bind
  | |- wpe (match ?x with pair _ _ => _ end) _ _ _ => destruct x
  | |- wpe (if ?b then _ else _) _ _ _ => destruct b
  | |- wpe (match ?x with Some _ => _ | None => _ end) _ _ _ => destruct x
  | |- wpe (st_lift _) _ _ _ => apply wpe_lift
  | |- wpe (st_err _) _ ?E ?d => change (E d); cbv beta
  | |- wpe (st_ret _) ?Q _ ?d => change (Q d); cbv beta
  | |- wpe st_get ?Q _ ?d => change (Q d); cbv beta
  | |- wpe (assign ?f) ?Q _ ?d => change (Q (f d)); cbv beta
  end.

(** What a refused PDU leaves alone, and what it changes in any case. *)
Definition half (p : list Z) (st d : deliver) : Prop :=
  d_pdu d = Some p /\ d_text d = d_text st /\ d_type d = d_type st /\ d_sr d = d_sr st.

Lemma half_process : forall p st mt fmt data d, half p st d ->
  wpe (process_message mt fmt data) (fun _ => True) (half p st) d.
Proof. intros p st mt fmt data d H. unfold process_message. cbv zeta. wpes; try exact I; exact H. Qed.

Lemma half_deliver : forall p st mt data d, half p st d ->
  wpe (decode_deliver mt data) (fun _ => True) (half p st) d.
Proof.
  intros p st mt data d H. unfold decode_deliver. cbv zeta. wpes; try exact I; try exact H.
  apply half_process. exact H.
Qed.

Lemma half_report : forall p st data d, half p st d ->
  wpe (decode_status_report_pdu data) (fun _ => True) (half p st) d.
Proof.
  intros p st data d H. unfold decode_status_report_pdu. cbv zeta. wpes; try exact I; exact H.
Qed.

Lemma half_smsc : forall p st data d, half p st d ->
  wpe (decode_smsc data) (half p st) (half p st) d.
Proof. intros p st data d H. unfold decode_smsc. cbv zeta. wpes; exact H. Qed.

Lemma zlen_removelast : forall (l : list Z), l <> [] -> zlen (removelast l) = zlen l - 1.
Proof.
  intros l H. rewrite (app_removelast_last 0 H) at 2. rewrite zlen_app. unfold zlen at 3. cbn. lia.
Qed.

Lemma half_set_pdu : forall pdu st,
  match set_pdu pdu st with
  | (Ok _, _) => True
  | (Err e, d) =>
      (d_strict st = true /\ zlen pdu mod 2 = 1 /\ d = st) \/
      half (if zlen pdu mod 2 =? 0 then pdu else removelast pdu) st d
  end.
Proof.
  intros pdu st. unfold set_pdu, st_get. unfold st_bind at 1. cbv zeta.
  pose proof (Z.mod_pos_bound (zlen pdu) 2 ltac:(reflexivity)) as M.
  assert (G : forall p, match
     (_ <~ assign (set_d_pdu (Some p));; data <~ st_lift (to_array p);;
         data0 <~ decode_smsc data;;
         '(mtype, data1) <~ st_lift (pop0 data0);; _ <~ assign (set_d_mtype (Some mtype));;
         (let mt := Z.land mtype 3 in
          if mt =? 2 then decode_status_report_pdu data1
          else if mt =? 1 then st_err ValueError else decode_deliver mtype data1)) st with
     | (Ok _, _) => True | (Err e, d) => half p st d end).
  { intro p.
    change (wpe (_ <~ assign (set_d_pdu (Some p));; data <~ st_lift (to_array p);;
         data0 <~ decode_smsc data;;
         '(mtype, data1) <~ st_lift (pop0 data0);; _ <~ assign (set_d_mtype (Some mtype));;
         (let mt := Z.land mtype 3 in
          if mt =? 2 then decode_status_report_pdu data1
          else if mt =? 1 then st_err ValueError else decode_deliver mtype data1))
        (fun _ => True) (half p st) st).
    assert (H : half p st (set_d_pdu (Some p) st)) by (repeat split).
    apply wpe_bind. change (forall a : unit, wpe (data <~ st_lift (to_array p);;
         data0 <~ decode_smsc data;;
         '(mtype, data1) <~ st_lift (pop0 data0);; _ <~ assign (set_d_mtype (Some mtype));;
         (let mt := Z.land mtype 3 in
          if mt =? 2 then decode_status_report_pdu data1
          else if mt =? 1 then st_err ValueError else decode_deliver mtype data1))
        (fun _ => True) (half p st) (set_d_pdu (Some p) st)).
    intros _. apply wpe_bind. apply wpe_lift; [| exact H]. intro data. apply wpe_bind.
    pose proof (half_smsc p st data _ H) as S. unfold wpe in S |- *.
    destruct (decode_smsc data (set_d_pdu (Some p) st)) as [[l | e] d1]; [| exact S].
    intro l0. change (wpe ('(mtype, data1) <~ st_lift (pop0 l0);; _ <~ assign (set_d_mtype (Some mtype));;
         (let mt := Z.land mtype 3 in
          if mt =? 2 then decode_status_report_pdu data1
          else if mt =? 1 then st_err ValueError else decode_deliver mtype data1)) (fun _ => True) (half p st) d1).
    cbv zeta. wpes; try exact S.
    - apply half_report. exact S.
    - apply half_deliver. exact S. }
  destruct (zlen pdu mod 2 =? 0) eqn:E.
  - rewrite andb_false_r. cbn [negb]. rewrite E. cbn [negb].
    specialize (G pdu). match type of G with match ?x with _ => _ end => destruct x as [[u | e] d] end; [exact I | right; exact G].
  - destruct (d_strict st) eqn:S.
    + cbn [negb andb]. rewrite E. cbn [negb]. left. repeat split.
      apply Z.eqb_neq in E. lia.
    + cbn [negb andb].
      assert (E2 : zlen (removelast pdu) mod 2 =? 0 = true).
      { pose proof (zlen_removelast pdu) as L. apply Z.eqb_neq in E.
        destruct pdu as [| c r]; [elim E; reflexivity |]. specialize (L ltac:(discriminate)).
        rewrite L. apply Z.eqb_eq. rewrite Zminus_mod.
        replace (zlen (c :: r) mod 2) with 1 by lia. reflexivity. }
      rewrite E2. cbn [negb].
      specialize (G (removelast pdu)). match type of G with match ?x with _ => _ end => destruct x as [[u | e] d] end; [exact I | right; exact G].
Qed.

(** C105, as far as it is true: an odd number of characters with strict checking
    changes nothing; and no refused PDU changes the text, the type and the report. *)
Theorem C105_kept_partial : forall st pdu e d,
  set_pdu pdu st = (Err e, d) ->
  (d_strict st = true -> zlen pdu mod 2 = 1 -> d = st) /\
  d_text d = d_text st /\ d_type d = d_type st /\ d_sr d = d_sr st.
Proof.
  intros st pdu e d H. pose proof (half_set_pdu pdu st) as G. rewrite H in G. split.
  - intros S O. unfold set_pdu, st_bind, st_get in H. cbv zeta in H. rewrite S, O in H.
    cbn [negb andb Z.eqb] in H. rewrite O in H. cbn [negb Z.eqb] in H. unfold st_err in H. injection H as _ H. symmetry. exact H.
  - destruct G as [(_ & _ & ->) | (_ & A & B & C)]; auto.
Qed.
Print Assumptions C105_kept_partial.

(** C105 is false of the code for every other PDU: the object takes the refused PDU
    as its own, so it has changed unless it had that PDU already. *)
Theorem C105_refused_refuted : forall st pdu e d,
  set_pdu pdu st = (Err e, d) -> zlen pdu mod 2 = 0 -> d_pdu d = Some pdu.
Proof.
  intros st pdu e d H O. pose proof (half_set_pdu pdu st) as G. rewrite H in G.
  destruct G as [(_ & X & _) | (A & _)]; [lia |]. rewrite O in A. exact A.
Qed.
Print Assumptions C105_refused_refuted.

(** The pdu attribute is as before just when the characters were odd and checked, or
    the object had this PDU already. *)
Theorem C105_pdu_exact : forall st pdu e d,
  set_pdu pdu st = (Err e, d) -> zlen pdu mod 2 = 0 \/ d_strict st = true ->
  (d_pdu d = d_pdu st <-> zlen pdu mod 2 = 1 \/ d_pdu st = Some pdu).
Proof.
  intros st pdu e d H O.
  pose proof (Z.mod_pos_bound (zlen pdu) 2 ltac:(reflexivity)) as M.
  destruct (Z.eq_dec (zlen pdu mod 2) 0) as [E | E].
  - rewrite (C105_refused_refuted _ _ _ _ H E). split; [intro X; right; congruence |].
    intros [X | X]; [lia | congruence].
  - destruct O as [O | O]; [lia |]. assert (E1 : zlen pdu mod 2 = 1) by lia.
    rewrite (proj1 (C105_kept_partial _ _ _ _ H) O E1). split; auto.
Qed.
Print Assumptions C105_pdu_exact.

(** And the object then mixes two messages: the sender and the coding of the refused
    one stand beside the text of the one before. *)
Definition first_pdu : list Z :=
  hex_of ([0; 4; 5; 0x81; 0x21; 0x43; 0xf5; 0; 4; 0x01; 0x20; 0x81; 0x11; 0x13; 0x45; 0; 1; 65]).
Definition refused_pdu : list Z :=
  hex_of ([0; 4; 3; 0x81; 0x76; 0xf8; 0; 8; 0x01; 0x20; 0x81; 0x11; 0x13; 0x45; 0; 3; 0; 65; 0]).

Theorem C105_mixed_refuted : exists p1 p2,
  match new_deliver p1 true with
  | Ok d1 =>
      d_number d1 = Some (str "12345") /\ d_text d1 = Some (str "A") /\ d_fmt d1 = Some 4 /\
      match set_pdu p2 d1 with
      | (Err e, d2) =>
          d_number d2 = Some (str "678") /\ d_text d2 = Some (str "A") /\ d_fmt d2 = Some 8
      | _ => False
      end
  | _ => False
  end.
Proof. exists first_pdu, refused_pdu. vm_compute. repeat split. Qed.
Print Assumptions C105_mixed_refuted.

(** * Cases *)

(** C37: a message with header, then one without: all attributes but the header are
    those of the second; then a report whose time stamp cannot be read shows the
    date of the message before. *)
Example C37_all_case :
  match new_deliver (hex_of (case_octets 0x44 4 7 [5; 0; 3; 9; 2; 1; 65])) true with
  | Ok d1 =>
      match set_pdu (hex_of (case_octets 4 4 1 [66])) d1 with
      | (Ok _, d2) =>
          d_text d2 = Some (str "B") /\ concat_data d2 = Some (9, 2, 1) /\ d_date d2 <> None /\
          let p3 := hex_of (report_octets [0] 2 7 [5; 0x81; 0x21; 0x43; 0xf5]
                      [0xff; 0xff; 0xff; 0xff; 0xff; 0xff] 0 [0x01; 0x20; 0x81; 0x11; 0x13; 0x45] 0 0 []) in
          match set_pdu p3 d2, new_deliver p3 true with
          | (Ok _, d3), Ok d30 => d_date d30 = None /\ d_date d3 = d_date d2
          | _, _ => False
          end
      | _ => False
      end
  | _ => False
  end.
Proof. vm_compute. repeat split. discriminate. Qed.

(** C37: a new object whose first PDU was refused for its length is as good as new. *)
Example C37_same_case :
  set_pdu [48] (deliver0 true) = (Err ValueError, deliver0 true) /\
  fst (set_pdu (hex_of (case_octets 4 4 1 [66])) (deliver0 true)) = Ok tt.
Proof. vm_compute. repeat split. Qed.

(** C105: hypotheses: refused PDUs of odd and of even length. *)
Example C105_case :
  let st := deliver0 true in
  set_pdu (str "001") st = (Err ValueError, st) /\
  fst (set_pdu (str "0001") st) = Err ValueError /\
  d_pdu (snd (set_pdu (str "0001") st)) = Some (str "0001").
Proof. vm_compute. repeat split. Qed.
