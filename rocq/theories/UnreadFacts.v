(** Proofs about the strings [SmsDeliver] refuses. *)
From Coq Require Import Lia ZifyBool ZifyNat.
From Verif Require Import Py PyFacts SpecGsm SpecPack SpecAddress SpecTime SpecSubmit SpecDeliver SpecUdh
  Gsm GsmFacts Utils PackFacts Udh UdhFacts Deliver DeliverFacts DeliverCutFacts SpecUnread PropHex NumberFacts.
Open Scope Z_scope.
Ltac Zify.zify_post_hook ::= Z.div_mod_to_equations.

(** * User data headers *)

Lemma element_out i d u :
  match udh_element i d u with
  | Ok _ => right_size (i, d)
  | Err e => wrong_size d i e
  end.
Proof.
  unfold udh_element, right_size. cbn zeta.
  destruct (Z.eq_dec i 0) as [->|N0].
  { cbn [Z.eqb]. destruct d as [|a [|b [|c [|x d]]]]; cbn [bind Z.eqb];
      try (apply ws_parts8; cbn [length]; lia); repeat split; intros; cbn [length]; lia. }
  replace (i =? 0) with false by lia. cbn [bind].
  destruct (Z.eq_dec i 8) as [->|N8].
  { cbn [Z.eqb Pos.eqb]. destruct d as [|a [|b [|c [|x d]]]];
      try (apply ws_parts16; cbn [length]; lia); repeat split; intros; cbn [length]; lia. }
  replace (i =? 8) with false by lia.
  destruct (Z.eq_dec i 4) as [->|N4].
  { cbn [Z.eqb Pos.eqb]. destruct d as [|a [|b [|c d]]];
      try (apply ws_ports8; cbn [length]; lia); repeat split; intros; cbn [length]; lia. }
  replace (i =? 4) with false by lia.
  destruct (Z.eq_dec i 5) as [->|N5].
  { cbn [Z.eqb Pos.eqb]. destruct d as [|a [|b [|c [|x d]]]];
      try (apply ws_ports16; cbn [length]; lia); repeat split; intros; cbn [length]; lia. }
  replace (i =? 5) with false by lia. repeat split; intros; lia.
Qed.

Lemma sizes_apart i d e : right_size (i, d) -> ~ wrong_size d i e.
Proof. unfold right_size. intros (A & B & C & D) W. destruct W; lia. Qed.
Lemma wrong_size_det i d e e' : wrong_size d i e -> wrong_size d i e' -> e = e'.
Proof. intros A B. inversion A; subst; inversion B; subst; try reflexivity; lia. Qed.

Lemma header_out fuel : forall data u, Forall octet data -> (length data <= fuel)%nat ->
  match udh_loop fuel data u with
  | Ok _ => forall e, ~ header_broken data e
  | Err e => header_broken data e /\ forall e', header_broken data e' -> e' = e
  end.
Proof.
  induction fuel as [|fuel IH]; intros data u Ho Hf.
  - destruct data; [|cbn in Hf; lia]. cbn. intros e H. inversion H.
  - destruct data as [|i data]; [cbn; intros e H; inversion H|].
    destruct data as [|n r].
    { cbn [udh_loop pop0 bind]. split; [constructor|]. intros e' H. inversion H. reflexivity. }
    cbn [udh_loop pop0 bind]. unfold py_to, py_from.
    pose proof (element_out i (firstn (Z.to_nat n) r) u) as E.
    destruct (udh_element i (firstn (Z.to_nat n) r) u) as [u'|e]; cbn [bind].
    2:{ split; [apply hb_size; exact E|]. intros e' H.
        inversion H as [|a b c e0 H0|a b c e0 H0 H1]; subst; [exact (wrong_size_det _ _ _ _ H0 E)|].
        destruct (sizes_apart _ _ _ H0 E). }
    assert (X : Forall octet (skipn (Z.to_nat n) r)).
    { apply Forall_skipn. inversion Ho; subst. inversion H2; subst. assumption. }
    assert (L : (length (skipn (Z.to_nat n) r) <= fuel)%nat) by (rewrite skipn_length; cbn [length] in Hf; lia).
    specialize (IH (skipn (Z.to_nat n) r) u' X L).
    destruct (udh_loop fuel (skipn (Z.to_nat n) r) u') as [u2|e].
    + intros e H. inversion H as [|a b c e0 H0|a b c e0 H0 H1]; subst; [exact (sizes_apart _ _ _ E H0)|exact (IH e H1)].
    + destruct IH as (I1 & I2). split; [apply hb_next; assumption|].
      intros e' H. inversion H as [|a b c e0 H0|a b c e0 H0 H1]; subst; [destruct (sizes_apart _ _ _ E H0)|exact (I2 e' H1)].
Qed.

Lemma from_bytes_out data : Forall octet data ->
  match from_bytes data with
  | Ok _ => forall e, ~ header_broken data e
  | Err e => header_broken data e /\ forall e', header_broken data e' -> e' = e
  end.
Proof. intros H. apply header_out; [exact H|lia]. Qed.

(** * User data *)

(** The outcome of a run is the defect, if there is one. *)
Definition agrees {A S} (r : res A * S) (broken : exn -> Prop) : Prop :=
  match fst r with
  | Ok _ => forall e, ~ broken e
  | Err e => broken e /\ forall e', broken e' -> e' = e
  end.

Lemma agrees_iff {A S} (r : res A * S) broken : agrees r broken -> forall e, fst r = Err e <-> broken e.
Proof.
  unfold agrees. intros H e. destruct (fst r) as [a|e0].
  - split; [discriminate|]. intros B. destruct (H e B).
  - destruct H as (H1 & H2). split; [intros [= <-]; exact H1|]. intros B. f_equal. symmetry. exact (H2 e B).
Qed.

Lemma agrees_ext {A S} (r : res A * S) b b' : (forall e, b e <-> b' e) -> agrees r b -> agrees r b'.
Proof.
  unfold agrees. intros X H. destruct (fst r).
  - intros e B. apply X in B. exact (H e B).
  - destruct H as (H1 & H2). split; [apply X; exact H1|]. intros e' B. apply X in B. exact (H2 e' B).
Qed.

Lemma coding_cases dcs : octet dcs ->
  fmt_of_dcs dcs = 8 /\ wide dcs \/ (fmt_of_dcs dcs = 0 \/ fmt_of_dcs dcs = 4) /\ ~ wide dcs.
Proof.
  intros H. unfold wide.
  pose proof (octet_sweep (fun d => ((fmt_of_dcs d =? 8) && ((d / 4) mod 4 =? 2)) ||
    (((fmt_of_dcs d =? 0) || (fmt_of_dcs d =? 4)) && negb ((d / 4) mod 4 =? 2)))
    ltac:(vm_compute; reflexivity) dcs H) as X. cbn beta in X. clear H. revert X.
  generalize (fmt_of_dcs dcs), ((dcs / 4) mod 4). intros a b X. lia.
Qed.

Lemma ucs2_even l : Forall octet l -> zlen l mod 2 = 0 -> exists us, ucs2_chars l = Ok us.
Proof.
  intros Ho H. destruct (be16_exists l Ho H) as (us & -> & U). exists us. now apply ucs2_chars_be16.
Qed.

Lemma finish_out dcs h udl l rest s : octet dcs -> Forall octet l -> Forall octet rest ->
  agrees (finish (fmt_of_dcs dcs) h udl (encode_bytes l) rest s)
         (fun e => wide dcs /\ zlen rest mod 2 = 1 /\ e = IndexError).
Proof.
  intros Hd Hl Hr. unfold finish, agrees. destruct (coding_cases dcs Hd) as [(-> & W)|([-> | ->] & W)]; cbn [Z.eqb Pos.eqb].
  - rewrite st_bind_eq. cbn [st_lift]. destruct (Z.eq_dec (zlen rest mod 2) 0) as [E|E].
    + destruct (ucs2_even rest Hr E) as (us & ->). cbn [assign st_upd fst]. intros e (_ & X & _). lia.
    + rewrite ucs2_odd by (assumption || lia). cbn [fst]. split; [|tauto]. split; [exact W|]. split; [lia|reflexivity].
  - rewrite st_bind_eq. cbn [st_lift]. rewrite unpack_msg_hex by exact Hl. rewrite st_bind_eq. cbn [st_lift].
    destruct (gsm_decode_total (py_slice (unpack_msg2 l) h udl)) as [u Eu].
    { unfold py_slice. apply Forall_firstn, Forall_skipn, unpack_msg2_septets. exact Hl. }
    rewrite Eu. cbn [assign st_upd fst]. intros e (X & _). contradiction.
  - cbn [assign st_upd fst]. intros e (X & _). contradiction.
Qed.

Lemma data_out fo dcs udl ud s : octet fo -> octet dcs -> Forall octet ud ->
  agrees (process_message fo (fmt_of_dcs dcs) (udl :: ud) s) (data_broken (udhi fo) dcs ud).
Proof.
  intros Hf Hd Hu. pose proof (udhi_bit fo Hf) as B. destruct (udhi fo) eqn:U.
  - destruct ud as [|n r].
    { unfold process_message. rewrite st_bind_eq. cbn [st_lift pop0]. cbn zeta. rewrite B.
      rewrite !st_bind_eq. cbn [st_lift pop0]. unfold agrees. cbn [fst]. split; [now constructor|].
      intros e' H. inversion H; subst; try reflexivity; discriminate. }
    pose proof (Forall_inv Hu) as On. pose proof (Forall_inv_tail Hu) as Or.
    rewrite process_header by (assumption || (unfold octet in On; lia)).
    unfold py_to at 1.
    assert (Of : Forall octet (firstn (Z.to_nat n) r)) by (now apply Forall_firstn).
    pose proof (from_bytes_out _ Of) as H. destruct (from_bytes (firstn (Z.to_nat n) r)) as [u|e].
    + eapply agrees_ext; [|apply finish_out; [exact Hd|now apply Forall_py_to|now apply Forall_py_from]].
      intros e. cbn beta. unfold py_from, zlen. split.
      * intros (W & L & ->). apply db_header_half; auto.
      * intros X. inversion X as [|a b c _ X1|a X1 X2 X3|a b _ X1 X2 X3]; subst; [destruct (H _ X1)|discriminate X1|auto].
    + unfold agrees. cbn [fst]. destruct H as (H1 & H2). split; [now apply db_header|].
      intros e' X. inversion X as [|a b c _ X1|a X1 X2 X3|a b _ X1 X2 X3]; subst;
        [exact (H2 _ X1)|discriminate X1|destruct (X1 _ H1)].
  - rewrite process_plain by exact B.
    eapply agrees_ext; [|apply finish_out; [exact Hd|now apply Forall_py_to|exact Hu]].
    intros e. cbn beta. unfold zlen. split.
    + intros (W & L & ->). apply db_half; auto.
    + intros X. inversion X as [X1|a b c X1 X2|a X1 X2 X3|a b X1 X2 X3 X4]; subst; try discriminate X1. auto.
Qed.

(** * Dates *)

Lemma two_digits_only o v : octet o ->
  two_digits (hexdigit (o mod 16)) (hexdigit (o / 16)) = Some v -> bcd o /\ v = swapped_bcd o.
Proof.
  intros H E. unfold bcd.
  pose proof (octet_sweep (fun o => match two_digits (hexdigit (o mod 16)) (hexdigit (o / 16)) with
    | Some v => (o mod 16 <=? 9) && (o / 16 <=? 9) && (v =? swapped_bcd o) | None => true end)
    ltac:(vm_compute; reflexivity) o H) as X. cbn beta in X. rewrite E in X.
  apply andb_true_iff in X. destruct X as (X & Y). apply andb_true_iff in X. destruct X as (X & W).
  apply Z.leb_le in X, W. apply Z.eqb_eq in Y. auto.
Qed.

Lemma strptime_only ts t : Forall octet ts -> length ts = 6%nat ->
  strptime (swap (encode_bytes ts)) = Ok t -> exists t', stamp ts t'.
Proof.
  intros Ho L. do 7 (destruct ts as [|? ts]; try discriminate L). clear L.
  repeat (match goal with H : Forall octet (_ :: _) |- _ =>
    let A := fresh "O" in pose proof (Forall_inv H) as A; apply Forall_inv_tail in H end).
  rewrite !swap_hex_cons by assumption. change (swap (encode_bytes [])) with (@nil Z). cbn [strptime].
  repeat match goal with |- context [two_digits ?a ?b] =>
    let E := fresh "E" in destruct (two_digits a b) eqn:E; [|discriminate] end.
  repeat match goal with E : two_digits _ _ = Some _, O : octet _ |- _ =>
    apply (two_digits_only _ _ O) in E; destruct E as (? & ->) end.
  cbn zeta. fold (full_year (swapped_bcd z)). destruct (_ && _) eqn:C; [|discriminate]. intros _.
  eexists. do 6 eexists. split; [reflexivity|]. split; [repeat (apply Forall_cons; [assumption|]); apply Forall_nil|]. cbn zeta.
  split; [|reflexivity].
  repeat match goal with B : bcd ?o, O : octet ?o |- _ => pose proof (swapped_bcd_range o B O); clear B end.
  destruct (calendar (full_year (swapped_bcd z)) (swapped_bcd z0)) as (M & _); [|lia|].
  { unfold full_year. destruct (swapped_bcd z <=? 68) eqn:?; lia. }
  rewrite M in C. unfold valid_civil. lia.
Qed.

(** * The message *)

Lemma agrees_const (P : exn -> Prop) e {A S} (s : S) : P e -> (forall e', P e' -> e' = e) ->
  agrees ((Err e, s) : res A * S) P.
Proof. intros H1 H2. split; assumption. Qed.

Lemma same_split {A} (a b c d : list A) : a ++ b = c ++ d -> length a = length c -> a = c /\ b = d.
Proof.
  revert c. induction a as [|x a IH]; intros [|y c] E L; try discriminate L; cbn in *; [auto|].
  injection E as -> E. injection L as L. destruct (IH c E L) as (-> & ->). auto.
Qed.

Lemma stamp_length ts t : stamp ts t -> length ts = 6%nat.
Proof. intros (? & ? & ? & ? & ? & ? & -> & _). reflexivity. Qed.

(** The broken messages of a given length, and of given contents. *)
Lemma body_short fo n ty r e : (length r < Z.to_nat ((n + 1) / 2) + 9)%nat ->
  body_broken fo (n :: ty :: r) e -> e = IndexError.
Proof.
  intros L H. remember (n :: ty :: r) as o eqn:Eo. destruct H; try reflexivity; exfalso;
    injection Eo as -> -> <-; rewrite app_length in L; cbn [length] in L; rewrite app_length in L; cbn [length] in L;
    try match goal with X : stamp _ _ |- _ => apply stamp_length in X end; lia.
Qed.

Lemma body_full fo n ty sd pid dcs ts oz r e :
  length sd = Z.to_nat ((n + 1) / 2) -> length ts = 6%nat ->
  (body_broken fo (n :: ty :: sd ++ pid :: dcs :: ts ++ oz :: r) e <->
   ((forall t, ~ stamp ts t) /\ e = ValueError) \/
   ((exists t, stamp ts t) /\ match r with [] => e = IndexError | _ :: ud => data_broken (udhi fo) dcs ud e end)).
Proof.
  intros L1 L2. split.
  - intros H. remember (n :: ty :: sd ++ pid :: dcs :: ts ++ oz :: r) as o eqn:Eo.
    destruct H as [o L|n' ty' r' L|n' ty' sd' pid' dcs' ts' oz' r' A1 A2 A3|n' ty' sd' pid' dcs' ts' t oz' A1 A2|
      n' ty' sd' pid' dcs' ts' t oz' udl ud e A1 A2 A3].
    + exfalso. subst o. cbn [length] in L. rewrite app_length in L. lia.
    + exfalso. injection Eo as -> -> ->. rewrite app_length in L. cbn [length] in L. rewrite app_length in L. cbn [length] in L. lia.
    + injection Eo as -> -> Eo. apply same_split in Eo; [|congruence]. destruct Eo as (-> & Eo).
      injection Eo as -> -> Eo. apply same_split in Eo; [|congruence]. destruct Eo as (-> & Eo). auto.
    + pose proof (stamp_length _ _ A2). injection Eo as -> -> Eo. apply same_split in Eo; [|congruence].
      destruct Eo as (-> & Eo). injection Eo as -> -> Eo. apply same_split in Eo; [|congruence].
      destruct Eo as (-> & Eo). injection Eo as -> <-. right. eauto.
    + pose proof (stamp_length _ _ A2). injection Eo as -> -> Eo. apply same_split in Eo; [|congruence].
      destruct Eo as (-> & Eo). injection Eo as -> -> Eo. apply same_split in Eo; [|congruence].
      destruct Eo as (-> & Eo). injection Eo as -> <-. right. eauto.
  - intros [(A & ->)|((t & A) & B)]; [now apply bb_date|].
    destruct r as [|udl ud]; [subst e; eapply bb_length; eauto|eapply bb_data; eauto].
Qed.

Lemma body_out fo o s : octet fo -> Forall octet o ->
  agrees (decode_deliver fo o s) (body_broken fo o).
Proof.
  intros Hf Ho. unfold decode_deliver.
  destruct o as [|n [|ty r]].
  1,2: rewrite ?st_bind_eq; cbn [st_lift pop0]; cbn zeta; rewrite ?st_bind_eq; cbn [st_lift pop0];
    apply agrees_const; [apply bb_sender; cbn [length]; lia|intros e' H; inversion H; reflexivity].
  pose proof (Forall_inv Ho) as On. pose proof (Forall_inv_tail (Forall_inv_tail Ho)) as Or.
  rewrite st_bind_eq. cbn [st_lift pop0]. cbn zeta. rewrite st_bind_eq. cbn [st_lift pop0]. cbn zeta.
  rewrite addr_octets_spec by (unfold octet in On; lia).
  assert (Hk : 0 <= (n + 1) / 2) by (unfold octet in On; lia).
  destruct (sender_total (Z.land (Z.shiftr ty 4) 7) (py_to r ((n + 1) / 2))) as (snd & ->); [now apply Forall_py_to|].
  rewrite st_bind_eq. cbn [st_lift]. rewrite st_bind_eq. cbn [assign st_upd].
  assert (Short : (length r < Z.to_nat ((n + 1) / 2) + 9)%nat -> forall s',
    agrees ((Err IndexError, s') : res unit * deliver) (body_broken fo (n :: ty :: r))).
  { intros L s'. apply agrees_const; [apply bb_short; exact L|]. intros e'. apply body_short. exact L. }
  unfold py_from at 1. pose proof (skipn_length (Z.to_nat ((n + 1) / 2)) r) as Ls.
  pose proof (firstn_skipn (Z.to_nat ((n + 1) / 2)) r) as Er.
  pose proof (firstn_length (Z.to_nat ((n + 1) / 2)) r) as Lf.
  set (sd := firstn (Z.to_nat ((n + 1) / 2)) r) in *. set (q := skipn (Z.to_nat ((n + 1) / 2)) r) in *.
  clearbody sd q. subst r. apply Forall_app in Or. destruct Or as (Os & Oq). rewrite app_length in Short.
  rewrite st_bind_eq. cbn [st_lift]. destruct q as [|pid q]; [apply Short; cbn [length] in *; rewrite app_length in *; cbn [length] in *; lia|].
  cbn [pop0]. rewrite st_bind_eq. cbn [assign st_upd].
  rewrite st_bind_eq. cbn [st_lift]. destruct q as [|dcs q]; [apply Short; rewrite app_length in *; cbn [length] in *; lia|].
  cbn [pop0]. rewrite st_bind_eq. cbn [assign st_upd]. rewrite st_bind_eq. cbn [assign st_upd].
  rewrite st_bind_eq. cbn [st_lift].
  unfold py_to, py_from. change (Z.to_nat 6) with 6%nat.
  pose proof (skipn_length 6 q) as Lq. pose proof (firstn_skipn 6 q) as Eq. pose proof (firstn_length 6 q) as Lt.
  set (ts := firstn 6 q) in *. set (w := skipn 6 q) in *. clearbody ts w. subst q.
  destruct w as [|oz w]; [apply Short; rewrite !app_length in *; cbn [length] in *; rewrite ?app_length in *; cbn [length] in *; lia|].
  assert (L1 : length sd = Z.to_nat ((n + 1) / 2)) by (rewrite !app_length in *; cbn [length] in *; lia).
  assert (L2 : length ts = 6%nat) by (rewrite !app_length in *; cbn [length] in *; lia).
  clear Short Ls Lf Lq Lt.
  cbn [pop0]. rewrite st_bind_eq. cbn [st_lift].
  pose proof (Forall_inv (Forall_inv_tail Oq)) as Od.
  apply Forall_inv_tail, Forall_inv_tail in Oq. apply Forall_app in Oq. destruct Oq as (Ot & Ow).
  eapply agrees_ext; [intros e; symmetry; apply body_full; assumption|].
  destruct (strptime (swap (encode_bytes ts))) as [t|e] eqn:E.
  - destruct (strptime_only ts t Ot L2 E) as (t' & St). rewrite st_bind_eq. cbn [assign st_upd].
    destruct w as [|udl ud].
    + unfold process_message. rewrite st_bind_eq. cbn [st_lift pop0]. apply agrees_const; [right; eauto|].
      intros e' [(X & _)|(_ & X)]; [destruct (X _ St)|exact X].
    + eapply agrees_ext; [|apply data_out; [exact Hf|exact Od|exact (Forall_inv_tail (Forall_inv_tail Ow))]].
      intros e. split; [intros X; right; eauto|]. intros [(X & _)|(_ & X)]; [destruct (X _ St)|exact X].
  - assert (N : forall t, ~ stamp ts t).
    { intros t St. destruct (strptime_stamp ts t St Ot) as (X & _). congruence. }
    apply strptime_errors in E; [|rewrite swap_length, encode_bytes_length by exact Ot; lia]. subst e.
    apply agrees_const; [auto|]. intros e' [(_ & X)|((t & X) & _)]; [exact X|destruct (N _ X)].
Qed.

(** * The PDU *)

Lemma report_out o s : agrees (decode_status_report_pdu o s) (fun e => (length o < 3)%nat /\ e = IndexError).
Proof.
  unfold decode_status_report_pdu.
  destruct o as [|a [|b [|c o]]]; rewrite st_bind_eq; cbn [st_lift pop0];
    rewrite ?st_bind_eq; cbn [assign st_upd st_lift pop0]; rewrite ?st_bind_eq; cbn [st_lift pop0]; cbn zeta;
    rewrite ?st_bind_eq; cbn [st_lift pop0];
    try (apply agrees_const; [cbn [length]; split; [lia|reflexivity]|tauto]).
  unfold agrees.
  match goal with |- match fst ?r with _ => _ end => enough (X : fst r = Ok tt) by (rewrite X; intros e (Y & _); cbn [length] in Y; lia) end.
  destruct (report_date _) as [s1 d1]. destruct (report_date _) as [s2 d2].
  rewrite st_bind_eq. destruct d1; cbn [assign st_upd st_ret];
    destruct (match pop0 _ with Ok _ => _ | Err _ => _ end) as [[a1 b1] c1]; reflexivity.
Qed.

Lemma centre_cases o :
  (o = [] \/ (exists l, o = [l] /\ 0 < l) \/ exists r, behind_centre o r) \/ (exists l r, o = l :: r /\ l < 0).
Proof.
  destruct o as [|l r]; [auto|]. destruct (Z_lt_dec l 0); [right; eauto|]. left.
  destruct (Z.eq_dec l 0) as [->|]; [right; right; eexists; constructor|].
  destruct r as [|ty r]; [right; left; exists l; split; [reflexivity|lia]|].
  right. right. eexists. apply bc_some. lia.
Qed.

Lemma centre_det o r r' : behind_centre o r -> behind_centre o r' -> r = r'.
Proof. intros A B. inversion A; subst; inversion B; subst; try reflexivity; lia. Qed.

Lemma centre_step o r s : behind_centre o r -> exists s', decode_smsc o s = (Ok r, s').
Proof.
  unfold decode_smsc. intros [r0|l ty r0 H]; rewrite st_bind_eq; cbn [st_lift pop0].
  - eexists. reflexivity.
  - replace (0 <? l) with true by lia. rewrite st_bind_eq. cbn [st_lift pop0]. cbn zeta.
    rewrite st_bind_eq. cbn [assign st_upd]. rewrite st_bind_eq. unfold py_from.
    destruct (Z.land (Z.shiftr ty 4) 7 =? 1); cbn [assign st_upd st_ret]; eexists; reflexivity.
Qed.

Lemma octets_out (o : list Z) st : Forall octet o ->
  agrees (st_bind (decode_smsc o) (fun data =>
    '(mtype, data) <~ st_lift (pop0 data) ;;
    _ <~ assign (set_d_mtype (Some mtype)) ;;
    let mt := Z.land mtype 3 in
    if mt =? 2 then decode_status_report_pdu data
    else if mt =? 1 then st_err ValueError
    else decode_deliver mtype data) st) (unreadable o).
Proof.
  intros Ho. rewrite st_bind_eq.
  destruct (centre_cases o) as [[->|[(l & -> & L)|(r & B)]]|(l & r & -> & L)].
  - change (decode_smsc [] st) with ((Err IndexError, st) : res (list Z) * deliver).
    apply agrees_const; [constructor|]. intros e' H. inversion H; subst; try reflexivity;
      match goal with X : behind_centre [] _ |- _ => inversion X end.
  - unfold decode_smsc. rewrite st_bind_eq. cbn [st_lift pop0]. replace (0 <? l) with true by lia.
    rewrite st_bind_eq. cbn [st_lift pop0].
    apply agrees_const; [now constructor|]. intros e' H. inversion H; subst; try reflexivity;
      match goal with X : behind_centre [_] _ |- _ => inversion X; subst; lia end.
  - destruct (centre_step o r st B) as (s' & ->).
    assert (Or : Forall octet r).
    { destruct B; [now apply Forall_inv_tail in Ho|]. apply Forall_skipn. now apply Forall_inv_tail, Forall_inv_tail in Ho. }
    assert (D : forall r', behind_centre o r' -> r' = r) by (intros r' X; eapply centre_det; eassumption).
    assert (NE : forall x, ~ (o = [x] /\ 0 < x)).
    { intros x (-> & X). inversion B; subst; lia. }
    assert (N0 : o <> []) by (intros ->; inversion B).
    rewrite st_bind_eq. cbn [st_lift]. destruct r as [|fo r]; cbn [pop0].
    + apply agrees_const; [now apply ur_end|]. intros e' H. destruct H; try reflexivity;
        match goal with X : behind_centre o _ |- _ => apply D in X; discriminate X end.
    + pose proof (Forall_inv Or) as Of. apply Forall_inv_tail in Or.
      rewrite st_bind_eq. cbn [assign st_upd]. cbn zeta. rewrite mti_bits by exact Of.
      assert (C : forall e, unreadable o e <->
        (message_type fo = 1 /\ e = ValueError) \/ (message_type fo = 2 /\ (length r < 3)%nat /\ e = IndexError) \/
        ((message_type fo = 0 \/ message_type fo = 3) /\ body_broken fo r e)).
      { intros e. split.
        - intros H. destruct H as [|x X|o X|o f q X Y|o f q X Y Z0|o f q e X Y Z0].
          + congruence.
          + destruct (NE x). auto.
          + apply D in X. discriminate X.
          + apply D in X. injection X as -> ->. auto.
          + apply D in X. injection X as -> ->. auto.
          + apply D in X. injection X as -> ->. auto.
        - intros [(X & ->)|[(X & Y & ->)|(X & Y)]]; [eapply ur_submit|eapply ur_report|eapply ur_deliver]; eauto. }
      eapply agrees_ext; [intros e; symmetry; apply C|]. clear C.
      assert (M : 0 <= message_type fo <= 3) by (unfold message_type; lia).
      destruct (message_type fo =? 2) eqn:E2; [|destruct (message_type fo =? 1) eqn:E1].
      * eapply agrees_ext; [|apply report_out]. intros e. cbn beta. assert (message_type fo = 2) by lia.
        clear -H. intuition lia.
      * apply agrees_const; [left; split; [lia|reflexivity]|]. intros e' X. assert (message_type fo = 1) by lia. intuition lia.
      * eapply agrees_ext; [|apply body_out; assumption]. intros e.
        assert (K : message_type fo = 0 \/ message_type fo = 3) by lia. intuition lia.
  - exfalso. apply Forall_inv in Ho. unfold octet in Ho. lia.
Qed.

(** * Strings *)

Lemma white_blank c : white c <-> is_space c = true.
Proof. rewrite space_blank. reflexivity. Qed.

Lemma pair_out a b :
  match py_int 16 [a; b] with
  | Ok v => pair_number a b v /\ v < 256 /\ forall v', pair_number a b v' -> v' = v
  | Err e => e = ValueError /\ forall v, ~ pair_number a b v
  end.
Proof.
  assert (X : forall v, pair_number a b v <-> py_int 16 [a; b] = Ok v).
  { intros v. rewrite two_chars, one_char. pose proof (digit_hex a) as Da. pose proof (digit_hex b) as Db. split.
    - intros H. destruct H as [a b h l Ha Hb|a b v Ha Hb|a b v Ha Hb|b v Hb|b v Hb].
      + rewrite Ha, Hb in *. destruct Da as (_ & _ & -> & _). reflexivity.
      + apply white_blank in Ha. rewrite Ha, Hb. reflexivity.
      + apply white_blank in Hb. rewrite Ha in *. destruct Da as (_ & _ & -> & _).
        destruct (hex_value b); [destruct Db as (_ & _ & Db & _); congruence|]. rewrite Hb. reflexivity.
      + rewrite Hb. reflexivity.
      + rewrite Hb. reflexivity.
    - intros H. destruct (is_space a) eqn:Sa.
      { destruct (hex_value b) as [l|] eqn:Hb; [|discriminate H]. injection H as <-.
        apply pn_before; [now apply white_blank|exact Hb]. }
      destruct (hex_value a) as [h|] eqn:Ha; destruct (hex_value b) as [l|] eqn:Hb.
      + injection H as <-. now apply pn_hex.
      + destruct (is_space b) eqn:Sb; [|discriminate H]. injection H as <-.
        apply pn_behind; [exact Ha|now apply white_blank].
      + destruct (a =? 43) eqn:P.
        { assert (a = 43) by lia. subst a. injection H as <-. now apply pn_plus. }
        destruct (a =? 45) eqn:M; [|discriminate H]. assert (a = 45) by lia. subst a.
        injection H as <-. now apply pn_minus.
      + discriminate H. }
  destruct (py_int 16 [a; b]) as [v|e] eqn:E.
  - split; [apply X; reflexivity|]. split.
    + assert (H : pair_number a b v) by (apply X; reflexivity). clear -H.
      assert (R : forall c w, hex_value c = Some w -> 0 <= w < 16).
      { intros c w Hc. pose proof (digit_hex c) as D. rewrite Hc in D. tauto. }
      destruct H as [a b h l Ha Hb|a b v Ha Hb|a b v Ha Hb|b v Hb|b v Hb];
        repeat match goal with Hc : hex_value _ = Some _ |- _ => apply R in Hc end; lia.
    + intros v' H. apply X in H. congruence.
  - split; [|intros v H; apply X in H; discriminate H].
    rewrite two_chars, one_char in E.
    repeat match type of E with context [if ?b then _ else _] => destruct b | context [match ?x with Some _ => _ | None => _ end] => destruct x end;
      congruence.
Qed.

Lemma numbers_out s : zlen s mod 2 = 0 ->
  match mapM (py_int 16) (chunks2 s) with
  | Ok l => numbers s l /\ Forall (fun v => v < 256) l /\ forall l', numbers s l' -> l' = l
  | Err e => e = ValueError /\ forall l, ~ numbers s l
  end.
Proof.
  induction s as [|a|a b s IH] using pairs_ind; intros L.
  - cbn. split; [constructor|]. split; [constructor|]. intros l' H. inversion H. reflexivity.
  - cbn in L. discriminate L.
  - rewrite !zlen_cons in L. specialize (IH ltac:(lia)). cbn [chunks2 mapM].
    pose proof (pair_out a b) as P. destruct (py_int 16 [a; b]) as [v|e]; cbn [bind].
    2:{ split; [tauto|]. intros l H. inversion H; subst. destruct P as (_ & P). eapply P. eassumption. }
    destruct P as (P1 & P2 & P3). destruct (mapM (py_int 16) (chunks2 s)) as [l|e]; cbn [bind].
    + destruct IH as (I1 & I2 & I3). split; [now constructor|]. split; [now constructor|].
      intros l' H. inversion H; subst. f_equal; auto.
    + destruct IH as (I1 & I2). split; [exact I1|]. intros l H. inversion H; subst. eapply I2. eassumption.
Qed.

Lemma refused_out s st : zlen s mod 2 = 0 ->
  agrees (st_bind (st_lift (to_array s)) (fun o => st_bind (decode_smsc o) (fun data =>
    '(mtype, data) <~ st_lift (pop0 data) ;;
    _ <~ assign (set_d_mtype (Some mtype)) ;;
    let mt := Z.land mtype 3 in
    if mt =? 2 then decode_status_report_pdu data
    else if mt =? 1 then st_err ValueError
    else decode_deliver mtype data)) st) (refused s).
Proof.
  intros L. rewrite st_bind_eq. cbn [st_lift]. unfold to_array.
  pose proof (numbers_out s L) as N. destruct (mapM (py_int 16) (chunks2 s)) as [l|e]; cbn [bind].
  2:{ destruct N as (-> & N). apply agrees_const; [now apply rf_pairs|].
      intros e' [H|l v H _ _|o e H _ _]; [reflexivity|destruct (N _ H)|destruct (N _ H)]. }
  destruct N as (N1 & N2 & N3).
  destruct (forallb (fun b => (0 <=? b) && (b <? 256)) l) eqn:F.
  - assert (Ol : Forall octet l).
    { apply Forall_forall. intros x Hx. rewrite forallb_forall in F. specialize (F x Hx). unfold octet. lia. }
    eapply agrees_ext; [|apply octets_out; exact Ol]. intros e. split; [intros U; now apply (rf_octets s l)|].
    intros [H|l0 v H H1 H2|o e0 H H1 H2].
    + destruct (H _ N1).
    + apply N3 in H. subst l0. rewrite Forall_forall in Ol. specialize (Ol v H1). unfold octet in Ol. lia.
    + apply N3 in H. now subst o.
  - assert (X : exists v, In v l /\ v < 0).
    { rewrite <- not_true_iff_false, forallb_forall in F.
      destruct (existsb (fun b => b <? 0) l) eqn:G; [apply existsb_exists in G; destruct G as (v & G1 & G2); exists v; split; [exact G1|lia]|].
      exfalso. apply F. intros x Hx. rewrite Forall_forall in N2. specialize (N2 x Hx). cbn beta in N2.
      rewrite <- not_true_iff_false, existsb_exists in G. destruct (x <? 0) eqn:Ex; [destruct G; eauto|lia]. }
    destruct X as (v & V1 & V2). apply agrees_const; [now apply (rf_negative s l v)|].
    intros e' [H|l0 w H H1 H2|o e0 H H1 H2]; [destruct (H _ N1)|reflexivity|].
    apply N3 in H. subst o. rewrite Forall_forall in H1. specialize (H1 v V1). unfold octet in H1. lia.
Qed.

Lemma pdu_out s st : agrees (set_pdu s st) (pdu_refused (d_strict st) s).
Proof.
  unfold set_pdu. rewrite st_bind_eq. cbn [st_get]. cbn zeta.
  assert (Q : zlen s mod 2 = 0 \/ zlen s mod 2 = 1) by lia.
  assert (Z2 : forall t : list Z, Z.of_nat (length t) = zlen t) by reflexivity.
  destruct Q as [Q|Q].
  - replace (zlen s mod 2 =? 0) with true by lia. rewrite andb_false_r.
    replace (zlen s mod 2 =? 0) with true by lia. cbn [negb]. rewrite st_bind_eq. cbn [assign st_upd].
    eapply agrees_ext; [|apply refused_out; exact Q]. intros e. split; [intros H; now apply pr_even|].
    intros H. inversion H as [s0 A B|s0 c e0 A B C|s0 e0 A B]; subst.
    + rewrite Z2 in A. lia.
    + rewrite zlen_app in Q. rewrite Z2 in A. cbn in Q. lia.
    + exact B.
  - replace (zlen s mod 2 =? 0) with false by lia. cbn [negb]. rewrite andb_true_r.
    destruct (d_strict st) eqn:S; cbn [negb].
    + replace (zlen s mod 2 =? 0) with false by lia. cbn [negb].
      apply agrees_const; [apply pr_odd; [exact Q|reflexivity]|].
      intros e' H. inversion H as [s0 A B|s0 c e0 A B C|s0 e0 A B]; subst; [reflexivity|discriminate B|].
      rewrite Z2 in A. lia.
    + destruct s as [|x s _] using rev_ind; [discriminate Q|]. rewrite removelast_last.
      rewrite zlen_app in Q. change (zlen [x]) with 1 in Q.
      replace (zlen s mod 2 =? 0) with true by lia. cbn [negb]. rewrite st_bind_eq. cbn [assign st_upd].
      eapply agrees_ext; [|apply refused_out; lia]. intros e. split.
      * intros H. apply pr_dropped; [rewrite Z2; lia|reflexivity|exact H].
      * intros H. remember (s ++ [x]) as w eqn:Ew. destruct H as [s0 A B|s0 c e0 A B C|s0 e0 A B].
        -- discriminate B.
        -- apply app_inj_tail in Ew. destruct Ew as (-> & _). exact C.
        -- subst s0. rewrite Z2, zlen_app in A. change (zlen [x]) with 1 in A. lia.
Qed.
