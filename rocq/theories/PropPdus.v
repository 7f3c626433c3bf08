(** C124: every character of the PDUs [SmsSubmit.to_pdu] returns. *)
From Coq Require Import Lia ZifyBool ZifyNat.
From Verif Require Import Py PyFacts SpecGsm SpecPack SpecAddress SpecTime SpecSubmit SpecCuts SpecUnsent SpecPdus
  Gsm GsmFacts Utils PackFacts ValidityFacts Submit SubmitClaims NumberFacts SplitFacts SubmitFacts
  ToPduFacts PropCuts UnsentFacts PropSubmit PropUnsent PdusFacts.
Open Scope Z_scope.
Ltac Zify.zify_post_hook ::= Z.div_mod_to_equations.

(** Whatever is returned is what SpecPdus.v says: octets before the user data, user
    data, length, number and count of every PDU.  Characters are not negative. *)
Theorem C124_characters : forall s pdus s', reachable s -> python_date (s_validity s) ->
  Forall (fun c => 0 <= c) (chars (s_text s)) ->
  to_pdu s = (Ok pdus, s') -> pdus_written s pdus.
Proof.
  intros s pdus s' H Hv Hc E. eapply to_pdu_written; [apply reachable_wf; exact H|exact Hv|auto|exact E].
Qed.
Print Assumptions C124_characters.

(** * SpecPdus.v leaves no choice *)

Lemma semi_once ds o1 : semi_octets ds o1 -> forall o2, semi_octets ds o2 -> o1 = o2.
Proof.
  induction 1 as [|a Ha|a b ds os Ha Hb H IH]; intros o2 H2; inversion H2; subst; try reflexivity.
  f_equal. auto.
Qed.

Lemma syntax_once i1 d1 i2 d2 n : number_syntax i1 d1 n -> number_syntax i2 d2 n -> i1 = i2 /\ d1 = d2.
Proof.
  intros H1 H2. pose proof (clean_number_syntax _ _ _ H1) as E. rewrite (clean_number_syntax _ _ _ H2) in E.
  destruct H1 as (F1 & L1 & _), H2 as (F2 & L2 & _).
  destruct i1, i2; cbn [app] in E.
  - split; [reflexivity|congruence].
  - subst d2. inversion F2 as [|? ? X]; subst. unfold digit_char in X. lia.
  - subst d1. inversion F1 as [|? ? X]; subst. unfold digit_char in X. lia.
  - auto.
Qed.

Lemma centre_once n a b : centre_written n a -> centre_written n b -> a = b.
Proof.
  intros H1 H2. destruct H1 as [H1|n1 i1 d1 o1 E1 S1 O1], H2 as [H2|n2 i2 d2 o2 E2 S2 O2].
  - reflexivity.
  - destruct H1 as [H1|H1]; [congruence|]. assert (n2 = []) as -> by congruence.
    destruct S2 as (_ & L & nl & _ & E). destruct i2; [discriminate|]. destruct d2; [cbn in L; lia|discriminate].
  - destruct H2 as [H2|H2]; [congruence|]. assert (n1 = []) as -> by congruence.
    destruct S1 as (_ & L & nl & _ & E). destruct i1; [discriminate|]. destruct d1; [cbn in L; lia|discriminate].
  - assert (n2 = n1) as -> by congruence. destruct (syntax_once _ _ _ _ _ S1 S2) as [-> ->].
    now rewrite (semi_once _ _ O1 _ O2).
Qed.

Lemma destination_once n a b : destination_written n a -> destination_written n b -> a = b.
Proof.
  intros [n1 i1 d1 o1 E1 S1 O1] [n2 i2 d2 o2 E2 S2 O2].
  assert (n2 = n1) as -> by congruence. destruct (syntax_once _ _ _ _ _ S1 S2) as [-> ->].
  now rewrite (semi_once _ _ O1 _ O2).
Qed.

Lemma validity_once v a b : validity_written v a -> validity_written v b -> a = b.
Proof.
  intros H1 H2. inversion H1; subst; inversion H2; subst; try reflexivity.
  f_equal. match goal with
  | A : octet ?x, B : octet ?y, MA : forall o', octet o' -> _ -> o' <= ?x,
    MB : forall o', octet o' -> _ -> o' <= ?y |- ?x = ?y =>
      pose proof (MA y B ltac:(assumption)); pose proof (MB x A ltac:(assumption)); lia
  end.
Qed.

Lemma front_once s several c ca fa cb fb :
  front_written s several c ca fa -> front_written s several c cb fb -> ca = cb /\ fa = fb.
Proof.
  intros [c1 d1 v1 A1 A2 A3] [c2 d2 v2 B1 B2 B3].
  rewrite (centre_once _ _ _ A1 B1), (destination_once _ _ _ A2 B2), (validity_once _ _ _ A3 B3). auto.
Qed.

Lemma base16_bounds ds : Forall (fun d => 0 <= d < 16) ds -> 0 <= base16 ds < 16 ^ Z.of_nat (length ds).
Proof.
  induction 1 as [|d ds Hd _ IH]; [cbn; lia|]. unfold base16. cbn [fold_left length].
  rewrite base16_from. rewrite Nat2Z.inj_succ, Z.pow_succ_r by lia. nia.
Qed.
Lemma base16_cons d ds : base16 (d :: ds) = 16 ^ Z.of_nat (length ds) * d + base16 ds.
Proof. unfold base16 at 1. cbn [fold_left]. rewrite base16_from. lia. Qed.

Lemma base16_inj : forall a b, length a = length b -> Forall (fun d => 0 <= d < 16) a ->
  Forall (fun d => 0 <= d < 16) b -> base16 a = base16 b -> a = b.
Proof.
  induction a as [|x a IH]; intros [|y b] L Fa Fb E; try discriminate; [reflexivity|].
  injection L as L. inversion Fa; subst. inversion Fb; subst.
  rewrite !base16_cons, <- L in E.
  pose proof (base16_bounds a ltac:(assumption)) as Ba. pose proof (base16_bounds b ltac:(assumption)) as Bb.
  rewrite <- L in Bb. assert (x = y) as -> by nia. f_equal. apply IH; auto. lia.
Qed.

Lemma base16_least ds : Forall (fun d => 0 <= d < 16) ds -> (2 < length ds)%nat -> hd 0 ds <> 0 ->
  16 ^ (Z.of_nat (length ds) - 1) <= base16 ds.
Proof.
  intros F L H. destruct ds as [|d ds]; [cbn in L; lia|]. inversion F; subst. cbn [hd] in H.
  rewrite base16_cons. pose proof (base16_bounds ds ltac:(assumption)).
  replace (Z.of_nat (length (d :: ds)) - 1) with (Z.of_nat (length ds)) by (cbn [length]; lia). nia.
Qed.

Lemma lengths_ordered a b : Forall (fun d => 0 <= d < 16) a -> Forall (fun d => 0 <= d < 16) b ->
  base16 a = base16 b -> (length b = 2%nat \/ ((2 < length b)%nat /\ hd 0 b <> 0)) ->
  (length a < length b)%nat -> length a = 2%nat \/ (2 < length a)%nat -> False.
Proof.
  intros Fa Fb E [Hb|[Hb Hh]] L La; [lia|].
  pose proof (base16_bounds a Fa) as Ba. pose proof (base16_least b Fb Hb Hh) as Bb.
  assert (16 ^ Z.of_nat (length a) <= 16 ^ (Z.of_nat (length b) - 1)) by (apply Z.pow_le_mono_r; lia). lia.
Qed.

Lemma hex_once n a b : in_hex n a -> in_hex n b -> a = b.
Proof.
  intros [d1 F1 B1 L1] [d2 F2 B2 L2]. f_equal. apply base16_inj; try assumption; [|congruence].
  destruct (lt_eq_lt_dec (length d1) (length d2)) as [[L|L]|L]; [|exact L|].
  - exfalso. apply (lengths_ordered d1 d2); try assumption; [congruence|lia].
  - exfalso. apply (lengths_ordered d2 d1); try assumption; [congruence|lia].
Qed.
Lemma hexes_once l a : Forall2 in_hex l a -> forall b, Forall2 in_hex l b -> a = b.
Proof.
  induction 1 as [|x y l a H F IH]; intros b Hb; inversion Hb; subst; [reflexivity|].
  f_equal; [eapply hex_once; eassumption|auto].
Qed.

Lemma data_once t c a b : data_written t c a -> data_written t c b -> a = b.
Proof.
  intros H1 H2. inversion H1; subst; inversion H2; subst.
  - match goal with A : gsm_text t ?g, B : gsm_text t ?g' |- _ => assert (g' = g) as -> by (eapply gsm_text_det; eassumption) end.
    match goal with A : packed ?g ?u, B : packed ?g ?u' |- _ => now rewrite (packed_unique _ _ _ A B) end.
  - do 2 f_equal. eapply hexes_once; eassumption.
  - reflexivity.
Qed.

Lemma header_packed_once hd s o1 o2 : packed_with_header hd s o1 -> packed_with_header hd s o2 -> o1 = o2.
Proof.
  intros (H1 & L1 & V1) (H2 & L2 & V2).
  apply (le_value_inj 256); try assumption; [lia|lia|congruence].
Qed.

Lemma part_once ref total i p c a b : part_user_data ref total i p c a -> part_user_data ref total i p c b -> a = b.
Proof.
  intros H1 H2. inversion H1; subst; inversion H2; subst.
  - match goal with A : packed_with_header ?h p ?u, B : packed_with_header ?h p ?u' |- _ =>
      now rewrite (header_packed_once _ _ _ _ A B) end.
  - do 2 f_equal. eapply hexes_once; eassumption.
  - reflexivity.
Qed.

Lemma cuts_once w t a b : (2 <= w)%nat -> Cuts w t a -> Cuts w t b -> a = b.
Proof.
  intros Hw A B. rewrite (cuts_cut w Hw _ _ A (length t) (le_n _)). symmetry. now apply cuts_cut.
Qed.

Lemma cut_into_once t c a b : cut_into t c a -> cut_into t c b -> a = b.
Proof.
  intros H1 H2. inversion H1; subst; inversion H2; subst.
  - match goal with A : gsm_text t ?g, B : gsm_text t ?g' |- _ => assert (g' = g) as -> by (eapply gsm_text_det; eassumption) end.
    eapply (cuts_once 153); [lia|eassumption|eassumption].
  - eapply (cuts_once 134); [lia|eassumption|eassumption].
  - eapply (cuts_once 67); [lia|eassumption|eassumption].
Qed.

Lemma not_both t c data parts : data_written t c data -> cut_into t c parts -> False.
Proof.
  intros H1 H2. inversion H1; subst; inversion H2; subst; try lia.
  match goal with A : gsm_text t ?g, B : gsm_text t ?g' |- _ => assert (g' = g) as -> by (eapply gsm_text_det; eassumption) end.
  lia.
Qed.

(** So the PDUs are determined by the attributes of the message. *)
Theorem C124_once : forall s a b, pdus_written s a -> pdus_written s b -> a = b.
Proof.
  intros s a b H1 H2.
  destruct H1 as [c1 ce1 f1 da1 S1 F1 D1|c1 ce1 f1 ps1 pd1 S1 F1 D1 L1 P1],
           H2 as [c2 ce2 f2 da2 S2 F2 D2|c2 ce2 f2 ps2 pd2 S2 F2 D2 L2 P2];
    assert (c2 = c1) as -> by (apply sent_in_coding in S1, S2; congruence).
  - destruct (front_once _ _ _ _ _ _ _ F1 F2) as [-> ->]. now rewrite (data_once _ _ _ _ D1 D2).
  - exfalso. eapply not_both; eassumption.
  - exfalso. eapply not_both; eassumption.
  - destruct (front_once _ _ _ _ _ _ _ F1 F2) as [-> ->].
    assert (ps2 = ps1) as -> by (eapply cut_into_once; eassumption).
    apply (nth_ext pd1 pd2 (Pdu [] 0 0 0) (Pdu [] 0 0 0)); [congruence|]. intros k Hk.
    assert (Hk2 : (k < length pd2)%nat) by lia.
    destruct (nth_error ps1 k) as [part|] eqn:Ep; [|apply nth_error_None in Ep; lia].
    destruct (P1 k part _ Ep (nth_error_nth' pd1 (Pdu [] 0 0 0) Hk)) as (u1 & U1 & ->).
    destruct (P2 k part _ Ep (nth_error_nth' pd2 (Pdu [] 0 0 0) Hk2)) as (u2 & U2 & ->).
    now rewrite (part_once _ _ _ _ _ _ _ U1 U2).
Qed.
Print Assumptions C124_once.

(** With C115 this is all [to_pdu] does: it returns these PDUs just when the message
    has none of the defects of SpecUnsent.v. *)
Theorem C124_exact : forall s pdus, reachable s -> python_date (s_validity s) ->
  Forall (fun c => 0 <= c) (chars (s_text s)) ->
  ((exists s', to_pdu s = (Ok pdus, s')) <-> (forall e, ~ unsendable s e) /\ pdus_written s pdus).
Proof.
  intros s pdus H Hv Hc. destruct (C115_exact s H Hv) as [X _]. split.
  - intros (s' & E). split; [apply X; eauto|]. eapply C124_characters; eassumption.
  - intros (N & W). apply X in N as (pdus' & s' & E). exists s'.
    rewrite E. rewrite (C124_once s pdus pdus'); [reflexivity|exact W|].
    eapply C124_characters; eassumption.
Qed.
Print Assumptions C124_exact.

(** A message through a service centre, valid until a date an hour and a half behind
    UTC, with a status report. *)
Definition dated : submit :=
  with_request_status true (with_ref (Some 300) (with_fmt (Some 4)
    (with_validity (Absolute (Datetime 2012 3 7 18 45 9 (Some (-90))))
      (snd (set_csca (Some (str "+34646456456")) (sample (PyStr true [71; 252; 20013]))))))).
Example C124_dated_case :
  let pdus := [Pdu (str "07914346466554F6392C0B914316565811F90004213070815490680347FC4E2D") 24 1 1] in
  reachable dated /\ python_date (s_validity dated) /\ Forall (fun c => 0 <= c) (chars (s_text dated)) /\
  (exists s', to_pdu dated = (Ok pdus, s')) /\ pdus_written dated pdus.
Proof.
  intros pdus. assert (R : reachable dated) by (apply r_status, r_ref, r_fmt, r_validity, r_csca, sample_reachable).
  assert (V : python_date (s_validity dated)).
  { intros d X. injection X as <-. split; [unfold valid_civil; cbn; lia|]. intros m Y. injection Y as <-. lia. }
  assert (F : Forall (fun c => 0 <= c) (chars (s_text dated))) by (repeat constructor; discriminate).
  assert (E : exists s', to_pdu dated = (Ok pdus, s')) by (eexists; vm_compute; reflexivity).
  split; [exact R|]. split; [exact V|]. split; [exact F|]. split; [exact E|].
  apply (C124_exact dated pdus R V F). exact E.
Qed.

(** A text of 71 characters outside the GSM alphabet goes in two, with the reference
    that is the second to be drawn. *)
Definition in_two : submit := sample (PyStr true (repeat 20013 71)).
Example C124_two_case :
  reachable in_two /\
  (exists s' a b, to_pdu in_two = (Ok [a; b], s') /\ pdus_written in_two [a; b] /\
     firstn 42 (p_pdu b) = str "0041000B914316565811F900080E0500030102024E" /\
     p_length b = 27 /\ p_cnt b = 2 /\ p_seq b = 2).
Proof.
  assert (R : reachable in_two) by apply sample_reachable. split; [exact R|].
  assert (F : Forall (fun c => 0 <= c) (chars (s_text in_two))).
  { apply Forall_forall. intros c H. apply repeat_spec in H. lia. }
  assert (V : python_date (s_validity in_two)) by (intros d X; discriminate).
  assert (E : exists s' a b, to_pdu in_two = (Ok [a; b], s') /\
     firstn 42 (p_pdu b) = str "0041000B914316565811F900080E0500030102024E" /\
     p_length b = 27 /\ p_cnt b = 2 /\ p_seq b = 2).
  { do 3 eexists. split; [vm_compute; reflexivity|]. vm_compute. auto. }
  destruct E as (s' & a & b & E & X). exists s', a, b. split; [exact E|].
  split; [exact (C124_characters _ _ _ R V F E)|exact X].
Qed.
