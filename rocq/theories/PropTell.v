(** C108: what is sent tells what the program asked for. *)
From Coq Require Import Lia ZifyBool ZifyNat.
From Verif Require Import Py PyFacts SpecGsm SpecPack SpecAddress SpecTime SpecSubmit Utils Gsm GsmFacts
  PackFacts NumberFacts Submit SubmitClaims SubmitFacts ToPduFacts PropSubmit.
Open Scope Z_scope.
Ltac Zify.zify_post_hook ::= Z.div_mod_to_equations.

Lemma gsm_text_inj us us' g : gsm_text us g -> gsm_text us' g -> us = us'.
Proof. intros H H'. apply gsm_decode_text in H, H'. congruence. Qed.

Lemma single_text coding text text' udl ud :
  single_ud coding text udl ud -> single_ud coding text' udl ud -> text = text'.
Proof.
  intros H H'. inversion H as [tx g u Hg Hl Hp|tx Ho Hl|tx Ho Hl]; subst.
  - inversion H' as [tx' g' u' Hg' Hl' Hp' E1 E2 E3 E4| |]; subst.
    destruct Hp as (_ & _ & V), Hp' as (_ & _ & V').
    assert (g = g') as <-; [|eapply gsm_text_inj; eassumption].
    apply (le_value_inj 128); [lia|exact (gsm_text_septets _ _ Hg)|exact (gsm_text_septets _ _ Hg')|lia|congruence].
  - inversion H' as [|tx' Ho' Hl' E1 E2 E3 E4|]; subst. congruence.
  - inversion H' as [| |tx' Ho' Hl' E1 E2 E3 E4]; subst.
    match goal with E : be16 _ = be16 _ |- _ => rename E into Q end.
    clear - Q Ho Ho'. revert text' Q Ho'. induction Ho as [|x text Hx Ho IH]; intros [|y text'] Q Ho'; try discriminate.
    + reflexivity.
    + cbn [be16] in Q. pose proof (Forall_inv Ho') as Hy. unfold unit16 in *.
      assert (x / 256 = y / 256) by congruence. assert (x mod 256 = y mod 256) by congruence.
      assert (be16 text = be16 text') by congruence.
      assert (x = y) as -> by lia. f_equal. apply IH; [congruence|exact (Forall_inv_tail Ho')].
Qed.

Lemma be16_inj text text' : Forall unit16 text -> Forall unit16 text' ->
  be16 text = be16 text' -> text = text'.
Proof.
  intros Ho. revert text'. induction Ho as [|x text Hx Ho IH]; intros [|y text'] Ho' Q; try discriminate.
  - reflexivity.
  - cbn [be16] in Q. pose proof (Forall_inv Ho') as Hy. unfold unit16 in *.
    assert (x / 256 = y / 256) by congruence. assert (x mod 256 = y mod 256) by congruence.
    assert (x = y) as -> by lia. f_equal. apply IH; [exact (Forall_inv_tail Ho')|congruence].
Qed.

Lemma part_gsm_inv ref total i part udl ud : part_ud 0 ref total i part udl ud ->
  Forall septet part /\ 1 <= Z.of_nat (length part) <= 153 /\
  packed_with_header (concat_header ref total i) part ud /\ udl = 7 + Z.of_nat (length part).
Proof. intros H. inversion H; subst. split; [assumption|]. split; [assumption|]. split; [assumption|reflexivity]. Qed.

Lemma part_8bit_inv ref total i part udl ud : part_ud 4 ref total i part udl ud ->
  ud = concat_header ref total i ++ part.
Proof. intros H. inversion H; subst. reflexivity. Qed.
Lemma part_ucs2_inv ref total i part udl ud : part_ud 8 ref total i part udl ud ->
  Forall unit16 part /\ ud = concat_header ref total i ++ be16 part.
Proof. intros H. inversion H; subst. split; [assumption|reflexivity]. Qed.

Lemma part_part coding ref ref' total i part part' udl ud :
  octet ref -> octet ref' -> octet total -> octet i ->
  part_ud coding ref total i part udl ud -> part_ud coding ref' total i part' udl ud -> part = part'.
Proof.
  intros Or Or' Ot Oi H H'.
  inversion H as [r t j p u Hs Hl Hp|r t j p Hs Hl|r t j p Hs Hl]; subst.
  - apply part_gsm_inv in H' as (Hs' & Hl' & Hp' & Eu).
    assert (zlen part = zlen part') as L by (unfold zlen; lia).
    assert (Forall octet (concat_header ref total i) /\ Forall octet (concat_header ref' total i)) as [O1 O2]
      by (split; repeat constructor; unfold octet in *; lia).
    pose proof (unpack_with_header _ _ ud O1 Hs) as U. pose proof (unpack_with_header _ _ ud O2 Hs') as U'.
    change (zlen (concat_header ref total i)) with 6 in U.
    change (zlen (concat_header ref' total i)) with 6 in U'.
    change (header_septets 6) with 7 in *. unfold zlen in U, U', L.
    rewrite <- (U ltac:(lia) Hp), <- (U' ltac:(lia) Hp'). now rewrite L.
  - apply part_8bit_inv in H'. apply (f_equal (skipn 6)) in H'. exact H'.
  - apply part_ucs2_inv in H' as [Hs' H']. apply (f_equal (skipn 6)) in H'.
    apply be16_inj; assumption.
Qed.

Lemma single_coding c t u ud : single_ud c t u ud -> c = 0 \/ c = 4 \/ c = 8.
Proof. inversion 1; auto. Qed.
Lemma part_coding c r n i p u ud : part_ud c r n i p u ud -> c = 0 \/ c = 4 \/ c = 8.
Proof. inversion 1; auto. Qed.

Lemma dcs_inj c c' k k' : (c = 0 \/ c = 4 \/ c = 8) -> (c' = 0 \/ c' = 4 \/ c' = 8) ->
  match k with None => True | Some k => 0 <= k <= 3 end ->
  match k' with None => True | Some k => 0 <= k <= 3 end ->
  dcs_octet c k = dcs_octet c' k' -> c = c' /\ k = k'.
Proof.
  intros H H' Hk Hk' E. destruct k as [k|], k' as [k'|]; cbn [dcs_octet] in E; split; try lia.
  - f_equal. lia.
  - reflexivity.
Qed.

Lemma carries_same s t coding mr u udl ud coding' mr' u' udl' ud' p q :
  carries s coding mr u udl ud p -> carries t coding' mr' u' udl' ud' q -> p_pdu p = p_pdu q ->
  mr = mr' /\ u = u' /\ udl = udl' /\ ud = ud' /\ s_request_status s = s_request_status t /\
  s_pid s = s_pid t /\ dcs_octet coding (s_klass s) = dcs_octet coding' (s_klass t) /\
  (exists a, destination_of (s_number s) a /\ destination_of (s_number t) a) /\
  (exists a, smsc_of (s_csca s) a /\ smsc_of (s_csca t) a) /\
  exists vpf vp, validity_octets (validity_request (s_validity s)) vpf vp /\
    validity_octets (validity_request (s_validity t)) vpf vp.
Proof.
  intros (o & smsc & da & vpf & vp & E & Ho & P & S & D & V & _)
    (o' & smsc' & da' & vpf' & vp' & E' & Ho' & P' & S' & D' & V' & _) Q.
  assert (o = o') as <- by (apply hex_upper_inj; congruence).
  rewrite P in P'. injection P'. intros. subst.
  repeat (split; [congruence|]). split; [exists da'; auto|]. split; [exists smsc'; auto|].
  exists vpf', vp'. auto.
Qed.

(** C108: if two messages, of any objects, are sent as the same PDUs, then everything
    the programs asked for is the same: the text, the coding, the class, the
    destination, the service centre, the protocol identifier, the status report
    request, the message reference, and the validity as far as a PDU can tell it. *)
Theorem C108_tell : forall s t pdus pdus' s' t',
  reachable s -> validity_ok (s_validity s) ->
  reachable t -> validity_ok (s_validity t) ->
  (coding_of s = 4 -> Forall octet (chars (s_text s)) /\ zlen (chars (s_text s)) <= 140) ->
  (coding_of t = 4 -> Forall octet (chars (s_text t)) /\ zlen (chars (s_text t)) <= 140) ->
  to_pdu s = (Ok pdus, s') -> to_pdu t = (Ok pdus', t') -> map p_pdu pdus = map p_pdu pdus' ->
  chars (s_text s) = chars (s_text t) /\ coding_of s = coding_of t /\ s_klass s = s_klass t /\
  (exists a, destination_of (s_number s) a /\ destination_of (s_number t) a) /\
  (exists a, smsc_of (s_csca s) a /\ smsc_of (s_csca t) a) /\
  s_pid s = s_pid t /\ s_request_status s = s_request_status t /\ message_ref s = message_ref t /\
  exists vpf vp, validity_octets (validity_request (s_validity s)) vpf vp /\
    validity_octets (validity_request (s_validity t)) vpf vp.
Proof.
  intros s t pdus pdus' s' t' Hs Vs Ht Vt O4 O4' E E' Q.
  destruct (reachable_wf _ Hs) as (_ & _ & Ks & _). destruct (reachable_wf _ Ht) as (_ & _ & Kt & _).
  assert (coding_of s = 4 -> Forall octet (chars (s_text s))) as O8 by (intros C; apply (O4 C)).
  assert (coding_of t = 4 -> Forall octet (chars (s_text t))) as O8' by (intros C; apply (O4' C)).
  assert (length pdus = length pdus') as L by (rewrite <- (map_length p_pdu pdus), Q; apply map_length).
  destruct (Z.eq_dec (zlen pdus) 1) as [L1|L1].
  - destruct pdus as [|p [|]]; try (unfold zlen in L1; cbn in L1; lia).
    destruct pdus' as [|q [|]]; try discriminate. injection Q as Q.
    destruct (C22_single_user_data s p s' Hs Vs O8 E) as (udl & ud & C & U).
    destruct (C22_single_user_data t q t' Ht Vt O8' E') as (udl' & ud' & C' & U').
    destruct (carries_same _ _ _ _ _ _ _ _ _ _ _ _ _ _ C C' Q)
      as (Em & _ & Eu & Ed & Er & Ep & Ec & D & S & V).
    destruct (dcs_inj _ _ _ _ (single_coding _ _ _ _ U) (single_coding _ _ _ _ U') Ks Kt Ec) as [Ecd Ek].
    subst udl' ud'. rewrite <- Ecd in U'. pose proof (single_text _ _ _ _ _ U U') as Et.
    repeat (split; [assumption|]). assumption.
  - assert (zlen pdus' <> 1) as L1' by (unfold zlen in *; lia).
    destruct (C16_partition s pdus s' Hs Vs O8 E L1) as (parts & Lp & Pp & Fp & Kp).
    destruct (C16_partition t pdus' t' Ht Vt O8' E' L1') as (parts' & Lp' & Pp' & Fp' & Kp').
    assert (coding_of s <> 4) as N4.
    { intros C. destruct (O4 C) as [_ Hl].
      apply L1. apply (proj1 (C15_threshold s pdus s' (zlen (chars (s_text s))) Hs Vs O8
        ltac:(unfold message_size; rewrite C; reflexivity) E)). rewrite C. exact Hl. }
    assert (coding_of t <> 4) as N4'.
    { intros C. destruct (O4' C) as [_ Hl].
      apply L1'. apply (proj1 (C15_threshold t pdus' t' (zlen (chars (s_text t))) Ht Vt O8'
        ltac:(unfold message_size; rewrite C; reflexivity) E')). rewrite C. exact Hl. }
    destruct (Kp N4) as (Lr & ref & Or & K). destruct (Kp' N4') as (Lr' & ref' & Or' & K').
    assert (zlen pdus' = zlen pdus) as Lz by (unfold zlen; lia). rewrite Lz in K'.
    assert (forall k p q m m', nth_error pdus k = Some p -> nth_error pdus' k = Some q ->
      nth_error parts k = Some m -> nth_error parts' k = Some m' -> p_pdu p = p_pdu q) as Hpq.
    { intros k p q m m' A B _ _. apply (map_nth_error p_pdu) in A, B. congruence. }
    assert (exists p q m m', nth_error pdus 0 = Some p /\ nth_error pdus' 0 = Some q /\
      nth_error parts 0 = Some m /\ nth_error parts' 0 = Some m') as (p & q & m & m' & N1 & N2 & N3 & N4'').
    { destruct pdus as [|p pdus]; [unfold zlen in Lr; cbn in Lr; lia|].
      destruct pdus' as [|q pdus']; [discriminate|].
      destruct parts as [|m parts]; [discriminate|]. destruct parts' as [|m' parts']; [discriminate|].
      exists p, q, m, m'. auto. }
    destruct (K 0%nat p m N1 N3) as (udl & ud & C & U). destruct (K' 0%nat q m' N2 N4'') as (udl' & ud' & C' & U').
    destruct (carries_same _ _ _ _ _ _ _ _ _ _ _ _ _ _ C C' (Hpq _ _ _ _ _ N1 N2 N3 N4''))
      as (Em & _ & Eu & Ed & Er & Ep & Ec & D & S & V).
    destruct (dcs_inj _ _ _ _ (part_coding _ _ _ _ _ _ _ U) (part_coding _ _ _ _ _ _ _ U') Ks Kt Ec) as [Ecd Ek].
    clear p q m m' N1 N2 N3 N4'' udl ud C U udl' ud' C' U' Eu Ed.
    assert (parts = parts') as <-.
    { assert (length parts = length parts') as LL by lia.
      apply nth_ext with (d := []) (d' := []); [exact LL|]. intros k Hk.
      destruct (nth_error pdus k) as [p|] eqn:Np; [|apply nth_error_None in Np; lia].
      destruct (nth_error pdus' k) as [q|] eqn:Nq; [|apply nth_error_None in Nq; lia].
      destruct (nth_error parts k) as [m|] eqn:Nm; [|apply nth_error_None in Nm; lia].
      destruct (nth_error parts' k) as [m'|] eqn:Nm'; [|apply nth_error_None in Nm'; lia].
      rewrite (nth_error_nth _ _ _ Nm), (nth_error_nth _ _ _ Nm').
      destruct (K k p m Np Nm) as (udl & ud & C & U). destruct (K' k q m' Nq Nm') as (udl' & ud' & C' & U').
      destruct (carries_same _ _ _ _ _ _ _ _ _ _ _ _ _ _ C C' (Hpq _ _ _ _ _ Np Nq Nm Nm'))
        as (_ & _ & Eu & Ed & _).
      subst udl' ud'. rewrite <- Ecd in U'.
      apply (part_part (coding_of s) ref ref' (zlen pdus) (1 + Z.of_nat k) m m' udl ud); try assumption;
        unfold octet, zlen in *; lia. }
    assert (chars (s_text s) = chars (s_text t)) as Et.
    { rewrite <- Ecd in Pp'. unfold parts_of in Pp, Pp'. destruct (coding_of s =? 0); [|congruence].
      destruct Pp as (tx & F & <-), Pp' as (tx' & F' & <-). f_equal.
      clear - F F'. revert tx' F'. induction F as [|x g tx gs H F IH]; intros tx' F'; inversion F' as [|x' g' l l' H' F'']; subst.
      - reflexivity.
      - f_equal; [eapply gsm_text_inj; eassumption|now apply IH]. }
    repeat (split; [assumption|]). assumption.
Qed.
Print Assumptions C108_tell.
(** Two objects, one made with another text first, that send the same PDUs. *)
Example C108_case : match new_submit (Some (str "+34666123456")) (PyStr true (str "hola")),
    new_submit (Some (str "+34666123456")) (PyStr true (str "adios")) with
  | Ok s, Ok t => match to_pdu s, to_pdu (with_text (PyStr true (str "hola")) t) with
      | (Ok pdus, _), (Ok pdus', _) => map p_pdu pdus = map p_pdu pdus' /\ zlen pdus = 1
      | _, _ => False end
  | _, _ => False end.
Proof. vm_compute. split; reflexivity. Qed.
