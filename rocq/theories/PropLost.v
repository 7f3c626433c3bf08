(** Parts that are lost or arrive twice, C131. *)
From Coq Require Import Lia ZifyBool ZifyNat Permutation.
From Verif Require Import Py PyFacts SpecGsm SpecPack SpecAddress SpecTime SpecSubmit SpecDeliver
  SpecAssembly Gsm Utils Submit SubmitClaims Udh Deliver DeliverFacts SubmitFacts ToPduFacts
  AssemblyClaims AssemblyFacts MixedFacts PropSubmit PropDeliver PropAssembly.
Open Scope Z_scope.

(** What arrives of a list of parts, whichever they are. *)
Lemma arrivals_of sent order received strict :
  Forall (fun m => sent_in_parts (fst m) (snd m)) sent ->
  (forall s p, In (s, p) order -> exists pdus, In (s, pdus) sent /\ In p pdus) ->
  Forall2 (fun q pdu => relayed (fst q) (snd q) pdu) order received ->
  exists ds, Forall2 (fun pdu d => new_deliver pdu strict = Ok d) received ds /\
    forall a, In a (flat_map arrival ds) <->
      exists s pdus texts k t p, In (s, pdus) sent /\ nth_error pdus k = Some p /\ In (s, p) order /\
        part_texts (coding_of s) (chars (s_text s)) texts /\ nth_error texts k = Some t /\
        a = Arrived t (parts_ref s) (Z.of_nat (length texts)) (1 + Z.of_nat k).
Proof.
  intros Hs P F. rewrite Forall_forall in Hs.
  assert (Q : forall q, In q order -> exists pdus k, In (fst q, pdus) sent /\
            nth_error pdus k = Some (snd q)).
  { intros (s & p) Hq. destruct (P s p Hq) as (pdus & Hm & Hp).
    apply In_nth_error in Hp. destruct Hp as (k & Hk). exists pdus, k. auto. }
  assert (D : exists ds, Forall2 (fun pdu d => new_deliver pdu strict = Ok d) received ds).
  { clear P. induction F as [|q pdu order received Hr F IH]; [exists []; constructor|].
    destruct IH as (ds & Hds); [intros q' Hq'; apply Q; now right|].
    destruct (Q q (or_introl eq_refl)) as (pdus & k & Hin & Hk).
    destruct (relayed_parts _ _ (Hs _ Hin)) as (texts & _ & _ & HT).
    destruct (HT k _ pdu strict Hk Hr) as (d & t & Ed & _). exists (d :: ds). now constructor. }
  destruct D as (ds & HD). exists ds. split; [exact HD|]. intros a. rewrite in_flat_map. split.
  - intros (d & Hd & Ha).
    destruct (Forall2_In_r _ _ _ _ HD Hd) as (pdu & Hpdu & Ed).
    destruct (Forall2_In_r _ _ _ _ F Hpdu) as ((s & p) & Hq & Hr). cbn [fst snd] in Hr.
    destruct (Q _ Hq) as (pdus & j & Hin & Hj). cbn [fst snd] in Hin, Hj.
    destruct (relayed_texts s pdus (Hs _ Hin)) as (texts & HP & Hl & _ & _ & HT).
    destruct (HT j p pdu strict Hj Hr) as (d1 & t1 & Ed1 & Ht1 & Ea).
    assert (d1 = d) by congruence. subst d1. rewrite Ea in Ha. destruct Ha as [<-|[]].
    exists s, pdus, texts, j, t1, p. unfold zlen. rewrite Hl. auto 10.
  - intros (s & pdus & texts & k & t & p & Hin & Ep & Hq & HP & Ht & ->).
    destruct (relayed_texts s pdus (Hs _ Hin)) as (texts' & HP' & Hl & _ & _ & HT).
    assert (texts' = texts) by (eapply part_texts_once; eassumption). subst texts'.
    destruct (Forall2_In_l _ _ _ _ F Hq) as (pdu & Hpdu & Hr). cbn [fst snd] in Hr.
    destruct (Forall2_In_l _ _ _ _ HD Hpdu) as (d & Hd & Ed).
    destruct (HT k p pdu strict Ep Hr) as (d1 & t1 & Ed1 & Ht1 & Ea).
    assert (d1 = d) by congruence. subst d1. assert (t1 = t) by congruence. subst t1.
    exists d. split; [exact Hd|]. rewrite Ea. left. unfold zlen. now rewrite Hl.
Qed.

(** Any number of messages with different reference numbers, in the GSM alphabet or
    UCS-2, each in several parts.  Of these parts any arrive, in any order, some of
    them perhaps more than once and some not at all.  Then the parts with the
    reference of a message make up a text exactly when all parts of it have arrived,
    and that text is the one sent. *)
Theorem C131_complete : forall sent order received strict,
  Forall (fun m => sent_in_parts (fst m) (snd m)) sent ->
  NoDup (map (fun m => parts_ref (fst m)) sent) ->
  (forall s p, In (s, p) order -> exists pdus, In (s, pdus) sent /\ In p pdus) ->
  Forall2 (fun q pdu => relayed (fst q) (snd q) pdu) order received ->
  exists ds, Forall2 (fun pdu d => new_deliver pdu strict = Ok d) received ds /\
    forall s pdus, In (s, pdus) sent -> forall text,
      assembled (parts_ref s) (flat_map arrival ds) text <->
      text = chars (s_text s) /\ forall p, In p pdus -> In (s, p) order.
Proof.
  intros sent order received strict Hs N P F.
  destruct (arrivals_of sent order received strict Hs P F) as (ds & HD & HA).
  exists ds. split; [exact HD|]. intros s pdus Hin. pose proof Hs as Hs'. rewrite Forall_forall in Hs'.
  destruct (relayed_texts s pdus (Hs' _ Hin)) as (texts & HP & Hl & Hc & Hne & _).
  assert (A : forall t n k, In (Arrived t (parts_ref s) n k) (flat_map arrival ds) <->
    exists j p, nth_error pdus j = Some p /\ In (s, p) order /\ nth_error texts j = Some t /\
      n = Z.of_nat (length texts) /\ k = 1 + Z.of_nat j).
  { intros t n k. rewrite HA. split.
    - intros (x & px & texts' & j & t' & p & Hx & Hp & Hq & HP' & Ht & E).
      assert (Er : parts_ref s = parts_ref x) by (apply (f_equal a_ref) in E; exact E).
      assert (EE : (x, px) = (s, pdus)) by (eapply NoDup_map_inj; eauto).
      apply pair_equal_spec in EE. destruct EE as (-> & ->).
      assert (texts' = texts) by (eapply part_texts_once; eassumption). subst texts'.
      assert (t = t') by (apply (f_equal a_text) in E; exact E). subst t'.
      exists j, p. do 3 (split; [assumption|]).
      split; [apply (f_equal a_count) in E; exact E|apply (f_equal a_place) in E; exact E].
    - intros (j & p & Hp & Hq & Ht & -> & ->). exists s, pdus, texts, j, t, p. auto 10. }
  intros text. split.
  - intros (ts & Hn & <- & HT).
    assert (L : length ts = length texts /\ forall k t, nth_error ts k = Some t ->
              nth_error texts k = Some t /\ exists p, nth_error pdus k = Some p /\ In (s, p) order).
    { assert (G : forall k t, nth_error ts k = Some t ->
        Z.of_nat (length ts) = Z.of_nat (length texts) /\ nth_error texts k = Some t /\
        exists p, nth_error pdus k = Some p /\ In (s, p) order).
      { intros k t Ht. destruct (proj1 (A t (Z.of_nat (length ts)) (1 + Z.of_nat k))) as (j & p & H1 & H2 & H3 & H4 & H5).
        - apply HT. split; [reflexivity|]. split; [lia|].
          replace (Z.to_nat (1 + Z.of_nat k - 1)) with k by lia. exact Ht.
        - assert (j = k) by lia. subst j. eauto. }
      split; [|intros k t Ht; apply (G k t Ht)].
      destruct ts as [|t0 r]; [congruence|]. destruct (G 0%nat t0 eq_refl). lia. }
    destruct L as (L & G). split.
    + rewrite <- Hc. f_equal. apply nth_same; [exact L|]. intros k t Ht. apply (G k t Ht).
    + intros p Hp. apply In_nth_error in Hp. destruct Hp as (k & Hk).
      assert (k < length pdus)%nat as Hlk by (apply nth_error_Some; congruence).
      destruct (nth_error ts k) as [t|] eqn:Et; [|apply nth_error_None in Et; lia].
      destruct (G k t Et) as (_ & p' & Hp' & Hq). congruence.
  - intros (-> & Hall). exists texts. split; [exact Hne|]. split; [exact Hc|].
    intros t n k. rewrite A. split.
    + intros (j & p & _ & _ & Ht & -> & ->). split; [reflexivity|]. split; [lia|].
      replace (Z.to_nat (1 + Z.of_nat j - 1)) with j by lia. exact Ht.
    + intros (-> & Hk & Ht). set (j := Z.to_nat (k - 1)) in *.
      assert (j < length texts)%nat as Hj by (apply nth_error_Some; congruence).
      destruct (nth_error pdus j) as [p|] eqn:Ep; [|apply nth_error_None in Ep; lia].
      exists j, p. split; [exact Ep|]. split; [apply Hall; eapply nth_error_In; eassumption|].
      split; [exact Ht|]. split; [reflexivity|lia].
Qed.
Print Assumptions C131_complete.

(** Two messages with different references; of the first one the second part is
    lost, of the second one the first part arrives twice and after the second.
    Nothing is made of the first, the second is read. *)
Example C131_case :
  let a := with_rand_id (Some 7) (sample (PyStr true (repeat 97 170))) in
  let b := with_rand_id (Some 8) (sample (PyStr true (repeat 20013 80))) in
  exists pa pb a1 a2 b1 b2, pa = [a1; a2] /\ pb = [b1; b2] /\ sent_in_parts a pa /\ sent_in_parts b pb /\
    (exists received, Forall2 (fun q pdu => relayed (fst q) (snd q) pdu)
       [(b, b2); (a, a1); (b, b1); (b, b1)] received) /\
    forall received strict,
      Forall2 (fun q pdu => relayed (fst q) (snd q) pdu) [(b, b2); (a, a1); (b, b1); (b, b1)] received ->
      exists ds, Forall2 (fun pdu d => new_deliver pdu strict = Ok d) received ds /\
        (forall text, ~ assembled 7 (flat_map arrival ds) text) /\
        (forall text, assembled 8 (flat_map arrival ds) text <-> text = repeat 20013 80).
Proof.
  cbv zeta. set (a := with_rand_id (Some 7) _). set (b := with_rand_id (Some 8) _).
  assert (G : forall s, reachable s -> validity_ok (s_validity s) ->
            (coding_of s = 0 \/ coding_of s = 8) ->
            match to_pdu s with (Ok [p; q], _) => negb (Z.eqb (p_seq p) (p_seq q)) | _ => false end = true ->
            exists p q, sent_in_parts s [p; q] /\ p_seq p <> p_seq q).
  { intros s H Hv Hc. destruct (to_pdu s) as [[l|e] s'] eqn:E; [|discriminate].
    destruct l as [|p [|q [|x l]]]; try discriminate. intros Hn. exists p, q. split; [|lia].
    split; [exact H|]. split; [exact Hv|]. split; [exact Hc|]. split; [eauto|]. discriminate. }
  destruct (G a) as (a1 & a2 & Ha & Na);
    [apply r_rand_id, sample_reachable|exact I|left; vm_compute; reflexivity|vm_compute; reflexivity|].
  destruct (G b) as (b1 & b2 & Hb & Nb);
    [apply r_rand_id, sample_reachable|exact I|right; vm_compute; reflexivity|vm_compute; reflexivity|].
  exists [a1; a2], [b1; b2], a1, a2, b1, b2. do 2 (split; [reflexivity|]).
  split; [exact Ha|]. split; [exact Hb|]. split.
  { destruct (C87_relayed a _ 0 a1 Ha eq_refl) as (x1 & X1).
    destruct (C87_relayed b _ 0 b1 Hb eq_refl) as (y1 & Y1).
    destruct (C87_relayed b _ 1 b2 Hb eq_refl) as (y2 & Y2).
    exists [y2; x1; y1; y1]. repeat (constructor; [assumption|]). constructor. }
  intros received strict F.
  destruct (C131_complete [(a, [a1; a2]); (b, [b1; b2])] [(b, b2); (a, a1); (b, b1); (b, b1)] received strict)
    as (ds & HD & H).
  - constructor; [exact Ha|]. constructor; [exact Hb|constructor].
  - cbn. constructor; [|constructor; [intros []|constructor]]. intros [E|[]]. vm_compute in E. discriminate.
  - intros s p Hq. cbn [In] in Hq.
    destruct Hq as [E|[E|[E|[E|[]]]]]; apply pair_equal_spec in E; destruct E as (<- & <-);
      [exists [b1; b2]|exists [a1; a2]|exists [b1; b2]|exists [b1; b2]]; cbn [In]; auto.
  - exact F.
  - assert (Nab : a <> b) by (intros E; apply (f_equal s_rand_id) in E; discriminate E).
    exists ds. split; [exact HD|]. split.
    + intros text HT. apply (H a [a1; a2] (or_introl eq_refl)) in HT. destruct HT as (_ & HT).
      specialize (HT a2 (or_intror (or_introl eq_refl))). cbn [In] in HT.
      destruct HT as [E|[E|[E|[E|[]]]]]; apply pair_equal_spec in E; destruct E as (E1 & E2);
        congruence.
    + intros text. split.
      * intros HT. apply (H b [b1; b2] (or_intror (or_introl eq_refl))) in HT. exact (proj1 HT).
      * intros ->. apply (H b [b1; b2] (or_intror (or_introl eq_refl))). split; [reflexivity|].
        cbn [In]. intros p [<-|[<-|[]]]; auto.
Qed.
