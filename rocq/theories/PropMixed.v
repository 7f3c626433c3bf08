(** Exactly which messages in parts can be told apart, C87. *)
From Coq Require Import Lia ZifyBool ZifyNat Permutation.
From Verif Require Import Py PyFacts SpecGsm SpecPack SpecAddress SpecTime SpecSubmit SpecDeliver
  SpecAssembly Gsm Utils Submit SubmitClaims Udh Deliver DeliverFacts SubmitFacts ToPduFacts
  AssemblyClaims AssemblyFacts MixedFacts PropSubmit PropDeliver PropAssembly.
Open Scope Z_scope.

(** Any number of messages in the GSM alphabet or UCS-2, each in several parts,
    delivered in any order and mixed in any way.  For each of them the parts that
    arrive with its reference number make up its text and no other exactly when any
    two messages with the same reference number have the same text and the same
    coding. *)
Theorem C87_exact : forall sent order received strict,
  Forall (fun m => sent_in_parts (fst m) (snd m)) sent ->
  Permutation order (flat_map (fun m => map (pair (fst m)) (snd m)) sent) ->
  Forall2 (fun q pdu => relayed (fst q) (snd q) pdu) order received ->
  exists ds, Forall2 (fun pdu d => new_deliver pdu strict = Ok d) received ds /\
    ((forall s pdus, In (s, pdus) sent ->
        forall text, assembled (parts_ref s) (flat_map arrival ds) text <-> text = chars (s_text s)) <->
     (forall s pdus s' pdus', In (s, pdus) sent -> In (s', pdus') sent -> parts_ref s = parts_ref s' ->
        chars (s_text s) = chars (s_text s') /\ coding_of s = coding_of s')).
Proof.
  intros sent order received strict Hs P F.
  destruct (arrivals sent order received strict Hs P F) as (ds & HD & HA).
  exists ds. split; [exact HD|]. rewrite Forall_forall in Hs. split.
  - intros H s pdus s' pdus' Hin Hin' Er.
    destruct (proj2 (H s pdus Hin _) eq_refl) as (ts & _ & _ & HT).
    assert (S : forall x px, In (x, px) sent -> parts_ref x = parts_ref s ->
              part_texts (coding_of x) (chars (s_text x)) ts /\ concat ts = chars (s_text x)).
    { intros x px Hx Ex. destruct (texts_exist x px (Hs _ Hx)) as (texts & HP & Hc & Hne).
      assert (G : forall k t, nth_error texts k = Some t ->
                Z.of_nat (length texts) = Z.of_nat (length ts) /\ nth_error ts k = Some t).
      { intros k t Ht.
        destruct (proj1 (HT t (Z.of_nat (length texts)) (1 + Z.of_nat k))) as (A & _ & B).
        - apply HA. exists x, px, texts, k, t. rewrite Ex. auto.
        - replace (Z.to_nat (1 + Z.of_nat k - 1)) with k in B by lia. auto. }
      assert (texts = ts) as <-; [|auto]. apply nth_same; [|intros k t Ht; apply (G k t Ht)].
      destruct texts as [|t0 r]; [congruence|]. destruct (G 0%nat t0 eq_refl). lia. }
    destruct (S s pdus Hin eq_refl) as (A1 & A2).
    destruct (S s' pdus' Hin' (eq_sym Er)) as (B1 & B2).
    split; [congruence|].
    destruct (Hs _ Hin) as (_ & _ & Hc & _), (Hs _ Hin') as (_ & _ & Hc' & _). cbn [fst] in Hc, Hc'.
    destruct Hc as [E|E], Hc' as [E'|E']; rewrite E, E' in *; try reflexivity; exfalso;
      eapply part_texts_apart; eassumption.
  - intros H s pdus Hin.
    assert (A : assembled (parts_ref s) (flat_map arrival ds) (chars (s_text s))).
    { destruct (texts_exist s pdus (Hs _ Hin)) as (texts & HP & Hc & Hne).
      exists texts. split; [exact Hne|]. split; [exact Hc|]. intros t n k. rewrite HA. split.
      - intros (x & px & texts' & j & t' & Hx & HP' & Ht & E).
        assert (Er : parts_ref s = parts_ref x) by (apply (f_equal a_ref) in E; exact E).
        destruct (H s pdus x px Hin Hx Er) as (E1 & E2). rewrite <- E1, <- E2 in HP'.
        assert (texts' = texts) by (eapply part_texts_once; eassumption). subst texts'.
        assert (t = t') by (apply (f_equal a_text) in E; exact E). subst t'.
        assert (n = Z.of_nat (length texts)) by (apply (f_equal a_count) in E; exact E).
        assert (k = 1 + Z.of_nat j) by (apply (f_equal a_place) in E; exact E).
        subst n k. split; [reflexivity|]. split; [lia|].
        replace (Z.to_nat (1 + Z.of_nat j - 1)) with j by lia. exact Ht.
      - intros (-> & Hk & Ht). exists s, pdus, texts, (Z.to_nat (k - 1)), t.
        do 3 (split; [assumption|]). f_equal. lia. }
    intros text. split; [|intros ->; exact A]. intros H'. exact (assembled_unique _ _ _ _ H' A).
Qed.
Print Assumptions C87_exact.

(** Two new objects with different texts: both messages have the reference 1, and
    whichever way their parts arrive, one of them at least is not put together. *)
Example C87_exact_case :
  let a := sample (PyStr true (repeat 97 170)) in
  let b := sample (PyStr true (repeat 98 170)) in
  exists pa pb, sent_in_parts a pa /\ sent_in_parts b pb /\ parts_ref a = parts_ref b /\
    (exists received, Forall2 (fun q pdu => relayed (fst q) (snd q) pdu)
       (map (pair a) pa ++ map (pair b) pb) received) /\
    forall received ds strict,
      Forall2 (fun q pdu => relayed (fst q) (snd q) pdu) (map (pair a) pa ++ map (pair b) pb) received ->
      Forall2 (fun pdu d => new_deliver pdu strict = Ok d) received ds ->
      ~ forall s pdus, In (s, pdus) [(a, pa); (b, pb)] ->
          forall text, assembled (parts_ref s) (flat_map arrival ds) text <-> text = chars (s_text s).
Proof.
  assert (G : forall s, reachable s -> validity_ok (s_validity s) ->
            (coding_of s = 0 \/ coding_of s = 8) ->
            match to_pdu s with (Ok l, _) => zlen l = 2 | _ => False end ->
            exists l, sent_in_parts s l).
  { intros s H Hv Hc. destruct (to_pdu s) as [[l|e] s'] eqn:E; [|contradiction].
    intros Hl. exists l. split; [exact H|]. split; [exact Hv|].
    split; [exact Hc|]. split; [eauto|]. lia. }
  cbv zeta.
  destruct (G (sample (PyStr true (repeat 97 170)))) as (pa & Ha);
    [apply sample_reachable|exact I|left; vm_compute; reflexivity|vm_compute; reflexivity|].
  destruct (G (sample (PyStr true (repeat 98 170)))) as (pb & Hb);
    [apply sample_reachable|exact I|left; vm_compute; reflexivity|vm_compute; reflexivity|].
  exists pa, pb. split; [exact Ha|]. split; [exact Hb|]. split; [reflexivity|]. split.
  { assert (R : forall s l, sent_in_parts s l -> forall l', (forall p, In p l' -> In p l) ->
              exists r, Forall2 (fun q pdu => relayed (fst q) (snd q) pdu) (map (pair s) l') r).
    { intros s l Hl l'. induction l' as [|p l' IH]; intros Hi; [exists []; constructor|].
      destruct IH as (r & Hr); [intros q Hq; apply Hi; now right|].
      destruct (In_nth_error l p (Hi p (or_introl eq_refl))) as (k & Hk).
      destruct (C87_relayed s l k p Hl Hk) as (pdu & Hp). exists (pdu :: r). now constructor. }
    destruct (R _ pa Ha pa (fun _ x => x)) as (r1 & H1), (R _ pb Hb pb (fun _ x => x)) as (r2 & H2).
    exists (r1 ++ r2). now apply Forall2_app. }
  intros received ds strict F HD H.
  destruct (C87_exact [(sample (PyStr true (repeat 97 170)), pa); (sample (PyStr true (repeat 98 170)), pb)]
    (map (pair (sample (PyStr true (repeat 97 170)))) pa ++ map (pair (sample (PyStr true (repeat 98 170)))) pb)
    received strict) as (ds' & HD' & HE).
  - constructor; [exact Ha|]. constructor; [exact Hb|constructor].
  - cbn [flat_map fst snd]. rewrite app_nil_r. apply Permutation_refl.
  - exact F.
  - assert (ds' = ds) as ->.
    { clear - HD HD'. revert ds HD. induction HD' as [|x y l l' Hx _ IH]; intros ds HD;
        inversion HD as [|x' y' k k' Hy HD2 E1 E2]; subst; [reflexivity|]. f_equal; [congruence|auto]. }
    destruct (proj1 HE H _ pa _ pb (or_introl eq_refl) (or_intror (or_introl eq_refl)) eq_refl) as (X & _).
    apply (f_equal (hd 0)) in X. cbn in X. discriminate.
Qed.
