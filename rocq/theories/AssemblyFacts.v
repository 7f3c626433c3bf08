(** Facts for C87. *)
From Coq Require Import Lia ZifyBool ZifyNat Permutation.
From Verif Require Import Py PyFacts SpecGsm SpecPack SpecAddress SpecTime SpecSubmit SpecDeliver
  SpecAssembly Gsm GsmFacts Utils PackFacts ValidityFacts Submit SubmitClaims NumberFacts SplitFacts
  SubmitFacts ToPduFacts Udh Deliver DeliverFacts AssemblyClaims.
Open Scope Z_scope.

Lemma assembled_unique ref parts t t' :
  assembled ref parts t -> assembled ref parts t' -> t = t'.
Proof.
  intros (ts & Hne & <- & H) (ts' & Hne' & <- & H'). f_equal.
  assert (L : forall k t, nth_error ts k = Some t <-> nth_error ts' k = Some t).
  { assert (G : forall ts ts', 
      (forall t n k, In (Arrived t ref n k) parts <-> n = Z.of_nat (length ts) /\ 1 <= k /\
         nth_error ts (Z.to_nat (k - 1)) = Some t) ->
      (forall t n k, In (Arrived t ref n k) parts <-> n = Z.of_nat (length ts') /\ 1 <= k /\
         nth_error ts' (Z.to_nat (k - 1)) = Some t) ->
      forall k t, nth_error ts k = Some t -> nth_error ts' k = Some t).
    { clear. intros ts ts' H H' k t E.
      assert (I : In (Arrived t ref (Z.of_nat (length ts)) (1 + Z.of_nat k)) parts).
      { apply H. split; [reflexivity|]. split; [lia|].
        replace (Z.to_nat (1 + Z.of_nat k - 1)) with k by lia. exact E. }
      apply H' in I. destruct I as (_ & _ & I).
      replace (Z.to_nat (1 + Z.of_nat k - 1)) with k in I by lia. exact I. }
    intros k t. split; apply G; assumption. }
  clear - L. revert ts' L. induction ts as [|x ts IH]; intros [|y ts'] L; [reflexivity| | |].
  - destruct (L 0%nat y) as (_ & L'). specialize (L' eq_refl). discriminate.
  - destruct (L 0%nat x) as (L' & _). specialize (L' eq_refl). discriminate.
  - destruct (L 0%nat x) as (L' & _). specialize (L' eq_refl). cbn in L'. injection L' as ->.
    f_equal. apply IH. intros k t. exact (L (S k) t).
Qed.

(** The reference of the parts, and the ids afterwards. *)
Lemma parts_run s pdus s' : wf_submit s -> validity_ok (s_validity s) ->
  coding_of s <> 4 -> to_pdu s = (Ok pdus, s') -> zlen pdus <> 1 ->
  (s_ref s' <> None /\ s_rand_id s' = s_rand_id s /\
   (s_rand_id s = None -> s_id_list s' =
      rest_of (match s_ref s with Some _ => s_id_list s | None => rest_of (s_id_list s) end))) /\
  2 <= zlen pdus <= 255 /\ octet (parts_ref s) /\
  exists parts, length parts = length pdus /\
    parts_of (coding_of s) (chars (s_text s)) parts /\
    forall k p m, nth_error pdus k = Some p -> nth_error parts k = Some m ->
      exists udl ud, carries s (coding_of s) (message_ref s) true udl ud p /\
        part_ud (coding_of s) (parts_ref s) (zlen pdus) (1 + Z.of_nat k) m udl ud.
Proof.
  intros Hwf Hv Hc E Hne.
  destruct (several_pdus s pdus s' Hwf Hv ltac:(lia) E Hne) as (x & _ & _ & _ & Hb).
  destruct (Hb Hc) as (Hb' & _). clear Hb x.
  destruct (to_pdu_inv s pdus s' Hwf Hv ltac:(lia) E) as (mr & l & _ & _ & -> & _ & Hm & H).
  cbv zeta in H. destruct H as [(q & udl & ud & n & -> & _)|
                 (ref & parts & l2 & n & _ & _ & H2 & Hz & Hp & Hsz & Hr & Hd & _ & Es' & Hall)].
  { now contradiction Hne. }
  assert (R : s_rand_id (gsm_state (coding_of s) (s_text s) (ref_state s (message_ref s) l)) = s_rand_id s /\
              s_id_list (gsm_state (coding_of s) (s_text s) (ref_state s (message_ref s) l)) = l /\
              s_ref (gsm_state (coding_of s) (s_text s) (ref_state s (message_ref s) l)) = Some (message_ref s)).
  { unfold gsm_state. destruct (_ =? 0); [destruct (gsm_encode _)|]; repeat split. }
  destruct R as (R1 & R2 & R3). unfold drawn in Hd. rewrite R1, R2 in Hd.
  assert (El : l = match s_ref s with Some _ => s_id_list s | None => rest_of (s_id_list s) end).
  { destruct (s_ref s); [exact Hm|]. apply (f_equal (@tl Z)) in Hm. cbn [tl] in Hm. rewrite Hm.
    destruct (s_id_list s); reflexivity. }
  assert (Eref : ref = parts_ref s /\ (s_rand_id s = None -> l2 = rest_of l)).
  { unfold parts_ref. rewrite <- El. destruct (s_rand_id s); [destruct Hd; split; [assumption|discriminate]|].
    split.
    - apply (f_equal (hd 0)) in Hd. cbn [hd] in Hd. rewrite Hd. destruct l; reflexivity.
    - intros _. apply (f_equal (@tl Z)) in Hd. cbn [tl] in Hd. rewrite Hd. destruct l; reflexivity. }
  destruct Eref as (Eref & El2). rewrite Eref in *.
  split.
  { rewrite Es'. cbn [with_id_list s_ref s_rand_id s_id_list]. rewrite R3.
    split; [discriminate|]. split; [exact R1|]. rewrite <- El. exact El2. }
  split; [exact Hb'|]. split; [exact Hr|].
  exists parts. split; [unfold zlen in Hz; lia|]. split; [exact Hp|].
  intros k p m Hk Hk'. destruct (Hall k p m Hk Hk') as (_ & _ & udl & ud & Hud & C).
  unfold emitted_ud in Hud. replace (coding_of s =? 4) with false in Hud by lia.
  rewrite Hz. destruct Hud. eauto 10.
Qed.

(** What is received of one message. *)
Lemma relayed_parts s pdus : sent_in_parts s pdus ->
  exists texts, length texts = length pdus /\ concat texts = chars (s_text s) /\
    forall k p pdu strict, nth_error pdus k = Some p -> relayed s p pdu ->
      exists d t, new_deliver pdu strict = Ok d /\ nth_error texts k = Some t /\
        arrival d = [Arrived t (parts_ref s) (zlen pdus) (1 + Z.of_nat k)].
Proof.
  intros (H & Hv & Hc & (s' & E) & Hne).
  destruct (parts_run s pdus s' (reachable_wf _ H) Hv ltac:(lia) E Hne)
    as (_ & Hn & Href & parts & Hl & Hp & Hk).
  assert (T : exists texts, length texts = length pdus /\ concat texts = chars (s_text s) /\
            forall k t, nth_error texts k = Some t -> exists m, nth_error parts k = Some m /\
              (coding_of s = 0 -> gsm_text t m) /\ (coding_of s = 8 -> m = t)).
  { destruct Hc as [Hc|Hc]; rewrite Hc in *.
    - destruct Hp as (texts & Ht & Ec). exists texts.
      assert (length texts = length parts) as Hlt by (clear - Ht; induction Ht; cbn; congruence).
      split; [congruence|]. split; [exact Ec|]. intros k t Hkt.
      clear - Ht Hkt. revert k Hkt. induction Ht; intros [|k] Hk; cbn in *; try discriminate.
      + injection Hk as ->. eexists. split; [reflexivity|]. split; [auto|discriminate].
      + eauto.
    - cbn in Hp. exists parts. split; [exact Hl|]. split; [exact Hp|]. intros k t Hkt.
      exists t. split; [exact Hkt|]. split; [discriminate|reflexivity]. }
  destruct T as (texts & Hlt & Ec & HT). exists texts. split; [exact Hlt|]. split; [exact Ec|].
  intros k p pdu strict Hpk (udl & ud & o & C & D & X).
  assert (k < length pdus)%nat as Hlk by (apply nth_error_Some; congruence).
  destruct (nth_error texts k) as [t|] eqn:Et; [|apply nth_error_None in Et; lia].
  destruct (HT k t Et) as (m & Hm & HG & HU).
  destruct (Hk k p m Hpk Hm) as (udl' & ud' & C' & P).
  destruct (carries_fun _ _ _ _ _ _ _ _ _ _ _ _ C C') as (_ & _ & <- & <-).
  assert (octet (zlen pdus) /\ octet (1 + Z.of_nat k)) as [O1 O2]
    by (unfold octet; unfold zlen in *; lia).
  assert (U : deliver_ud (Some [(0, [parts_ref s; zlen pdus; 1 + Z.of_nat k])]) (coding_of s) t udl ud).
  { refine (part_deliver_ud _ _ _ _ m t _ _ P Href O1 O2 _).
    destruct Hc as [Hc|Hc]; rewrite Hc; [exact (HG Hc)|cbn; symmetry; exact (HU Hc)]. }
  destruct (deliver_view _ (Some [(0, [parts_ref s; zlen pdus; 1 + Z.of_nat k])]) _ _ _ _ _ strict D U X)
    as (d & Ed & Edt & Hh).
  exists d, t. split; [exact Ed|]. split; [reflexivity|].
  unfold arrival. rewrite Edt. erewrite concat_data_view by eassumption. reflexivity.
Qed.

Lemma Forall2_In_l {A B} (R : A -> B -> Prop) l l' x : Forall2 R l l' -> In x l ->
  exists y, In y l' /\ R x y.
Proof.
  induction 1 as [|a b l l' Hab _ IH]; cbn [In]; [contradiction|].
  intros [->|Hx]; [eauto|]. destruct (IH Hx) as (y & Hy & Hr). eauto.
Qed.
Lemma Forall2_In_r {A B} (R : A -> B -> Prop) l l' y : Forall2 R l l' -> In y l' ->
  exists x, In x l /\ R x y.
Proof.
  induction 1 as [|a b l l' Hab _ IH]; cbn [In]; [contradiction|].
  intros [->|Hx]; [eauto|]. destruct (IH Hx) as (x & Hy & Hr). eauto.
Qed.
Lemma NoDup_map_inj {A B} (f : A -> B) l x y : NoDup (map f l) -> In x l -> In y l ->
  f x = f y -> x = y.
Proof.
  induction l as [|a l IH]; cbn [map In]; [contradiction|]. intros N Hx Hy E.
  inversion N as [|b m N1 N2]; subst b m. destruct Hx as [->|Hx], Hy as [->|Hy]; [reflexivity| | |auto].
  - destruct N1. rewrite E. now apply in_map.
  - destruct N1. rewrite <- E. now apply in_map.
Qed.

Lemma assembly sent order pdus_in strict :
  Forall (fun m => sent_in_parts (fst m) (snd m)) sent ->
  NoDup (map (fun m => parts_ref (fst m)) sent) ->
  Permutation order (flat_map (fun m => map (pair (fst m)) (snd m)) sent) ->
  Forall2 (fun q pdu => relayed (fst q) (snd q) pdu) order pdus_in ->
  exists ds, Forall2 (fun pdu d => new_deliver pdu strict = Ok d) pdus_in ds /\
    forall s pdus, In (s, pdus) sent ->
      assembled (parts_ref s) (flat_map arrival ds) (chars (s_text s)).
Proof.
  intros Hs N P F. rewrite Forall_forall in Hs.
  assert (Q : forall q, In q order -> exists pdus k, In (fst q, pdus) sent /\
            nth_error pdus k = Some (snd q)).
  { intros q Hq. apply (Permutation_in _ P) in Hq. apply in_flat_map in Hq.
    destruct Hq as ((s & pdus) & Hm & Hp). cbn [fst snd] in Hp. apply in_map_iff in Hp.
    destruct Hp as (p & <- & Hp). apply In_nth_error in Hp. destruct Hp as (k & Hk).
    exists pdus, k. auto. }
  assert (D : exists ds, Forall2 (fun pdu d => new_deliver pdu strict = Ok d) pdus_in ds).
  { clear P N. induction F as [|q pdu order pdus_in Hr F IH]; [exists []; constructor|].
    destruct IH as (ds & Hds); [intros q' Hq'; apply Q; now right|].
    destruct (Q q (or_introl eq_refl)) as (pdus & k & Hin & Hk).
    destruct (relayed_parts _ _ (Hs _ Hin)) as (texts & _ & _ & HT).
    destruct (HT k _ pdu strict Hk Hr) as (d & t & Ed & _). exists (d :: ds). now constructor. }
  destruct D as (ds & HD). exists ds. split; [exact HD|].
  intros s pdus Hin. pose proof (Hs _ Hin) as Hsp. cbn [fst snd] in Hsp.
  destruct (relayed_parts s pdus Hsp) as (texts & Hl & Ec & HT).
  exists texts. split.
  { intros ->. destruct pdus; [|discriminate]. destruct Hsp as (H & Hv & Hc & (s' & E) & Hne).
    destruct (parts_run s [] s' (reachable_wf _ H) Hv ltac:(lia) E Hne) as (_ & (Hn & _) & _).
    unfold zlen in Hn. cbn in Hn. lia. }
  split; [exact Ec|]. intros t n k. rewrite in_flat_map. split.
  - intros (d & Hd & Ha).
    destruct (Forall2_In_r _ _ _ _ HD Hd) as (pdu & Hpdu & Ed).
    destruct (Forall2_In_r _ _ _ _ F Hpdu) as ((s1 & p) & Hq & Hr). cbn [fst snd] in Hr.
    destruct (Q _ Hq) as (pdus1 & j & Hin1 & Hj). cbn [fst snd] in Hin1, Hj.
    destruct (relayed_parts s1 pdus1 (Hs _ Hin1)) as (texts1 & _ & _ & HT1).
    destruct (HT1 j p pdu strict Hj Hr) as (d1 & t1 & Ed1 & Ht1 & Ea).
    assert (d1 = d) by congruence. subst d1. rewrite Ea in Ha. destruct Ha as [Ha|[]].
    assert (Er : parts_ref s1 = parts_ref s) by (apply (f_equal a_ref) in Ha; exact Ha).
    assert (EE : (s1, pdus1) = (s, pdus)) by (eapply NoDup_map_inj; eauto).
    apply pair_equal_spec in EE. destruct EE as (-> & ->).
    destruct (HT j p pdu strict Hj Hr) as (d2 & t2 & Ed2 & Ht2 & Ea2).
    assert (d2 = d) by congruence. subst d2.
    assert (Et : t2 = t) by (rewrite Ea in Ea2; apply (f_equal (map a_text)) in Ea2;
      cbn [map a_text] in Ea2; apply (f_equal a_text) in Ha; cbn [a_text] in Ha; congruence).
    subst t2. assert (n = zlen pdus) by (apply (f_equal a_count) in Ha; symmetry; exact Ha).
    assert (k = 1 + Z.of_nat j) by (apply (f_equal a_place) in Ha; symmetry; exact Ha).
    subst n k. split; [unfold zlen; congruence|]. split; [lia|].
    replace (Z.to_nat (1 + Z.of_nat j - 1)) with j by lia. exact Ht2.
  - intros (-> & Hk & Et). set (j := Z.to_nat (k - 1)) in *.
    assert (j < length texts)%nat as Hj by (apply nth_error_Some; congruence).
    destruct (nth_error pdus j) as [p|] eqn:Ep; [|apply nth_error_None in Ep; lia].
    assert (Hq : In (s, p) order).
    { apply (Permutation_in _ (Permutation_sym P)), in_flat_map. exists (s, pdus).
      split; [exact Hin|]. cbn [fst snd]. apply in_map. eapply nth_error_In; eassumption. }
    destruct (Forall2_In_l _ _ _ _ F Hq) as (pdu & Hpdu & Hr). cbn [fst snd] in Hr.
    destruct (Forall2_In_l _ _ _ _ HD Hpdu) as (d & Hd & Ed).
    destruct (HT j p pdu strict Ep Hr) as (d1 & t1 & Ed1 & Ht1 & Ea).
    assert (d1 = d) by congruence. subst d1. assert (t1 = t) by congruence. subst t1.
    exists d. split; [exact Hd|]. rewrite Ea. left. f_equal; [unfold zlen; congruence|lia].
Qed.

(** * Consecutive messages of one object *)

Definition ids_from (k : nat) (s : submit) : Prop :=
  (k <= 255)%nat /\ s_id_list s = skipn k id_range.
Definition ids_kept {A} (m : ST submit A) : Prop :=
  forall s, (exists k, ids_from k s) -> exists k, ids_from k (snd (m s)).

Lemma ids_bind {A B} (m : ST submit A) (f : A -> ST submit B) :
  ids_kept m -> (forall a, ids_kept (f a)) -> ids_kept (st_bind m f).
Proof.
  intros Hm Hf s Hs. unfold st_bind. specialize (Hm s Hs).
  destruct (m s) as [[a|e] s']; cbn in *; [now apply Hf|assumption].
Qed.
Lemma ids_rand : ids_kept get_rand_id.
Proof.
  intros s (k & Hk & E). destruct (draw_step k s Hk E) as (k' & Hk' & E' & _). exists k'. now split.
Qed.

Ltac ids_with t := repeat
  (first [t | apply ids_rand | apply ids_bind; [|intros]
         | (intros ? HK; exact HK)
         | match goal with |- ids_kept (match ?x with _ => _ end) => destruct x end]).

Lemma ids_tpmessref : ids_kept get_tpmessref_pdu.
Proof. unfold get_tpmessref_pdu. ids_with ltac:(fail). Qed.
Lemma ids_message_ud c t : ids_kept (message_ud c t).
Proof. unfold message_ud, split_sms_message. ids_with ltac:(fail). Qed.
Lemma ids_msg_pdu : ids_kept get_msg_pdu.
Proof. unfold get_msg_pdu. ids_with ltac:(apply ids_message_ud). Qed.
Lemma ids_to_pdu : ids_kept to_pdu.
Proof. unfold to_pdu. ids_with ltac:(apply ids_tpmessref || apply ids_msg_pdu). Qed.

Lemma reachable_ids s : reachable s -> exists k, ids_from k s.
Proof.
  induction 1 as [n t s H|v s _ IH|v s _ IH|k s _ IH|v s _ IH|v s _ IH|v s _ IH|v s _ IH|v s _ IH|v s _ IH|v s _ IH|s _ IH];
    try exact IH.
  - apply new_submit_ids in H. destruct H as (H & _). exists 0%nat. split; [lia|exact H].
  - unfold set_number. destruct v as [[|c n]|]; try exact IH.
    destruct (valid_number (c :: n)); exact IH.
  - unfold set_csca. destruct v as [[|c n]|]; try exact IH.
    destruct (valid_number (c :: n)); exact IH.
  - unfold set_klass. destruct ((0 <=? k) && (k <=? 3)); exact IH.
  - apply ids_to_pdu, IH.
Qed.

Lemma draw_ids k l : (k <= 255)%nat -> l = skipn k id_range ->
  next_of l = Z.of_nat k mod 255 /\ exists k', (k' <= 255)%nat /\ rest_of l = skipn k' id_range /\
    Z.of_nat k' mod 255 = (Z.of_nat k + 1) mod 255.
Proof.
  intros Hk ->. destruct (Nat.eq_dec k 255) as [->|Hne].
  - change (skipn 255 id_range) with (@nil Z). split; [reflexivity|]. exists 1%nat.
    split; [lia|]. split; reflexivity.
  - rewrite id_range_skipn by lia. cbn [next_of rest_of].
    split; [rewrite Z.mod_small by lia; reflexivity|]. exists (S k). split; [lia|].
    split; [reflexivity|]. f_equal. lia.
Qed.

Lemma next_reference s pdus s' t : reachable s -> validity_ok (s_validity s) ->
  coding_of s <> 4 -> to_pdu s = (Ok pdus, s') -> zlen pdus <> 1 -> s_rand_id s = None ->
  parts_ref (with_text t s') = (parts_ref s + 1) mod 255.
Proof.
  intros H Hv Hc E Hne Hr.
  destruct (parts_run s pdus s' (reachable_wf _ H) Hv Hc E Hne) as ((R1 & R2 & R3) & _).
  specialize (R3 Hr). rewrite Hr in R2. unfold parts_ref.
  cbn [with_text s_rand_id s_ref s_id_list]. rewrite Hr, R2, R3.
  destruct (s_ref s') as [r|]; [|contradiction].
  destruct (reachable_ids s H) as (k & Hk & Ek).
  set (l := match s_ref s with Some _ => s_id_list s | None => rest_of (s_id_list s) end).
  assert (L : exists j, (j <= 255)%nat /\ l = skipn j id_range).
  { unfold l. destruct (s_ref s); [eauto|]. destruct (draw_ids k _ Hk Ek) as (_ & k' & A & B & _). eauto. }
  destruct L as (j & Hj & Ej). destruct (draw_ids j l Hj Ej) as (E1 & j' & Hj' & E2 & E3).
  destruct (draw_ids j' _ Hj' E2) as (E4 & _). rewrite E1, E4, E3.
  rewrite Zplus_mod_idemp_l. reflexivity.
Qed.

Lemma new_reference number text s : new_submit number text = Ok s ->
  message_ref s = 0 /\ parts_ref s = 1.
Proof.
  intros H. apply new_submit_ids in H. destruct H as (H1 & _ & H3 & _ & H5).
  unfold message_ref, next_id, parts_ref. rewrite H1, H3, H5. split; reflexivity.
Qed.

(** * Every part can be delivered *)

Lemma skipn_octets n l : Forall octet l -> Forall octet (skipn n l).
Proof.
  intros H. apply Forall_forall. intros x Hx. rewrite Forall_forall in H. apply H.
  rewrite <- (firstn_skipn n l). apply in_or_app. now right.
Qed.
Lemma carried_octets s c mr u udl ud p : carries s c mr u udl ud p -> Forall octet (udl :: ud).
Proof.
  intros (o & sc & da & vpf & vp & _ & Ho & P & _). unfold parse_submit in P.
  destruct o as [|l r]; [discriminate|]. inversion Ho as [|x y _ Hr]; subst x y.
  pose proof (skipn_octets (Z.to_nat l) r Hr) as H1.
  destruct (skipn (Z.to_nat l) r) as [|fo [|m [|dl [|dt r1]]]]; try discriminate.
  cbv zeta in P. do 4 (apply Forall_inv_tail in H1).
  pose proof (skipn_octets (Z.to_nat ((dl + 1) / 2)) r1 H1) as H2.
  destruct (skipn (Z.to_nat ((dl + 1) / 2)) r1) as [|pid [|dcs r2]]; try discriminate.
  do 2 (apply Forall_inv_tail in H2).
  pose proof (skipn_octets (vp_octets ((fo / 8) mod 4)) r2 H2) as H3.
  destruct (skipn (vp_octets ((fo / 8) mod 4)) r2) as [|udl' ud']; [discriminate|].
  assert (E : udl' = udl /\ ud' = ud).
  { split; [apply (f_equal (fun x => match x with Some y => f_udl y | None => 0 end)) in P
           |apply (f_equal (fun x => match x with Some y => f_ud y | None => [] end)) in P]; exact P. }
  destruct E as (<- & <-). exact H3.
Qed.
