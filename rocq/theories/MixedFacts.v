(** Facts for the exact form of C87: what the parts of one message read as when they
    arrive depends on its text and its coding only. *)
From Coq Require Import Lia ZifyBool ZifyNat Permutation.
From Verif Require Import Py PyFacts SpecGsm SpecPack SpecAddress SpecTime SpecSubmit SpecDeliver
  SpecAssembly SpecCuts Gsm GsmFacts Utils PackFacts ValidityFacts Submit SubmitClaims NumberFacts
  SplitFacts SubmitFacts ToPduFacts Udh Deliver DeliverFacts AssemblyClaims AssemblyFacts PropCuts.
Open Scope Z_scope.

Lemma nth_combine {A B} (x : list A) : forall (y : list B) j a b, nth_error x j = Some a ->
  nth_error y j = Some b -> nth_error (combine x y) j = Some (a, b).
Proof.
  induction x as [|a' x IH]; intros [|b' y] [|j] a b; cbn; try discriminate.
  - intros A1 B1. congruence.
  - apply IH.
Qed.

(** The parts of a text in several PDUs are those [split_text] makes. *)
Lemma parts_cut s pdus s' : wf_submit s -> validity_ok (s_validity s) ->
  coding_of s = 0 \/ coding_of s = 8 -> to_pdu s = (Ok pdus, s') -> zlen pdus <> 1 ->
  exists g ref parts, (if coding_of s =? 0 then gsm_text (chars (s_text s)) g else g = chars (s_text s)) /\
    split_text g (part_capacity (coding_of s)) = Ok parts /\
    part_capacity (coding_of s) < zlen g /\ concat parts = g /\ octet ref /\
    2 <= zlen parts /\ zlen parts = zlen pdus /\
    forall k p m, nth_error pdus k = Some p -> nth_error parts k = Some m ->
      exists udl ud, carries s (coding_of s) (message_ref s) true udl ud p /\
        part_ud (coding_of s) ref (zlen pdus) (1 + Z.of_nat k) m udl ud /\ octet (zlen pdus).
Proof.
  intros Hwf Hv Hc E Hne.
  destruct (to_pdu_decompose s Hwf Hv) as (mr & l & Er & Hmr & -> & Hl & Hd & H).
  rewrite E in H. destruct H as (_ & _ & mk & ms & Em & Ep & _ & Hcar).
  assert (M : exists g ref parts os,
    (if coding_of s =? 0 then gsm_text (chars (s_text s)) g else g = chars (s_text s)) /\
    split_text g (part_capacity (coding_of s)) = Ok parts /\
    part_capacity (coding_of s) < zlen g /\ concat parts = g /\ octet ref /\
    2 <= zlen parts /\ ms = map hex_of os /\ emitted (coding_of s) ref parts os).
  { destruct Hc as [Hc|Hc]; rewrite Hc in *; cbn [Z.eqb].
    - unfold message_ud in Em. cbn [Z.eqb] in Em. unfold st_bind at 1, st_lift in Em.
      destruct (gsm_encode (s_text s)) as [g|e] eqn:Eg; [|discriminate].
      pose proof Eg as Eg'. apply gsm_encode_text in Eg' as [_ Hg].
      destruct (zlen g <=? 160) eqn:EL.
      { exfalso. destruct (message_gsm_single (s_text s) g (ref_state s (message_ref s) l) Eg ltac:(lia))
          as (ud & P & O & E2).
        unfold message_ud in E2. cbn [Z.eqb] in E2. unfold st_bind at 1, st_lift in E2.
        rewrite Eg, Em in E2. assert (ms = [hex_of (zlen g :: ud)]) as -> by congruence.
        rewrite Ep in Hne. now cbn in Hne. }
      unfold st_bind, st_upd, SEVENBIT_SIZE in Em. rewrite EL in Em.
      destruct (split_sms_message_inv 0 (PyStr false g)
        (with_text_gsm (Some g) (ref_state s (message_ref s) l)) ms s') as
        (ref & parts & l2 & os & Es & Ems & Esp & H2 & Ec & Hs & He & Hdr & Ho & Hl2).
      { auto. } { exact Hl. } { intros _. eapply septets_of_text; eassumption. } { discriminate. }
      { cbn. lia. } { exact Em. }
      exists g, ref, parts, os. cbn [chars] in *. change (part_capacity 0) with 153 in *.
      do 3 (split; [assumption||lia|]). do 2 (split; [assumption|]). split; [assumption|]. split; [exact Ems|exact He].
    - unfold message_ud in Em. cbn [Z.eqb Pos.eqb] in Em. unfold UCS2_SIZE in Em.
      destruct (zlen (chars (s_text s)) <=? 70) eqn:EL.
      { exfalso. unfold st_bind, st_lift, st_ret in Em.
        destruct (pack_8bits_to_ucs2 (s_text s) None) as [m0|e]; [|discriminate].
        assert (ms = [m0]) as -> by congruence. rewrite Ep in Hne. now cbn in Hne. }
      destruct (split_sms_message_inv 8 (s_text s) (ref_state s (message_ref s) l) ms s') as
        (ref & parts & l2 & os & Es & Ems & Esp & H2 & Ec & Hs & He & Hdr & Ho & Hl2);
        [auto|exact Hl|discriminate|discriminate|cbn; lia|exact Em|].
      exists (chars (s_text s)), ref, parts, os. split; [reflexivity|]. change (part_capacity 8) with 67 in *.
      do 2 (split; [assumption||lia|]). do 2 (split; [assumption|]). split; [assumption|]. split; [exact Ems|exact He]. }
  destruct M as (g & ref & parts & os & Hg & Es & Hbig & Econ & Ho & H2 & -> & [He1 He2]).
  exists g, ref, parts. do 6 (split; [assumption|]).
  assert (Ep' : pdus = map (fun p => mk true (zlen parts) (fst p) (snd p))
      (combine (map (fun k => 1 + Z.of_nat k) (seq 0 (length os))) (map hex_of os))).
  { rewrite Ep. unfold zlen in *. rewrite <- He1 in *. rewrite map_length.
    destruct os as [|o1 [|o2 os]]; [cbn in H2; lia|cbn in H2; lia|reflexivity]. }
  assert (El : length parts = length pdus).
  { rewrite Ep', map_length, combine_length, !map_length, seq_length. lia. }
  split; [unfold zlen; congruence|]. intros k p m Hk Hm.
  assert (k < length os)%nat as Hko by (rewrite He1; apply nth_error_Some; congruence).
  destruct (nth_error os k) as [o|] eqn:Eok; [|apply nth_error_None in Eok; lia].
  destruct (He2 k m o Hm Eok) as (udl & ud & -> & Hoct & Hud).
  assert (nth_error (combine (map (fun k => 1 + Z.of_nat k) (seq 0 (length os))) (map hex_of os)) k
            = Some (1 + Z.of_nat k, hex_of (udl :: ud))) as Enth.
  { apply nth_combine.
    - rewrite nth_error_map, (nth_error_nth' (seq 0 (length os)) 0%nat) by now rewrite seq_length.
      rewrite seq_nth by assumption. reflexivity.
    - rewrite nth_error_map, Eok. reflexivity. }
  rewrite Ep', nth_error_map, Enth in Hk. cbn [option_map fst snd] in Hk.
  assert (p = mk true (zlen parts) (1 + Z.of_nat k) (hex_of (udl :: ud))) as -> by congruence.
  exists udl, ud. split; [now apply Hcar|].
  unfold emitted_ud in Hud. replace (coding_of s =? 4) with false in Hud by lia.
  unfold zlen in *. rewrite El in Hud. exact Hud.
Qed.

(** The texts of the parts of [t] in the coding [c]. *)
Definition part_texts (c : Z) (t : list Z) (texts : list (list Z)) : Prop :=
  if c =? 0
  then exists g parts, gsm_text t g /\ 153 < zlen g /\ split_text g 153 = Ok parts /\ Forall2 gsm_text texts parts
  else 67 < zlen t /\ split_text t 67 = Ok texts.

Lemma part_texts_once c t a b : part_texts c t a -> part_texts c t b -> a = b.
Proof.
  unfold part_texts. destruct (c =? 0).
  - intros (g & ps & Hg & _ & Es & F) (g' & ps' & Hg' & _ & Es' & F').
    assert (g' = g) as -> by (eapply gsm_text_det; eassumption).
    assert (ps' = ps) as -> by congruence. clear - F F'. revert b F'.
    induction F as [|x y a ps H F IH]; intros b Hb; inversion Hb as [|x' y' b' ps0 H' Hb' E1 E2]; subst; [reflexivity|].
    f_equal; [|now apply IH]. apply gsm_decode_text in H, H'. congruence.
  - intros (_ & E) (_ & E'). congruence.
Qed.

Lemma gsm_text_size t g : gsm_text t g -> zlen g <= 2 * zlen t.
Proof.
  intros (cs & F & ->). unfold zlen. induction F as [|u c t cs H F IH]; [cbn; lia|].
  cbn [concat]. rewrite app_length. cbn [length]. inversion H; cbn [length]; lia.
Qed.

Lemma first_cut w t parts : (2 <= w)%nat -> (w < length t)%nat -> split_text t (Z.of_nat w) = Ok parts ->
  exists p ps, parts = p :: ps /\ (length p <= w)%nat /\ (w <= S (length p))%nat.
Proof.
  intros Hw Hl E. rewrite split_text_cut in E by lia. rewrite Nat2Z.id in E.
  assert (Hne : t <> []) by (intros ->; cbn in Hl; lia).
  pose proof (cut_cuts w Hw (S (length t)) t ltac:(lia) Hne) as HC.
  assert (parts = cut (S (length t)) w t) as Ep by congruence. rewrite <- Ep in HC. clear E Ep.
  inversion HC as [t0 A B C E1 E2|p r ps A B C E1 E2|p r ps A C E1 E2]; subst.
  - lia.
  - exists p, ps. split; [reflexivity|]. lia.
  - exists p, ps. split; [reflexivity|]. lia.
Qed.

(** A text cut for the GSM alphabet is never cut as one for UCS-2 is. *)
Lemma part_texts_apart t t' texts : part_texts 0 t texts -> part_texts 8 t' texts -> False.
Proof.
  unfold part_texts. cbn [Z.eqb]. intros (g & ps & Hg & Lg & Es & F) (Lt & Es').
  destruct (first_cut 153 g ps ltac:(lia) ltac:(unfold zlen in Lg; lia) Es) as (p & q & -> & A1 & A2).
  destruct (first_cut 67 t' texts ltac:(lia) ltac:(unfold zlen in Lt; lia) Es') as (p' & q' & -> & B1 & B2).
  inversion F as [|x y l l' H F' E1 E2]; subst. apply gsm_text_size in H. unfold zlen in H. lia.
Qed.

Lemma relayed_texts s pdus : sent_in_parts s pdus ->
  exists texts, part_texts (coding_of s) (chars (s_text s)) texts /\
    length texts = length pdus /\ concat texts = chars (s_text s) /\ texts <> [] /\
    forall k p pdu strict, nth_error pdus k = Some p -> relayed s p pdu ->
      exists d t, new_deliver pdu strict = Ok d /\ nth_error texts k = Some t /\
        arrival d = [Arrived t (parts_ref s) (zlen pdus) (1 + Z.of_nat k)].
Proof.
  intros HS. pose proof (relayed_parts s pdus HS) as (texts0 & _ & _ & HR).
  destruct HS as (H & Hv & Hc & (s' & E) & Hne).
  destruct (parts_cut s pdus s' (reachable_wf _ H) Hv Hc E Hne)
    as (g & ref & parts & Hg & Es & Hbig & Econ & Href & H2 & El & Hk).
  assert (T : exists texts, part_texts (coding_of s) (chars (s_text s)) texts /\
            length texts = length pdus /\ concat texts = chars (s_text s) /\
            forall k t, nth_error texts k = Some t -> exists m, nth_error parts k = Some m /\
              (coding_of s = 0 -> gsm_text t m) /\ (coding_of s = 8 -> m = t)).
  { unfold part_texts. unfold zlen in El. destruct Hc as [Hc|Hc]; rewrite Hc in *; cbn [Z.eqb] in *.
    - change (part_capacity 0) with 153 in *.
      assert (P : exists texts, Forall2 gsm_text texts parts /\ concat texts = chars (s_text s)).
      { apply parts_texts; [now rewrite Econ|].
        eapply split_text_clean; [|eapply gsm_text_clean; eassumption|exact Es]. lia. }
      destruct P as (texts & Ht & Ec). exists texts.
      assert (length texts = length parts) as Hlt by (clear - Ht; induction Ht; cbn; congruence).
      split; [exists g, parts; auto|]. split; [lia|]. split; [exact Ec|]. intros k t Hkt.
      clear - Ht Hkt. revert k Hkt. induction Ht; intros [|k] Hk; cbn in *; try discriminate.
      + injection Hk as ->. eexists. split; [reflexivity|]. split; [auto|discriminate].
      + eauto.
    - change (part_capacity 8) with 67 in *. subst g. exists parts.
      split; [auto|]. split; [lia|]. split; [exact Econ|]. intros k t Hkt.
      exists t. split; [exact Hkt|]. split; [discriminate|reflexivity]. }
  destruct T as (texts & HP & Hlt & Ec & HT). exists texts. split; [exact HP|]. split; [exact Hlt|].
  split; [exact Ec|]. split. { intros ->. cbn in Hlt. unfold zlen in *. lia. }
  intros k p pdu strict Hpk Hr. pose proof Hr as (udl & ud & o & C & D & X).
  assert (k < length pdus)%nat as Hlk by (apply nth_error_Some; congruence).
  destruct (nth_error texts k) as [t|] eqn:Et; [|apply nth_error_None in Et; lia].
  destruct (HT k t Et) as (m & Hm & HG & HU).
  destruct (Hk k p m Hpk Hm) as (udl' & ud' & C' & P & O1).
  destruct (carries_fun _ _ _ _ _ _ _ _ _ _ _ _ C C') as (_ & _ & <- & <-).
  assert (octet (1 + Z.of_nat k)) as O2 by (unfold octet in *; unfold zlen in *; lia).
  assert (U : deliver_ud (Some [(0, [ref; zlen pdus; 1 + Z.of_nat k])]) (coding_of s) t udl ud).
  { refine (part_deliver_ud _ _ _ _ m t _ _ P Href O1 O2 _).
    destruct Hc as [Hc|Hc]; rewrite Hc; [exact (HG Hc)|cbn; symmetry; exact (HU Hc)]. }
  destruct (deliver_view _ (Some [(0, [ref; zlen pdus; 1 + Z.of_nat k])]) _ _ _ _ _ strict D U X)
    as (d & Ed & Edt & Hh).
  destruct (HR k p pdu strict Hpk Hr) as (d' & t' & Ed' & _ & Ea).
  assert (d' = d) by congruence. subst d'.
  exists d, t. split; [exact Ed|]. split; [reflexivity|].
  rewrite Ea. unfold arrival in Ea. rewrite Edt in Ea.
  destruct (concat_data d) as [[[r c] q]|]; [|discriminate].
  apply (f_equal (map a_text)) in Ea. cbn [map a_text] in Ea. congruence.
Qed.

Lemma texts_exist s pdus : sent_in_parts s pdus ->
  exists texts, part_texts (coding_of s) (chars (s_text s)) texts /\
    concat texts = chars (s_text s) /\ texts <> [].
Proof. intros H. destruct (relayed_texts s pdus H) as (texts & A & _ & B & C & _). eauto. Qed.

(** Everything that arrives. *)
Lemma arrivals sent order received strict :
  Forall (fun m => sent_in_parts (fst m) (snd m)) sent ->
  Permutation order (flat_map (fun m => map (pair (fst m)) (snd m)) sent) ->
  Forall2 (fun q pdu => relayed (fst q) (snd q) pdu) order received ->
  exists ds, Forall2 (fun pdu d => new_deliver pdu strict = Ok d) received ds /\
    forall a, In a (flat_map arrival ds) <->
      exists s pdus texts k t, In (s, pdus) sent /\ part_texts (coding_of s) (chars (s_text s)) texts /\
        nth_error texts k = Some t /\
        a = Arrived t (parts_ref s) (Z.of_nat (length texts)) (1 + Z.of_nat k).
Proof.
  intros Hs P F. rewrite Forall_forall in Hs.
  assert (Q : forall q, In q order -> exists pdus k, In (fst q, pdus) sent /\
            nth_error pdus k = Some (snd q)).
  { intros q Hq. apply (Permutation_in _ P) in Hq. apply in_flat_map in Hq.
    destruct Hq as ((s & pdus) & Hm & Hp). cbn [fst snd] in Hp. apply in_map_iff in Hp.
    destruct Hp as (p & <- & Hp). apply In_nth_error in Hp. destruct Hp as (k & Hk).
    exists pdus, k. auto. }
  assert (D : exists ds, Forall2 (fun pdu d => new_deliver pdu strict = Ok d) received ds).
  { clear P. induction F as [|q pdu order received Hr F IH]; [exists []; constructor|].
    destruct IH as (ds & Hds); [intros q' Hq'; apply Q; now right|].
    destruct (Q q (or_introl eq_refl)) as (pdus & k & Hin & Hk).
    destruct (relayed_parts _ _ (Hs _ Hin)) as (texts & _ & _ & HT).
    destruct (HT k _ pdu strict Hk Hr) as (d & t & Ed & _). exists (d :: ds). now constructor. }
  destruct D as (ds & HD). exists ds. split; [exact HD|]. intros a. rewrite in_flat_map. split.
  - intros (d & Hd & Ha).
    destruct (Forall2_In_r _ _ _ _ HD Hd) as (pdu & Hpdu & Ed).
    destruct (Forall2_In_r _ _ _ _ F Hpdu) as ((s & p) & Hq & Hr). cbn [fst snd] in Hr.
    destruct (Q _ Hq) as (pdus & j & Hin & Hj). cbn [fst snd] in Hin, Hj.
    destruct (relayed_texts s pdus (Hs _ Hin)) as (texts & HP & Hl & _ & _ & HT).
    destruct (HT j p pdu strict Hj Hr) as (d1 & t1 & Ed1 & Ht1 & Ea).
    assert (d1 = d) by congruence. subst d1. rewrite Ea in Ha. destruct Ha as [<-|[]].
    exists s, pdus, texts, j, t1. unfold zlen. rewrite Hl. auto.
  - intros (s & pdus & texts & k & t & Hin & HP & Ht & ->).
    destruct (relayed_texts s pdus (Hs _ Hin)) as (texts' & HP' & Hl & _ & _ & HT).
    assert (texts' = texts) by (eapply part_texts_once; eassumption). subst texts'.
    assert (k < length texts)%nat as Hk by (apply nth_error_Some; congruence).
    destruct (nth_error pdus k) as [p|] eqn:Ep; [|apply nth_error_None in Ep; lia].
    assert (Hq : In (s, p) order).
    { apply (Permutation_in _ (Permutation_sym P)), in_flat_map. exists (s, pdus).
      split; [exact Hin|]. cbn [fst snd]. apply in_map. eapply nth_error_In; eassumption. }
    destruct (Forall2_In_l _ _ _ _ F Hq) as (pdu & Hpdu & Hr). cbn [fst snd] in Hr.
    destruct (Forall2_In_l _ _ _ _ HD Hpdu) as (d & Hd & Ed).
    destruct (HT k p pdu strict Ep Hr) as (d1 & t1 & Ed1 & Ht1 & Ea).
    assert (d1 = d) by congruence. subst d1. assert (t1 = t) by congruence. subst t1.
    exists d. split; [exact Hd|]. rewrite Ea. left. unfold zlen. now rewrite Hl.
Qed.

Lemma nth_same {A} (l : list A) : forall l', length l = length l' ->
  (forall k x, nth_error l k = Some x -> nth_error l' k = Some x) -> l = l'.
Proof.
  induction l as [|a l IH]; intros [|b l'] L H; cbn in L; try discriminate; [reflexivity|].
  pose proof (H 0%nat a eq_refl) as H0. cbn in H0. f_equal; [congruence|].
  apply IH; [lia|]. intros k x Hk. exact (H (S k) x Hk).
Qed.
