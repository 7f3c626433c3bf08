(** C82: the number of parts of a message. *)
From Coq Require Import Lia ZifyBool ZifyNat.
From Verif Require Import Py PyFacts SpecGsm SpecPack SpecAddress SpecTime SpecSubmit SpecParts
  Gsm GsmFacts Utils PackFacts ValidityFacts Submit SubmitClaims NumberFacts SplitFacts
  SubmitFacts ToPduFacts PropSubmit.
Open Scope Z_scope.

(** The cut made by the code is ahead of every other cut. *)
Lemma cut_fewest w : (2 <= w)%nat -> forall ps x rest fuel, (length rest <= fuel)%nat ->
  Forall (fun p => (length p <= w)%nat /\ last p 0 <> 27) ps -> concat ps = x ++ rest ->
  (length (cut fuel w rest) <= length ps)%nat.
Proof.
  intros Hw. induction ps as [|p ps IH]; intros x rest fuel Hf Hp E.
  - cbn [concat] in E. symmetry in E. apply app_eq_nil in E. destruct E as [_ ->]. destruct fuel; cbn; lia.
  - destruct rest as [|c rest0] eqn:Er; [destruct fuel; cbn; lia|]. rewrite <- Er in *.
    destruct fuel as [|f]; [rewrite Er in Hf; cbn in Hf; lia|].
    rewrite cut_cons by (rewrite Er; discriminate). cbv zeta.
    set (k := if last (firstn w rest) 0 =? 27 then (w - 1)%nat else w).
    assert (Hk : (1 <= k <= w)%nat) by (unfold k; destruct (_ =? 27); lia).
    cbn [length]. apply le_n_S.
    destruct (Forall_inv Hp) as [Hl Hlast]. apply Forall_inv_tail in Hp. cbn [concat] in E.
    assert (Hf' : (length (skipn k rest) <= f)%nat).
    { rewrite skipn_length. assert (length rest = S (length rest0)) by (rewrite Er; reflexivity). lia. }
    destruct (le_lt_dec (length p) (length x)) as [Hx|Hx].
    + apply (IH (skipn (length p) x ++ firstn k rest) (skipn k rest) f Hf' Hp).
      rewrite <- app_assoc, firstn_skipn.
      apply (f_equal (skipn (length p))) in E. rewrite !skipn_app, Nat.sub_diag, skipn_all in E.
      replace (length p - length x)%nat with 0%nat in E by lia. exact E.
    + (* the other part reaches into [rest] *)
      set (y := skipn (length x) p).
      assert (Ey : rest = y ++ concat ps).
      { apply (f_equal (skipn (length x))) in E. rewrite !skipn_app, Nat.sub_diag, skipn_all in E.
        replace (length x - length p)%nat with 0%nat in E by lia. symmetry. exact E. }
      assert (Hy : length y = (length p - length x)%nat) by (unfold y; rewrite skipn_length; reflexivity).
      assert (Hyk : (length y <= k)%nat).
      { unfold k. destruct (last (firstn w rest) 0 =? 27) eqn:E27; [|lia].
        destruct (Nat.eq_dec (length y) w) as [Ew|]; [|lia]. exfalso.
        assert (x = []) by (apply length_zero_iff_nil; lia). subst x.
        rewrite Ey, firstn_app, firstn_all2, Ew, Nat.sub_diag, app_nil_r in E27 by lia.
        unfold y in E27. cbn [length skipn] in E27. lia. }
      apply (IH (firstn (k - length y) (concat ps)) (skipn k rest) f Hf' Hp).
      rewrite Ey, skipn_app, skipn_all2 by lia. symmetry. apply firstn_skipn.
Qed.

(** How many PDUs are written for a long message. *)
Lemma message_ud_split coding text s ms s' :
  Forall (fun i => 0 <= i < 255) (s_id_list s) ->
  (coding = 4 -> Forall octet (chars text)) ->
  message_ud coding text s = (Ok ms, s') -> length ms <> 1%nat ->
  exists g parts, (if coding =? 0 then gsm_text (chars text) g else g = chars text) /\
    split_text g (part_capacity coding) = Ok parts /\ length ms = length parts.
Proof.
  intros Hid H4 E Hne. pose proof (message_ud_coding _ _ _ _ _ E) as Hc.
  destruct Hc as [->|[->| ->]]; cbn [Z.eqb Pos.eqb].
  - unfold message_ud in E. cbn [Z.eqb] in E. unfold st_bind at 1, st_lift in E.
    destruct (gsm_encode text) as [g|e] eqn:Eg; [|discriminate].
    pose proof Eg as Eg'. apply gsm_encode_text in Eg' as [_ Hg].
    destruct (zlen g <=? 160) eqn:EL.
    + exfalso. destruct (message_gsm_single text g s Eg ltac:(lia)) as (ud & P & O & E2).
      unfold message_ud in E2. cbn [Z.eqb] in E2. unfold st_bind at 1, st_lift in E2.
      rewrite Eg in E2. rewrite E in E2. injection E2 as -> ->. cbn in Hne. congruence.
    + unfold st_bind, st_upd, SEVENBIT_SIZE in E. rewrite EL in E.
      destruct (split_sms_message_inv 0 (PyStr false g) (with_text_gsm (Some g) s) ms s') as
        (ref & parts & l & os & Es & Em & Esp & H2 & Ec & Hs & [He _] & Hd & Ho & Hl).
      * auto. * exact Hid. * intros _. eapply septets_of_text; eassumption. * discriminate.
      * cbn. lia. * exact E.
      * exists g, parts. split; [exact Hg|]. split; [exact Esp|]. rewrite Em, map_length. exact He.
  - unfold message_ud in E. cbn [Z.eqb Pos.eqb] in E. unfold EIGHTBIT_SIZE in E.
    destruct (zlen (chars text) <=? 140) eqn:EL.
    + exfalso. pose proof (message_8bit_single text s ltac:(lia) (H4 eq_refl)) as E2.
      unfold message_ud in E2. cbn [Z.eqb Pos.eqb] in E2. unfold EIGHTBIT_SIZE in E2.
      rewrite EL, E in E2. destruct (negb (is_uni text) || (zlen (chars text) <? 128)); [|discriminate].
      injection E2 as -> ->. cbn in Hne. congruence.
    + destruct (split_sms_message_inv 4 text s ms s') as
        (ref & parts & l & os & Es & Em & Esp & H2 & Ec & Hs & [He _] & Hd & Ho & Hl).
      * auto. * exact Hid. * discriminate. * auto.
      * cbn. lia. * exact E.
      * exists (chars text), parts. split; [reflexivity|]. split; [exact Esp|]. rewrite Em, map_length. exact He.
  - unfold message_ud in E. cbn [Z.eqb Pos.eqb] in E. unfold UCS2_SIZE in E.
    destruct (zlen (chars text) <=? 70) eqn:EL.
    + exfalso. pose proof (message_ucs2_single text s ltac:(lia)) as E2.
      unfold message_ud in E2. cbn [Z.eqb Pos.eqb] in E2. unfold UCS2_SIZE in E2.
      rewrite EL, E in E2.
      destruct (forallb (fun u => (0 <=? u) && (u <? 65536)) (chars text)) eqn:F; [|discriminate].
      injection E2 as -> ->. cbn in Hne. congruence.
    + destruct (split_sms_message_inv 8 text s ms s') as
        (ref & parts & l & os & Es & Em & Esp & H2 & Ec & Hs & [He _] & Hd & Ho & Hl).
      * auto. * exact Hid. * discriminate. * discriminate.
      * cbn. lia. * exact E.
      * exists (chars text), parts. split; [reflexivity|]. split; [exact Esp|]. rewrite Em, map_length. exact He.
Qed.

Lemma to_pdu_split s pdus s' : wf_submit s -> validity_ok (s_validity s) ->
  (coding_of s = 4 -> Forall octet (chars (s_text s))) ->
  to_pdu s = (Ok pdus, s') -> length pdus <> 1%nat ->
  (coding_of s = 0 \/ coding_of s = 4 \/ coding_of s = 8) /\
  exists g parts, (if coding_of s =? 0 then gsm_text (chars (s_text s)) g else g = chars (s_text s)) /\
    split_text g (part_capacity (coding_of s)) = Ok parts /\ length pdus = length parts.
Proof.
  intros Hwf Hv H4 E Hne.
  destruct (to_pdu_decompose s Hwf Hv) as (mr & l & Er & Hmr & Emr & Hl & Hd & H).
  rewrite E in H. destruct H as (_ & Hc & mk & ms & Em & Ep & _). split; [exact Hc|].
  assert (El : length pdus = length ms).
  { rewrite Ep. destruct ms as [|m [|m2 ms]]; [reflexivity|reflexivity|].
    rewrite map_length, combine_length, map_length, seq_length. lia. }
  rewrite El in *. eapply message_ud_split; eauto. exact Hl.
Qed.

(** No way of sending the text needs fewer messages than [to_pdu] returns.  Missing:
    8-bit and UCS-2 texts with the character 27, which the code takes for the
    escape of the GSM alphabet there too. *)
Theorem C82_fewest_partial : forall s pdus s' parts,
  reachable s -> validity_ok (s_validity s) ->
  (coding_of s = 4 -> Forall octet (chars (s_text s))) ->
  (coding_of s <> 0 -> ~ In 27 (chars (s_text s))) ->
  to_pdu s = (Ok pdus, s') -> message_split (coding_of s) (chars (s_text s)) parts ->
  (length pdus <= length parts)%nat.
Proof.
  intros s pdus s' parts Hr Hv H4 H27 E [Hp Hfit].
  assert (Hwf : wf_submit s) by (now apply reachable_wf).
  destruct (Nat.eq_dec (length pdus) 1) as [E1|N1].
  { destruct parts; [contradiction|]. rewrite E1. cbn. lia. }
  destruct (to_pdu_split s pdus s' Hwf Hv H4 E N1) as (Hc & g & ps & Hg & Es & El).
  assert (Hn : message_size (coding_of s) (chars (s_text s)) (zlen g)).
  { unfold message_size, zlen. destruct (coding_of s =? 0); [eauto|congruence]. }
  destruct (C15_threshold s pdus s' (zlen g) Hr Hv H4 Hn E) as [T1 _].
  assert (Hbig : capacity (coding_of s) < zlen g).
  { destruct (Z_lt_le_dec (capacity (coding_of s)) (zlen g)) as [X|X]; [exact X|].
    specialize (T1 X). unfold zlen in T1. lia. }
  assert (Ec : concat parts = g).
  { unfold parts_of in Hp. destruct (coding_of s =? 0); [|congruence].
    destruct Hp as (texts & Ht & Ec). eapply gsm_text_det; [|exact Hg]. rewrite <- Ec. clear - Ht.
    induction Ht; cbn; [now apply gsm_text_nil|now apply gsm_text_app]. }
  assert (Hfit' : Forall (fun p => Z.of_nat (length p) <= part_capacity (coding_of s)) parts).
  { destruct parts as [|p [|q parts]]; [contradiction| |exact Hfit].
    exfalso. cbn [concat] in Ec. rewrite app_nil_r in Ec. subst g. unfold zlen in Hbig. lia. }
  assert (Hlast : Forall (fun p => last p 0 <> 27) parts).
  { unfold parts_of in Hp. destruct (coding_of s =? 0) eqn:E0.
    - destruct Hp as (texts & Ht & _). clear - Ht. induction Ht as [|t p ts ps H _ IH]; constructor; auto.
      apply clean_no_trailing_esc. eapply gsm_text_clean. exact H.
    - apply Forall_forall. intros p Hin Hl. apply H27; [lia|]. rewrite <- Hp.
      apply in_concat. exists p. split; [exact Hin|]. rewrite <- Hl.
      destruct (exists_last (l := p)) as (q & c & ->).
      + intros ->. cbn in Hl. lia.
      + rewrite last_last. apply in_or_app. right. left. reflexivity. }
  rewrite El. assert (Hw : 2 <= part_capacity (coding_of s)).
  { unfold part_capacity. destruct (coding_of s =? 0), (coding_of s =? 4); lia. }
  rewrite split_text_cut in Es by exact Hw. assert (ps = cut (S (length g)) (Z.to_nat (part_capacity (coding_of s))) g) as -> by congruence.
  assert (Hw' : (2 <= Z.to_nat (part_capacity (coding_of s)))%nat) by lia.
  apply (cut_fewest _ Hw' parts [] g); [lia| |exact Ec].
  rewrite Forall_forall in *. intros p Hin. split; [specialize (Hfit' p Hin); cbn beta in Hfit'; lia|auto].
Qed.
Print Assumptions C82_fewest_partial.
(** The escape sequence of the euro sign would fall on the boundary: 306 septets
    need three messages, not two. *)
Example C82_case : let s := sample (PyStr true (repeat 97 152 ++ [8364] ++ repeat 98 152)) in
  reachable s /\ validity_ok (s_validity s) /\ coding_of s = 0 /\
  (exists p q r s', to_pdu s = (Ok [p; q; r], s')) /\
  message_split 0 (chars (s_text s)) [repeat 97 152; [27; 101] ++ repeat 98 151; [98]].
Proof.
  cbv zeta. split; [apply sample_reachable|]. split; [exact I|]. split; [reflexivity|]. split.
  - do 4 eexists. vm_compute. reflexivity.
  - split; [|repeat constructor; vm_compute; discriminate].
    exists [repeat 97 152; 8364 :: repeat 98 151; [98]]. split; [|vm_compute; reflexivity].
    assert (H : forall us b, gsm_encode (PyStr true us) = Ok b -> gsm_text us b)
      by (intros us b E; apply gsm_encode_text in E; apply E).
    repeat apply Forall2_cons; [..|apply Forall2_nil]; apply H; vm_compute; reflexivity.
Qed.

(** C82 is false of UCS-2 texts with the character 27: two messages would do. *)
Theorem C82_escape_refuted : exists s p q r s' parts,
  reachable s /\ validity_ok (s_validity s) /\ coding_of s = 8 /\
  to_pdu s = (Ok [p; q; r], s') /\ message_split 8 (chars (s_text s)) parts /\ length parts = 2%nat.
Proof.
  exists (sample (PyStr true (repeat 1071 66 ++ [27] ++ repeat 1071 67))). do 4 eexists.
  exists [repeat 1071 66 ++ [27]; repeat 1071 67].
  split; [apply sample_reachable|]. split; [exact I|]. split; [vm_compute; reflexivity|].
  split; [vm_compute; reflexivity|]. split; [|reflexivity]. split; [vm_compute; reflexivity|].
  repeat constructor; vm_compute; discriminate.
Qed.
Print Assumptions C82_escape_refuted.
