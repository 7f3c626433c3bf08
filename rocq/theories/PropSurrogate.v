(** C89 and C90: characters beyond the 16-bit range in submitted messages. *)
From Coq Require Import Lia ZifyBool ZifyNat.
From Verif Require Import Py PyFacts SpecGsm SpecPack SpecAddress SpecTime SpecSubmit SpecParts
  SpecSurrogate Gsm GsmFacts Utils PackFacts ValidityFacts Submit SubmitClaims NumberFacts
  SplitFacts SubmitFacts ToPduFacts PropSubmit PropParts.
Ltac Zify.zify_post_hook ::= Z.div_mod_to_equations.
Open Scope Z_scope.

(** * Exactly where a UCS-2 text is cut *)

Lemma cut_chunks w : (2 <= w)%nat -> forall fuel t, (length t <= fuel)%nat -> ~ In 27 t ->
  forall k p, nth_error (cut fuel w t) k = Some p -> p = firstn w (skipn (w * k) t) /\ (w * k < length t)%nat.
Proof.
  intros Hw. induction fuel as [|f IH]; intros t Hf H27 k p Hk.
  - destruct t; [|cbn in Hf; lia]. destruct k; discriminate.
  - destruct t as [|c t0] eqn:Et; [destruct k; discriminate|]. rewrite <- Et in *.
    assert (t <> []) as Hne by congruence.
    rewrite cut_cons in Hk by assumption. cbv zeta in Hk.
    replace (last (firstn w t) 0 =? 27) with false in Hk.
    2:{ symmetry. apply Z.eqb_neq. intros C. apply H27.
        rewrite <- (firstn_skipn w t). apply in_or_app. left. rewrite <- C.
        destruct (exists_last (firstn_nonempty t w Hne ltac:(lia))) as (q & x & ->).
        rewrite last_last. apply in_or_app. right. left. reflexivity. }
    destruct k as [|k]; cbn [nth_error] in Hk.
    + injection Hk as <-. rewrite Nat.mul_0_r. split; [reflexivity|]. rewrite Et. cbn. lia.
    + destruct (IH (skipn w t)) with (k := k) (p := p) as [-> Hl].
      * rewrite skipn_length. rewrite Et in *. cbn [length] in *. lia.
      * intros C. apply H27. rewrite <- (firstn_skipn w t). apply in_or_app. now right.
      * exact Hk.
      * rewrite skipn_skipn, skipn_length in *. split; [f_equal; f_equal; lia|lia].
Qed.

Lemma to_pdu_ucs2 s pdus s' : wf_submit s -> validity_ok (s_validity s) -> coding_of s = 8 ->
  to_pdu s = (Ok pdus, s') -> length pdus <> 1%nat ->
  exists ref parts, octet ref /\ split_text (chars (s_text s)) 67 = Ok parts /\
    length parts = length pdus /\ 70 < zlen (chars (s_text s)) /\
    forall k p m, nth_error pdus k = Some p -> nth_error parts k = Some m ->
      exists udl ud, carries s 8 (message_ref s) true udl ud p /\
        part_ud 8 ref (zlen pdus) (1 + Z.of_nat k) m udl ud.
Proof.
  intros Hwf Hv Hc E Hne.
  destruct (to_pdu_decompose s Hwf Hv) as (mr & l & Er & Hmr & -> & Hl & Hd & H).
  rewrite E, Hc in H. destruct H as (_ & _ & mk & ms & Em & Ep & _ & Hcar).
  unfold message_ud in Em. cbn [Z.eqb Pos.eqb] in Em. unfold UCS2_SIZE in Em.
  destruct (zlen (chars (s_text s)) <=? 70) eqn:EL.
  { exfalso. unfold st_bind, st_lift, st_ret in Em.
    destruct (pack_8bits_to_ucs2 (s_text s) None) as [m0|e]; [|discriminate].
    assert (ms = [m0]) as -> by congruence. rewrite Ep in Hne. now cbn in Hne. }
  destruct (split_sms_message_inv 8 (s_text s) (ref_state s (message_ref s) l) ms s') as
    (ref & parts & l2 & os & Es & -> & Esp & H2 & Ec & Hs & [He1 He2] & Hdr & Ho & Hl2);
    [auto|exact Hl|discriminate|discriminate|cbn; lia|exact Em|].
  exists ref, parts. split; [exact Ho|]. split; [exact Esp|].
  assert (Ep' : pdus = map (fun p => mk true (zlen parts) (fst p) (snd p))
      (combine (map (fun k => 1 + Z.of_nat k) (seq 0 (length os))) (map hex_of os))).
  { rewrite Ep. unfold zlen in *. rewrite <- He1 in *. rewrite map_length.
    destruct os as [|o1 [|o2 os]]; [cbn in H2; lia|cbn in H2; lia|reflexivity]. }
  assert (El : length parts = length pdus).
  { rewrite Ep', map_length, combine_length, !map_length, seq_length. lia. }
  split; [exact El|]. split; [lia|]. intros k p m Hk Hm.
  assert (k < length os)%nat as Hko by (rewrite He1; apply nth_error_Some; congruence).
  destruct (nth_error os k) as [o|] eqn:Eok; [|apply nth_error_None in Eok; lia].
  destruct (He2 k m o Hm Eok) as (udl & ud & -> & Hoct & Hud & _).
  assert (nth_error (combine (map (fun k => 1 + Z.of_nat k) (seq 0 (length os))) (map hex_of os)) k
            = Some (1 + Z.of_nat k, hex_of (udl :: ud))) as Enth.
  { assert (forall (A B : Type) (x : list A) (y : list B) j a b, nth_error x j = Some a ->
        nth_error y j = Some b -> nth_error (combine x y) j = Some (a, b)) as NC.
    { clear. induction x as [|a' x IH]; intros [|b' y] [|j] a b; cbn; try discriminate.
      - intros A1 B1. congruence.
      - apply IH. }
    apply NC.
    - rewrite nth_error_map, (nth_error_nth' (seq 0 (length os)) 0%nat) by now rewrite seq_length.
      rewrite seq_nth by assumption. reflexivity.
    - rewrite nth_error_map, Eok. reflexivity. }
  rewrite Ep', nth_error_map, Enth in Hk. cbn [option_map fst snd] in Hk.
  assert (p = mk true (zlen parts) (1 + Z.of_nat k) (hex_of (udl :: ud))) as -> by congruence.
  exists udl, ud. split; [now apply Hcar|].
  unfold zlen at 1 in Hud. rewrite El in Hud. exact Hud.
Qed.

(** The part of a UCS-2 text in the PDU number [k], counted from 0, starts at the
    unit [67 * k]: every part but the last has 67 units. *)
Theorem C89_cut_at : forall s pdus s', reachable s -> validity_ok (s_validity s) -> coding_of s = 8 ->
  ~ In 27 (chars (s_text s)) -> to_pdu s = (Ok pdus, s') -> length pdus <> 1%nat ->
  exists ref, forall k p, nth_error pdus k = Some p -> exists udl ud,
    carries s 8 (message_ref s) true udl ud p /\
    part_ud 8 ref (zlen pdus) (1 + Z.of_nat k) (firstn 67 (skipn (67 * k) (chars (s_text s)))) udl ud.
Proof.
  intros s pdus s' Hr Hv Hc H27 E Hne.
  destruct (to_pdu_ucs2 s pdus s' (reachable_wf _ Hr) Hv Hc E Hne) as (ref & parts & Ho & Es & El & _ & H).
  exists ref. intros k p Hk.
  destruct (nth_error parts k) as [m|] eqn:Em.
  2:{ apply nth_error_None in Em. assert (k < length pdus)%nat by (apply nth_error_Some; congruence). lia. }
  rewrite split_text_cut in Es by lia.
  change (Z.to_nat 67) with 67%nat in Es.
  assert (parts = cut (S (length (chars (s_text s)))) 67 (chars (s_text s))) as -> by congruence.
  destruct (cut_chunks 67 ltac:(lia) _ _ (Nat.le_succ_diag_r _) H27 k m Em) as [<- _]. eauto.
Qed.
Print Assumptions C89_cut_at.

(** * C89: whole characters *)

Lemma utf16_split x : forall y, Utf16 (x ++ y) ->
  (forall q a b z, x = q ++ [a] -> y = b :: z -> high a -> low b -> False) -> Utf16 x /\ Utf16 y.
Proof.
  remember (length x) as n eqn:En. revert x En.
  induction n as [n IH] using lt_wf_ind. intros [|u [|v x]] En y H Hn.
  - split; [constructor|exact H].
  - cbn in H. inversion H as [|? ? Hu Hh Hl Hy|a b l Ha Hb Hl]; subst.
    + split; [|exact Hy]. constructor; auto. constructor.
    + exfalso. eapply (Hn [] u b l); eauto.
  - cbn in H. inversion H as [|? ? Hu Hh Hl Hy|a b l Ha Hb Hl]; subst.
    + destruct (IH (S (length x)) ltac:(cbn; lia) (v :: x) eq_refl y Hy) as [H1 H2].
      { intros q a b z E. apply (Hn (u :: q)). cbn. now rewrite E. }
      split; [|exact H2]. now constructor.
    + destruct (IH (length x) ltac:(cbn; lia) x eq_refl y Hl) as [H1 H2].
      { intros q a b z E. apply (Hn (u :: v :: q)). cbn. now rewrite E. }
      split; [|exact H2]. now constructor.
Qed.

Lemma utf16_last x : Utf16 x -> forall q a, x = q ++ [a] -> ~ high a.
Proof.
  induction 1 as [|u l Hu Hh Hl _ IH|a b l Ha Hb _ IH]; intros q c E.
  - now destruct q.
  - destruct q as [|u' q]; cbn in E.
    + now injection E as -> ->.
    + injection E as <- E. now apply (IH q).
  - destruct q as [|u' [|v q]]; cbn in E.
    + discriminate.
    + injection E as <- <- ->. unfold high, low in *. lia.
    + injection E as <- <- E. now apply (IH q).
Qed.

Lemma nth_error_skipn {A} : forall n i (l : list A), nth_error (skipn n l) i = nth_error l (n + i).
Proof. induction n as [|n IH]; intros i [|x l]; cbn; auto. now destruct i. Qed.

Lemma chunk_last_unit (w i : nat) (t : list Z) a : (0 < w)%nat ->
  nth_error t (w * i + (w - 1)) = Some a ->
  exists q, firstn w (skipn (w * i) t) = q ++ [a].
Proof.
  intros Hw H. set (x := skipn (w * i) t).
  assert (nth_error x (w - 1) = Some a) as Hx.
  { unfold x. rewrite nth_error_skipn. exact H. }
  apply nth_error_split in Hx as (q & r & -> & Hq). exists q.
  replace (q ++ a :: r) with ((q ++ [a]) ++ r) by now rewrite <- app_assoc.
  rewrite firstn_app, firstn_all2 by (rewrite app_length; cbn; lia).
  replace (w - length (q ++ [a]))%nat with 0%nat by (rewrite app_length; cbn; lia).
  apply app_nil_r.
Qed.

Lemma utf16_chunks (w : nat) (t : list Z) : (0 < w)%nat -> Utf16 t ->
  (forall k, ~ pair_at t (w * k + (w - 1))) ->
  forall k, Utf16 (firstn w (skipn (w * k) t)) /\ Utf16 (skipn (w * S k) t).
Proof.
  intros Hw Ht Hp.
  assert (forall k, Utf16 (skipn (w * k) t) ->
    Utf16 (firstn w (skipn (w * k) t)) /\ Utf16 (skipn (w * S k) t)) as Hstep.
  { intros k Hk. replace (w * S k)%nat with (w + w * k)%nat by lia. replace (skipn (w + w * k) t) with (skipn w (skipn (w * k) t)) by (rewrite skipn_skipn; f_equal; lia).
    apply utf16_split; [rewrite (firstn_skipn w (skipn (w * k) t)); exact Hk|].
    intros q a b z E1 E2 Ha Hb. apply (Hp k). exists a, b.
    assert (length (firstn w (skipn (w * k) t)) = w) as El.
    { apply firstn_length_le. apply (f_equal (@length Z)) in E2. rewrite skipn_length in E2.
      cbn [length] in E2. lia. }
    assert (length q = (w - 1)%nat) as Eq.
    { rewrite E1, app_length in El. cbn in El. lia. }
    assert (skipn (w * k) t = q ++ a :: b :: z) as Ex.
    { rewrite <- (firstn_skipn w (skipn (w * k) t)), E1, E2, <- app_assoc. reflexivity. }
    split; [|split; [|auto]].
    - rewrite <- nth_error_skipn, Ex, <- Eq. rewrite nth_error_app2, Nat.sub_diag by lia. reflexivity.
    - replace (S (w * k + (w - 1)))%nat with (w * k + S (length q))%nat by lia.
      rewrite <- nth_error_skipn, Ex. rewrite nth_error_app2 by lia.
      replace (S (length q) - length q)%nat with 1%nat by lia. reflexivity. }
  induction k as [|k IH]; apply Hstep.
  - now rewrite Nat.mul_0_r.
  - apply IH.
Qed.

(** The parts of a UCS-2 message are texts of their own exactly when no character
    of two units starts at the unit number [67 * k + 66], for any [k]. *)
Theorem C89_exact : forall s pdus s', reachable s -> validity_ok (s_validity s) -> coding_of s = 8 ->
  ~ In 27 (chars (s_text s)) -> Utf16 (chars (s_text s)) ->
  to_pdu s = (Ok pdus, s') -> length pdus <> 1%nat ->
  exists ref parts, concat parts = chars (s_text s) /\ length parts = length pdus /\
    (forall k p m, nth_error pdus k = Some p -> nth_error parts k = Some m -> exists udl ud,
       carries s 8 (message_ref s) true udl ud p /\
       part_ud 8 ref (zlen pdus) (1 + Z.of_nat k) m udl ud) /\
    (Forall Utf16 parts <-> forall k, ~ pair_at (chars (s_text s)) (67 * k + 66)).
Proof.
  intros s pdus s' Hr Hv Hc H27 Hu E Hne.
  destruct (to_pdu_ucs2 s pdus s' (reachable_wf _ Hr) Hv Hc E Hne) as (ref & parts & Ho & Es & El & _ & H).
  exists ref, parts. set (t := chars (s_text s)) in *.
  assert (concat parts = t) as Ec.
  { destruct (split_text_spec t 67 ltac:(lia)) as (ps & E1 & E2 & _). congruence. }
  split; [exact Ec|]. split; [exact El|]. split; [exact H|].
  rewrite split_text_cut in Es by lia. change (Z.to_nat 67) with 67%nat in Es.
  assert (parts = cut (S (length t)) 67 t) as Ecut by congruence.
  assert (forall k m, nth_error parts k = Some m ->
    m = firstn 67 (skipn (67 * k) t) /\ (67 * k < length t)%nat) as Hch.
  { rewrite Ecut. apply cut_chunks; [lia|lia|exact H27]. }
  split.
  - intros HF k (a & b & Ha & Hb & Hha & Hlb).
    change 66%nat with (67 - 1)%nat in Ha.
    destruct (chunk_last_unit 67 k t a ltac:(lia) Ha) as (q & Eq).
    assert (k < length parts)%nat as Hk.
    { assert (67 * k + 66 < length t)%nat by (apply nth_error_Some; cbn in Ha |- *; congruence).
      destruct (Nat.lt_ge_cases k (length parts)) as [L|L]; [exact L|]. exfalso.
      assert (length t <= 67 * length parts)%nat; [|nia]. clear - Hch Ec. rewrite <- Ec at 1.
      assert (Forall (fun p : list Z => (length p <= 67)%nat) parts) as HF.
      { apply Forall_forall. intros p Hin. apply In_nth_error in Hin as (j & Hj).
        destruct (Hch j p Hj) as [-> _]. rewrite firstn_length. lia. }
      clear - HF. induction HF; cbn [concat length]; [lia|]. rewrite app_length. lia. }
    destruct (nth_error parts k) as [m|] eqn:Em; [|apply nth_error_None in Em; lia].
    destruct (Hch k m Em) as [Em' _]. rewrite Eq in Em'.
    rewrite Forall_forall in HF. apply (utf16_last m) with (q := q) (a := a); auto.
    apply HF. eapply nth_error_In. exact Em.
  - intros Hp. apply Forall_forall. intros m Hin. apply In_nth_error in Hin as (k & Hk).
    destruct (Hch k m Hk) as [-> _]. apply (utf16_chunks 67 t); [lia|exact Hu|exact Hp].
Qed.
Print Assumptions C89_exact.

(** A text with such a character is cut in the middle of it: the parts are not
    texts of their own. *)
Theorem C89_torn_refuted : forall s pdus s' k, reachable s -> validity_ok (s_validity s) -> coding_of s = 8 ->
  ~ In 27 (chars (s_text s)) -> to_pdu s = (Ok pdus, s') -> length pdus <> 1%nat ->
  pair_at (chars (s_text s)) (67 * k + 66) ->
  exists ref p udl ud m a, nth_error pdus k = Some p /\
    carries s 8 (message_ref s) true udl ud p /\
    part_ud 8 ref (zlen pdus) (1 + Z.of_nat k) (m ++ [a]) udl ud /\ high a /\ ~ Utf16 (m ++ [a]).
Proof.
  intros s pdus s' k Hr Hv Hc H27 E Hne (a & b & Ha & _ & Hha & _).
  destruct (to_pdu_ucs2 s pdus s' (reachable_wf _ Hr) Hv Hc E Hne) as (ref & parts & Ho & Es & El & _ & H).
  set (t := chars (s_text s)) in *.
  rewrite split_text_cut in Es by lia. change (Z.to_nat 67) with 67%nat in Es.
  assert (parts = cut (S (length t)) 67 t) as Ecut by congruence.
  assert (k < length parts)%nat as Hk.
  { rewrite Ecut. assert (67 * k + 66 < length t)%nat as Hlt by (apply nth_error_Some; congruence).
    clear - H27 Hlt. assert (forall f t j, (length t <= f)%nat -> ~ In 27 t -> (67 * j < length t)%nat ->
      (j < length (cut f 67 t))%nat) as G; [|apply G; [lia|exact H27|lia]].
    clear. induction f as [|f IH]; intros t j Hf H27 Hj; [lia|].
    assert (t <> []) as Hne by (intros ->; cbn in Hj; lia).
    rewrite cut_cons by exact Hne. cbv zeta. cbn [length].
    replace (last (firstn 67 t) 0 =? 27) with false.
    2:{ symmetry. apply Z.eqb_neq. intros C. apply H27.
        rewrite <- (firstn_skipn 67 t). apply in_or_app. left. rewrite <- C.
        destruct (exists_last (firstn_nonempty t 67 Hne ltac:(lia))) as (q & x & ->).
        rewrite last_last. apply in_or_app. right. left. reflexivity. }
    destruct j as [|j]; [lia|]. apply -> Nat.succ_lt_mono. apply IH.
    - rewrite skipn_length. lia.
    - intros C. apply H27. rewrite <- (firstn_skipn 67 t). apply in_or_app. now right.
    - rewrite skipn_length. lia. }
  destruct (nth_error parts k) as [m|] eqn:Em; [|apply nth_error_None in Em; lia].
  destruct (nth_error pdus k) as [p|] eqn:Ep; [|apply nth_error_None in Ep; lia].
  destruct (H k p m Ep Em) as (udl & ud & C & P).
  rewrite Ecut in Em. destruct (cut_chunks 67 ltac:(lia) _ _ (Nat.le_succ_diag_r _) H27 k m Em) as [Em' _].
  change 66%nat with (67 - 1)%nat in Ha.
  destruct (chunk_last_unit 67 k t a ltac:(lia) Ha) as (q & Eq). rewrite Eq in Em'. subst m.
  exists ref, p, udl, ud, q, a. split; [first [reflexivity|assumption]|]. split; [exact C|]. split; [exact P|]. split; [exact Hha|].
  intros HU. exact (utf16_last _ HU q a eq_refl Hha).
Qed.
Print Assumptions C89_torn_refuted.
(** U+1F600 as the last character that starts in the first part, and one unit later. *)
Definition smiling (n : nat) : submit :=
  sample (PyStr true (repeat 20013 n ++ [55357; 56832] ++ repeat 20013 10)).
Example C89_case_torn : exists p q s', to_pdu (smiling 66) = (Ok [p; q], s') /\
  pair_at (chars (s_text (smiling 66))) (67 * 0 + 66).
Proof.
  do 3 eexists. split; [vm_compute; reflexivity|]. exists 55357, 56832.
  repeat split; unfold high, low; try lia; reflexivity.
Qed.
Lemma utf16_plain n l : Utf16 l -> Utf16 (repeat 20013 n ++ l).
Proof. intros H. induction n; [exact H|]. cbn. constructor; auto; unfold high, low; lia. Qed.
Example C89_case_whole : coding_of (smiling 65) = 8 /\ Utf16 (chars (s_text (smiling 65))) /\
  ~ In 27 (chars (s_text (smiling 65))) /\
  (exists p q s', to_pdu (smiling 65) = (Ok [p; q], s')) /\
  forall k, ~ pair_at (chars (s_text (smiling 65))) (67 * k + 66).
Proof.
  split; [vm_compute; reflexivity|]. split.
  { apply utf16_plain. constructor; [unfold high; lia|unfold low; lia|].
    apply (utf16_plain 10 []). constructor. }
  split. { vm_compute. intuition discriminate. }
  split. { do 3 eexists. vm_compute. reflexivity. }
  intros [|k] (a & b & Ha & Hb & H1 & H2).
  - vm_compute in Ha. assert (a = 56832) as -> by congruence. unfold high in H1. lia.
  - assert (67 * S k + 66 < length (chars (s_text (smiling 65))))%nat as L by (apply nth_error_Some; congruence).
    assert (length (chars (s_text (smiling 65))) = 77%nat) as X by reflexivity. rewrite X in L. lia.
Qed.

(** * C90: what the coding cannot represent *)

Lemma sent_encodable s pdus s' : wf_submit s -> validity_ok (s_validity s) ->
  coding_of s = 0 \/ coding_of s = 8 -> to_pdu s = (Ok pdus, s') -> encodable (coding_of s) (s_text s).
Proof.
  intros Hwf Hv Hc E. unfold encodable. destruct Hc as [Hc|Hc]; rewrite Hc; cbn [Z.eqb Pos.eqb].
  - destruct (to_pdu_decompose s Hwf Hv) as (mr & l & _ & _ & _ & _ & _ & H).
    rewrite E, Hc in H. destruct H as (_ & _ & mk & ms & Em & _).
    unfold message_ud in Em. cbn [Z.eqb] in Em. unfold st_bind at 1, st_lift in Em.
    apply is_gsm_text_spec. unfold is_gsm_text.
    destruct (gsm_encode (s_text s)); [reflexivity|discriminate].
  - destruct (to_pdu_inv s pdus s' Hwf Hv ltac:(lia) E) as (mr & l & _ & _ & _ & _ & _ & H).
    cbv zeta in H. rewrite Hc in H. destruct H as [(q & udl & ud & n & _ & _ & _ & _ & _ & Hs & _)|
                 (ref & parts & l2 & n & _ & _ & H2 & Hz & Hp & Hsz & Hr & _ & _ & _ & Hall)].
    + inversion Hs; assumption.
    + cbn in Hp. rewrite <- Hp. clear - Hz Hall. unfold zlen in Hz.
      apply Forall_concat. apply Forall_forall. intros m Hin. apply In_nth_error in Hin as (k & Hk).
      assert (k < length parts)%nat by (apply nth_error_Some; congruence).
      destruct (nth_error pdus k) as [p|] eqn:Ep; [|apply nth_error_None in Ep; lia].
      destruct (Hall k p m Ep Hk) as (_ & _ & udl & ud & [Hu _] & _). inversion Hu; assumption.
Qed.

(** In the GSM alphabet and in UCS-2, whatever the code sends it can represent. *)
Theorem C90_sent : forall s pdus s', reachable s -> validity_ok (s_validity s) ->
  coding_of s = 0 \/ coding_of s = 8 -> to_pdu s = (Ok pdus, s') -> encodable (coding_of s) (s_text s).
Proof. intros s pdus s' Hr. apply sent_encodable. now apply reachable_wf. Qed.
Print Assumptions C90_sent.

(** Everything else is refused with a ValueError, of which UnicodeError is a kind. *)
Theorem C90_refused : forall s, reachable s -> ready s -> coding_of s = 0 \/ coding_of s = 8 ->
  ~ encodable (coding_of s) (s_text s) ->
  exists e s', to_pdu s = (Err e, s') /\ (e = ValueError \/ e = UnicodeError).
Proof.
  intros s Hr Hd Hc Hn. apply reachable_wf in Hr.
  destruct (ready_any s Hr Hd Hc) as [(pdus & s' & E)|H]; [|exact H].
  exfalso. apply Hn. eapply sent_encodable; eauto. apply Hd.
Qed.
Print Assumptions C90_refused.

(** Not so in 8-bit coding: no Unicode text of less than 128 characters is refused,
    whatever its characters. *)
Theorem C90_eight_bit_refuted : forall s, reachable s -> ready s -> coding_of s = 4 ->
  is_uni (s_text s) = true -> zlen (chars (s_text s)) < 128 ->
  exists p s', to_pdu s = (Ok [p], s').
Proof.
  intros s Hr Hd Hc Hu Hl. apply reachable_wf in Hr.
  assert (exists m, forall s1, message_ud 4 (s_text s) s1 = (Ok [m], s1)) as (m & Em).
  { eexists. intros s1. unfold message_ud. cbn [Z.eqb Pos.eqb]. unfold EIGHTBIT_SIZE.
    replace (zlen (chars (s_text s)) <=? 140) with true by lia.
    unfold pack_8bits_to_8bit, st_bind, st_lift, st_ret. cbn [bind].
    pose proof (zlen_nonneg (chars (s_text s))).
    rewrite py_chr_octet by (unfold is_octet; lia). cbn [bind]. unfold pystr_add. rewrite Hu.
    cbn [is_uni chars]. unfold is_ascii. cbn [forallb].
    replace (zlen (chars (s_text s)) <? 128) with true by lia. cbn [andb bind]. reflexivity. }
  destruct (to_pdu_ready s Hr Hd) as (mr & l & Hl2 & H). rewrite Hc, Em in H. destruct H as (pdus & E).
  destruct (to_pdu_decompose s Hr ltac:(apply Hd)) as (mr2 & l2 & _ & _ & _ & _ & _ & H).
  rewrite E, Hc, Em in H. destruct H as (_ & _ & mk & ms & E2 & Ep & _).
  assert (ms = [m]) as -> by congruence. rewrite Ep in E. eauto.
Qed.
Print Assumptions C90_eight_bit_refuted.
Example C90_case : reachable (sample (PyStr true [128512])) /\ ready (sample (PyStr true [128512])) /\
  coding_of (sample (PyStr true [128512])) = 8 /\ ~ encodable 8 (PyStr true [128512]) /\
  fst (to_pdu (sample (PyStr true [128512]))) = Err ValueError.
Proof.
  split; [apply sample_reachable|]. split; [apply sample_ready_auto|]. split; [vm_compute; reflexivity|].
  split; [|vm_compute; reflexivity].
  intros H. cbn in H. apply Forall_inv in H. unfold unit16 in H. lia.
Qed.
