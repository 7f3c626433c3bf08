(** Consequences of the main lemma about [to_pdu] (SubmitFacts.v). *)
From Coq Require Import Lia ZifyBool ZifyNat.
From Verif Require Import Py PyFacts SpecGsm SpecPack SpecAddress SpecTime SpecSubmit
  Gsm GsmFacts Utils PackFacts ValidityFacts Submit SubmitClaims NumberFacts SplitFacts
  SubmitFacts.
Open Scope Z_scope.
Ltac Zify.zify_post_hook ::= Z.div_mod_to_equations.

(** * The invariant *)

Definition keeps {A} (m : ST submit A) : Prop := forall s, wf_submit s -> wf_submit (snd (m s)).

Lemma keeps_bind {A B} (m : ST submit A) (f : A -> ST submit B) :
  keeps m -> (forall a, keeps (f a)) -> keeps (st_bind m f).
Proof.
  intros Hm Hf s Hs. unfold st_bind. specialize (Hm s Hs).
  destruct (m s) as [[a|e] s']; cbn in *; [now apply Hf|assumption].
Qed.
Lemma keeps_lift {A} (r : res A) : keeps (st_lift r).
Proof. intros s H. exact H. Qed.
Lemma keeps_ret {A} (a : A) : keeps (st_ret a).
Proof. intros s H. exact H. Qed.
Lemma keeps_err {A} e : keeps (@st_err submit A e).
Proof. intros s H. exact H. Qed.
Lemma keeps_get : keeps (@st_get submit).
Proof. intros s H. exact H. Qed.

Lemma keeps_rand : keeps get_rand_id.
Proof.
  intros s Hs. destruct (rand_id_ok s) as (i & l & E & _ & Hl & _); [apply Hs|].
  rewrite E. cbn. destruct Hs as (H1 & H2 & H3 & _). repeat split; assumption.
Qed.

Ltac keeps_with t := repeat
  (first [t | apply keeps_rand | apply keeps_bind; [|intros] | apply keeps_lift | apply keeps_ret | apply keeps_err
         | apply keeps_get | (intros ? HK; exact HK)
         | match goal with |- keeps (match ?x with _ => _ end) => destruct x end]).

Ltac keeps := keeps_with ltac:(fail).

Lemma keeps_tpmessref : keeps get_tpmessref_pdu.
Proof. unfold get_tpmessref_pdu. keeps. Qed.

Lemma keeps_message_ud c t : keeps (message_ud c t).
Proof. unfold message_ud, split_sms_message. keeps. Qed.

Lemma keeps_msg_pdu : keeps get_msg_pdu.
Proof.
  unfold get_msg_pdu. keeps_with ltac:(apply keeps_message_ud).
Qed.

Lemma keeps_to_pdu : keeps to_pdu.
Proof.
  unfold to_pdu. keeps_with ltac:(apply keeps_tpmessref || apply keeps_msg_pdu).
Qed.

Lemma settable_valid n : valid_number n = true -> settable (Some n).
Proof. intros H. apply valid_number_spec in H. destruct n; [exact I|exact H]. Qed.

Lemma set_number_wf v : keeps (set_number v).
Proof.
  intros s (H1 & H2 & H3 & H4). unfold set_number. destruct v as [[|c n]|].
  - repeat split; assumption.
  - destruct (valid_number (c :: n)) eqn:E; cbn; repeat split; try assumption.
    now apply settable_valid.
  - repeat split; assumption.
Qed.

Lemma set_csca_wf v : keeps (set_csca v).
Proof.
  intros s (H1 & H2 & H3 & H4). unfold set_csca. destruct v as [[|c n]|].
  - repeat split; assumption.
  - destruct (valid_number (c :: n)) eqn:E; cbn; repeat split; try assumption.
    now apply settable_valid.
  - repeat split; assumption.
Qed.

Lemma reachable_wf s : reachable s -> wf_submit s.
Proof.
  induction 1 as [n t s H|v s _ IH|v s _ IH|k s _ IH|v s _ IH|v s _ IH|v s _ IH|v s _ IH|v s _ IH|v s _ IH|v s _ IH|s _ IH];
    try exact IH.
  - unfold new_submit in H.
    match type of H with (match set_number n ?s0 with _ => _ end) = _ =>
      assert (wf_submit s0) as H0; [|pose proof (set_number_wf n s0 H0) as H1;
        destruct (set_number n s0) as [[]]; [|discriminate]; cbn in H1; congruence] end.
    repeat split; try exact I. apply Forall_forall. cbn [s_id_list]. unfold id_range.
    intros x Hx. apply in_map_iff in Hx as (k & <- & Hk). apply in_seq in Hk. lia.
  - now apply set_number_wf.
  - now apply set_csca_wf.
  - unfold set_klass. destruct ((0 <=? k) && (k <=? 3)) eqn:E; [|exact IH].
    destruct IH as (H1 & H2 & H3 & H4). repeat split; try assumption; cbn; lia.
  - now apply keeps_to_pdu.
Qed.

(** * Success *)

Lemma gsm_text_det us g1 g2 : gsm_text us g1 -> gsm_text us g2 -> g1 = g2.
Proof.
  intros (c1 & F1 & ->) (c2 & F2 & ->). f_equal.
  revert c1 F1. induction F2 as [|u c us cs Hu _ IH]; intros c1 F1; inversion F1; subst; [reflexivity|].
  f_equal; [eapply gsm_code_unique; eassumption|auto].
Qed.


Lemma to_pdu_ready s : wf_submit s -> ready s ->
  exists mr l, Forall (fun i => 0 <= i < 255) l /\
    match message_ud (coding_of s) (s_text s) (ref_state s mr l) with
    | (Ok ms, s') => exists pdus, to_pdu s = (Ok pdus, s')
    | (Err e, s') => to_pdu s = (Err e, s')
    end.
Proof.
  intros Hwf ((n & intl & ds & En & Hn) & Hpid & Hc & Hv & Hvr).
  pose proof Hwf as (_ & _ & Hk & Hid).
  destruct (tpmessref_ok s Hid) as (mr & l & Er & Hmr & Hl & Hd).
  exists mr, l. split; [exact Hl|].
  destruct (phone_pdu_spec s intl ds _ En Hn) as (os & _ & Eph).
  destruct (smsc_pdu_ok s Hwf) as (sm & v & Esm & _).
  destruct (dcs_of_octet (coding_of s) (s_klass s) Hc Hk) as [Edcs Hdcs].
  unfold to_pdu, st_bind, st_get, st_lift. rewrite Esm, !submit_octet, Er, Eph.
  unfold get_tppid_pdu. rewrite py_chr_octet by exact Hpid. cbn [bind].
  rewrite get_msg_pdu_eq, coding_ref_state. cbn [s_klass s_validity s_text with_ref with_id_list].
  rewrite Edcs, py_chr_octet by exact Hdcs.
  destruct (msgvp_ok (s_validity s) Hv) as [(vp & -> & _)|E].
  - fold (ref_state s mr l).
    destruct (message_ud (coding_of s) (s_text s) (ref_state s mr l)) as [[ms|e] s']; [|reflexivity].
    destruct ms as [|m [|m2 ms]]; eexists; reflexivity.
  - exfalso. destruct (s_validity s) as [|t|d]; cbn [get_msgvp_pdu] in E.
    + discriminate.
    + destruct (relative_floor t Hvr) as (w & Ew & Hw & _). rewrite Ew in E. cbn [bind] in E.
      rewrite py_chr_octet in E by (unfold is_octet; lia). discriminate.
    + destruct d as [y mo dd hh mi ss off]. destruct Hv as [Hv Ho].
      cbn [dt_year dt_month dt_day dt_hour dt_minute dt_second dt_offset] in *.
      destruct (absolute_valid y mo dd hh mi ss off Hvr Hv Ho)
        as (oy & om & od & oh & oi & os' & oz & E' & F & V).
      rewrite E' in E. cbn [bind] in E. rewrite mapM_py_chr in E by exact F. discriminate.
Qed.

(** All parts but the last are nearly full. *)
Lemma cut_count w : (2 <= w)%nat -> forall fuel rest, (length rest <= fuel)%nat -> rest <> [] ->
  (Z.of_nat w - 1) * (zlen (cut fuel w rest) - 1) < zlen rest.
Proof.
  intros Hw. induction fuel as [|f IH]; intros rest Hf Hne.
  - destruct rest; [congruence|cbn in Hf; lia].
  - rewrite cut_cons by exact Hne. cbv zeta.
    set (k := if last (firstn w rest) 0 =? 27 then (w - 1)%nat else w).
    assert (w - 1 <= k <= w)%nat as Hk by (unfold k; destruct (_ =? 27); lia). clearbody k.
    assert (zlen (skipn k rest) = Z.max 0 (zlen rest - Z.of_nat k)) as El.
    { unfold zlen. rewrite skipn_length. lia. }
    rewrite zlen_cons. assert (0 < zlen rest) by (destruct rest; [congruence|unfold zlen; cbn; lia]).
    destruct (skipn k rest) as [|x r] eqn:Er.
    + assert (cut f w [] = []) as -> by (destruct f; reflexivity). change (zlen (@nil (list Z))) with 0. lia.
    + rewrite <- Er in *. specialize (IH (skipn k rest)).
      assert ((Z.of_nat w - 1) * (zlen (cut f w (skipn k rest)) - 1) < zlen (skipn k rest)) as IH'.
      { apply IH; [rewrite skipn_length; lia|congruence]. }
      rewrite El in IH'. assert (Z.of_nat k <= zlen rest).
      { assert (0 < zlen (skipn k rest)) by (rewrite Er; unfold zlen; cbn; lia). lia. }
      nia.
Qed.

Lemma split_count text w parts : 2 <= w -> split_text text w = Ok parts ->
  zlen text <= 255 * (w - 1) -> zlen parts <= 255.
Proof.
  intros Hw H Hl. destruct text as [|c text].
  { rewrite split_text_cut in H by exact Hw. assert (parts = []) as -> by (cbn in H; congruence).
    unfold zlen. cbn. lia. }
  rewrite split_text_cut in H by exact Hw.
  assert (cut (S (length (c :: text))) (Z.to_nat w) (c :: text) = parts) as <- by congruence.
  pose proof (cut_count (Z.to_nat w) ltac:(lia) (S (length (c :: text))) (c :: text) ltac:(lia) ltac:(discriminate)) as B.
  nia.
Qed.

Lemma to_pdu_succeeds s n : wf_submit s -> ready s ->
  encodable (coding_of s) (s_text s) ->
  is_uni (s_text s) || is_ascii (chars (s_text s)) = true ->
  (coding_of s = 4 -> n <= 140 /\ (is_uni (s_text s) = true -> n < 128)) ->
  message_size (coding_of s) (chars (s_text s)) n ->
  n <= 255 * (part_capacity (coding_of s) - 1) ->
  exists pdus s', to_pdu s = (Ok pdus, s').
Proof.
  intros Hwf Hr He Ha H4 Hn Hl. destruct (to_pdu_ready s Hwf Hr) as (mr & l & Hll & H).
  assert (exists ms s', message_ud (coding_of s) (s_text s) (ref_state s mr l) = (Ok ms, s'))
    as (ms & s' & E); [|rewrite E in H; destruct H as [pdus ->]; eauto].
  destruct Hr as (_ & _ & Hc & _). unfold encodable, message_size in *.
  destruct Hc as [Ec|[Ec|Ec]]; rewrite Ec in *; cbn [Z.eqb Pos.eqb] in *.
  - destruct (gsm_encode (s_text s)) as [g|e] eqn:Eg.
    2: { exfalso. pose proof (gsm_encode_err _ _ Eg) as ->. apply strict_error in Eg. now apply Eg. }
    pose proof Eg as Eg'. apply gsm_encode_text in Eg' as [_ Hg].
    destruct Hn as (g' & Hg' & ->).
    assert (g' = g) as -> by (eapply gsm_text_det; eassumption).
    destruct (Z_le_dec (zlen g) 160) as [L|L].
    + destruct (message_gsm_single (s_text s) g (ref_state s mr l) Eg L) as (ud & _ & _ & E). eauto.
    + destruct (split_text_spec g 153 ltac:(lia)) as (parts & Ep & _ & _).
      destruct (split_7bit_ok g (with_text_gsm (Some g) (ref_state s mr l)) parts Hll
        (septets_of_text _ _ Hg) Ep) as (ref & l' & os & E & _).
      { apply (split_count g 153); [lia|exact Ep|cbn in Hl; unfold zlen; lia]. }
      unfold message_ud. cbn [Z.eqb]. unfold st_bind, st_lift, st_upd, SEVENBIT_SIZE. rewrite Eg.
      replace (zlen g <=? 160) with false by lia. rewrite E. eauto.
  - destruct (H4 eq_refl) as [L U]. subst n.
    pose proof (message_8bit_single (s_text s) (ref_state s mr l) L He) as E.
    rewrite E. replace (negb (is_uni (s_text s)) || (zlen (chars (s_text s)) <? 128)) with true; [eauto|].
    destruct (is_uni (s_text s)); [|reflexivity]. specialize (U eq_refl). unfold zlen. lia.
  - subst n. destruct (Z_le_dec (zlen (chars (s_text s))) 70) as [L|L].
    + rewrite message_ucs2_single by exact L.
      replace (forallb (fun u => (0 <=? u) && (u <? 65536)) (chars (s_text s))) with true; [eauto|].
      symmetry. apply forallb_forall. intros u Hin. rewrite Forall_forall in He.
      specialize (He u Hin). unfold unit16 in He. lia.
    + destruct (split_text_spec (chars (s_text s)) 67 ltac:(lia)) as (parts & Ep & _ & _).
      destruct (split_ucs2_ok (is_uni (s_text s)) (chars (s_text s)) (ref_state s mr l) parts Hll
        He Ha Ep) as (ref & l' & os & E & _).
      { apply (split_count (chars (s_text s)) 67); [lia|exact Ep|cbn in Hl; unfold zlen; lia]. }
      unfold message_ud. cbn [Z.eqb Pos.eqb]. unfold UCS2_SIZE.
      replace (zlen (chars (s_text s)) <=? 70) with false by lia.
      destruct (s_text s) as [uni t]. cbn [is_uni chars] in *. rewrite E. eauto.
Qed.

(** * More than 255 parts *)

Lemma parts_loop_first {A} (f : Z -> A -> res (list Z)) m r e :
  f 1 m = Err e -> parts_loop f 1 (m :: r) = Err e.
Proof. intros H. cbn. now rewrite H. Qed.

(** Whatever the text and its length: PDUs or ValueError. *)
Lemma ready_any s : wf_submit s -> ready s -> coding_of s = 0 \/ coding_of s = 8 ->
  (exists pdus s', to_pdu s = (Ok pdus, s')) \/
  (exists e s', to_pdu s = (Err e, s') /\ (e = ValueError \/ e = UnicodeError)).
Proof.
  intros Hwf Hr Hc. destruct (to_pdu_ready s Hwf Hr) as (mr & l & Hll & H).
  destruct (message_ud (coding_of s) (s_text s) (ref_state s mr l)) as [[ms|e] s'] eqn:E.
  { left. destruct H as [pdus ->]. eauto. }
  right. exists e, s'. split; [exact H|]. clear H.
  destruct Hc as [Ec|Ec]; rewrite Ec in *; cbn [Z.eqb Pos.eqb] in *.
  - destruct (gsm_encode (s_text s)) as [g|e'] eqn:Eg.
    2: { pose proof (gsm_encode_err _ _ Eg) as ->. right. revert E. unfold message_ud. cbn [Z.eqb].
         unfold st_bind, st_lift. rewrite Eg. congruence. }
    pose proof Eg as Eg'. apply gsm_encode_text in Eg' as [_ Hg].
    destruct (Z_le_dec (zlen g) 160) as [L|L].
    { destruct (message_gsm_single (s_text s) g (ref_state s mr l) Eg L) as (ud & _ & _ & E'). congruence. }
    revert E. unfold message_ud. cbn [Z.eqb]. unfold st_bind, st_lift, st_upd, SEVENBIT_SIZE. rewrite Eg.
    replace (zlen g <=? 160) with false by lia.
    destruct (split_sms_message_eq 0 (PyStr false g) (with_text_gsm (Some g) (ref_state s mr l)) Hll)
      as (ref & l' & parts & Hd & Href & Hl' & Esp & Ecc & Hlen & Es).
    cbn [chars] in *. change (part_capacity 0) with 153 in *.
    destruct (Z_le_dec (zlen parts) 255) as [Hp|Hp].
    { destruct (split_7bit_ok g (with_text_gsm (Some g) (ref_state s mr l)) parts Hll
        (septets_of_text _ _ Hg) Esp Hp) as (ref2 & l2 & os & E2 & _). congruence. }
    rewrite Es. cbn [Z.eqb].
    destruct (first_part parts ltac:(lia)) as (m & r & Epp). rewrite Epp at 2.
    rewrite (parts_loop_first _ m r ValueError); [intros E; left; congruence|].
    unfold part_7bit. rewrite py_chr_octet by exact Href. cbn [bind]. unfold py_chr at 1.
    now replace ((0 <=? zlen parts) && (zlen parts <? 256)) with false by lia.
  - revert E. unfold message_ud. cbn [Z.eqb Pos.eqb]. unfold UCS2_SIZE.
    destruct (Z_le_dec (zlen (chars (s_text s))) 70) as [L|L].
    { pose proof (message_ucs2_single (s_text s) (ref_state s mr l) L) as M.
      unfold message_ud in M. cbn [Z.eqb Pos.eqb] in M. unfold UCS2_SIZE in M. rewrite M.
      destruct (forallb _ _); intros E; [discriminate|left; congruence]. }
    replace (zlen (chars (s_text s)) <=? 70) with false by lia.
    destruct (split_sms_message_eq 8 (s_text s) (ref_state s mr l) Hll)
      as (ref & l' & parts & Hd & Href & Hl' & Esp & Ecc & Hlen & Es).
    rewrite Es. cbn [Z.eqb Pos.eqb]. intros E. injection E as E _.
    assert (forall i m e, part_wide pack_8bits_to_ucs2 ref (zlen parts) i m = Err e ->
      e = ValueError \/ e = UnicodeError) as HW.
    { clear. intros i m e. unfold part_wide, py_unichr.
      repeat match goal with |- context [if ?b then Ok _ else Err ValueError] =>
        destruct b; cbn [bind]; [|intros H; left; congruence] end.
      unfold pack_8bits_to_ucs2.
      destruct (pystr_add _ m) as [t|e'] eqn:Ea; cbn [bind].
      - destruct (mapM ucs2_char (chars t)) as [nm|e'] eqn:Em; cbn [bind].
        + unfold py_chr. destruct (_ && _); cbn [bind]; [discriminate|intros H; left; congruence].
        + intros H. left. assert (e' = ValueError); [|congruence].
          clear H Ea. revert Em. generalize (chars t). intros c Em.
          destruct (Forall_dec unit16 (fun x => ltac:(unfold unit16; destruct (Z_le_dec 0 x), (Z_lt_dec x 65536);
            [left; lia|right; lia|right; lia|right; lia])) c) as [F|F].
          * destruct (mapM_ucs2 c F) as (nm & E & _). congruence.
          * rewrite mapM_ucs2_err in Em by exact F. congruence.
      - intros H. right. unfold pystr_add in Ea. cbn [is_uni] in Ea.
        destruct (is_uni m); [discriminate|]. destruct (is_ascii (chars m)); [discriminate|]. congruence. }
    revert E HW. generalize (part_wide pack_8bits_to_ucs2 ref (zlen parts)).
    generalize (map (PyStr (is_uni (s_text s))) parts). clear. intros L f.
    generalize 1 as i. induction L as [|m L IH]; intros i E HW; cbn [parts_loop] in E; [discriminate|].
    destruct (f i m) eqn:Ef; cbn [bind] in E.
    + destruct (parts_loop f (i + 1) L) eqn:Ep; cbn [bind] in E; [discriminate|].
      injection E as ->. eapply IH; eassumption.
    + injection E as ->. eapply HW; eassumption.
Qed.

Lemma ready_total s : wf_submit s -> ready s -> coding_of s = 0 \/ coding_of s = 8 ->
  encodable (coding_of s) (s_text s) ->
  (exists pdus s', to_pdu s = (Ok pdus, s')) \/
  (exists e s', to_pdu s = (Err e, s') /\ (e = ValueError \/ e = UnicodeError)).
Proof. intros Hwf Hr Hc _. now apply ready_any. Qed.

(** * Calling again *)

Lemma to_pdu_again s p s' : wf_submit s -> validity_ok (s_validity s) ->
  (coding_of s = 4 -> Forall octet (chars (s_text s))) ->
  to_pdu s = (Ok [p], s') -> to_pdu s' = (Ok [p], s').
Proof.
  intros Hwf Hv H4 E.
  destruct (to_pdu_inv s [p] s' Hwf Hv H4 E) as (mr & l & Er & Hmr & _ & Hl & _ & H).
  cbv zeta in H. destruct H as [H|H].
  2: { destruct H as (ref & parts & l2 & n & _ & _ & H2 & H3 & _). unfold zlen in H3 at 1. cbn in H3. lia. }
  destruct H as (p' & udl & ud & n & Ep & _ & _ & Hsz & Hcap & Hsud & _ & Es').
  assert (get_tpmessref_pdu s' = (Ok (hex_of [mr]), s')) as Er'.
  { assert (s_ref s' = Some mr) as Hr by (rewrite Es'; unfold gsm_state; destruct (_ =? 0);
      [destruct (gsm_encode _)|]; reflexivity).
    unfold get_tpmessref_pdu, st_bind, st_get. rewrite Hr. unfold st_ret, st_upd, st_lift.
    rewrite land_255, Z.mod_small by exact Hmr. rewrite py_chr_octet by exact Hmr.
    rewrite encode_str_hex by (foralls; assumption). f_equal. destruct s'; cbn in *. now rewrite Hr. }
  assert (s_number s' = s_number s /\ s_csca s' = s_csca s /\ s_klass s' = s_klass s /\
          s_validity s' = s_validity s /\ s_request_status s' = s_request_status s /\
          s_pid s' = s_pid s /\ s_text s' = s_text s /\ s_fmt s' = Some (coding_of s) /\
          s_dcs s' = Some (dcs_of (coding_of s) (s_klass s))) as
    (F1 & F2 & F3 & F4 & F5 & F6 & F7 & F8 & F9).
  { rewrite Es'. unfold gsm_state. destruct (_ =? 0); [destruct (gsm_encode _)|]; repeat split. }
  assert (coding_of s' = coding_of s) as Fc by (unfold coding_of at 1; now rewrite F8).
  assert (fmt_state s' = s') as Ff.
  { unfold fmt_state. rewrite Fc, F3. destruct s'; cbn in *. now rewrite F8, F9. }
  assert (forall ms, message_ud (coding_of s) (s_text s) (ref_state s mr l) = (Ok ms, s') ->
    message_ud (coding_of s) (s_text s) s' = (Ok ms, s')) as Hmsg.
  { intros ms Em. pose proof (message_ud_coding _ _ _ _ _ Em) as Hc.
    unfold message_size, capacity in *.
    destruct Hc as [Ec|[Ec|Ec]]; rewrite Ec in *; cbn [Z.eqb Pos.eqb] in *.
    - unfold message_ud in *. cbn [Z.eqb] in *. unfold gsm_state in Es'. cbn [Z.eqb] in Es'.
      unfold st_bind, st_lift, st_upd in *.
      destruct (gsm_encode (s_text s)) as [g|e] eqn:Eg; [|discriminate].
      assert (with_text_gsm (Some g) s' = s') as Et.
      { rewrite Es'. reflexivity. }
      rewrite Et. unfold SEVENBIT_SIZE in *. destruct Hsz as (g' & Hg' & En).
      pose proof Eg as Eg'. apply gsm_encode_text in Eg' as [_ Hg].
      destruct (zlen g <=? 160) eqn:L.
      + destruct (pack_8bits_to_7bits g None); [|discriminate]. unfold st_ret in *. congruence.
      + exfalso. assert (g' = g) as -> by (eapply gsm_text_det; eassumption). unfold zlen in L; lia.
    - unfold message_ud in *. cbn [Z.eqb Pos.eqb] in *. unfold EIGHTBIT_SIZE in *.
      replace (zlen (chars (s_text s)) <=? 140) with true in * by (unfold zlen; lia).
      unfold st_bind, st_lift, st_ret in *. destruct (pack_8bits_to_8bit (s_text s) None); congruence.
    - unfold message_ud in *. cbn [Z.eqb Pos.eqb] in *. unfold UCS2_SIZE in *.
      replace (zlen (chars (s_text s)) <=? 70) with true in * by (unfold zlen; lia).
      unfold st_bind, st_lift, st_ret in *. destruct (pack_8bits_to_ucs2 (s_text s) None); congruence. }
  revert E. unfold to_pdu, st_bind, st_get, st_lift, st_ret. rewrite Er, Er'.
  assert (get_smsc_pdu s' = get_smsc_pdu s) as -> by (unfold get_smsc_pdu; now rewrite F2).
  assert (get_phone_pdu s' = get_phone_pdu s) as -> by (unfold get_phone_pdu; now rewrite F1).
  assert (get_tppid_pdu s' = get_tppid_pdu s) as -> by (unfold get_tppid_pdu; now rewrite F6).
  rewrite !submit_octet, F4, F5.
  destruct (get_smsc_pdu s) as [sm|]; [|discriminate].
  destruct (get_phone_pdu s) as [ph|]; [|discriminate].
  destruct (get_tppid_pdu s) as [pid|]; [|discriminate].
  rewrite !get_msg_pdu_eq, coding_ref_state, Fc, F3, F4, F7, Ff.
  cbn [s_klass s_validity s_text with_ref with_id_list]. fold (ref_state s mr l).
  destruct (py_chr (dcs_of (coding_of s) (s_klass s))); [|discriminate].
  destruct (get_msgvp_pdu (s_validity s)); [|discriminate].
  destruct (message_ud (coding_of s) (s_text s) (ref_state s mr l)) as [[ms|] s2] eqn:Em; [|discriminate].
  intros E. assert (s2 = s') as ->.
  { destruct (map _ ms) as [|? [|]]; congruence. }
  rewrite (Hmsg ms eq_refl). exact E.
Qed.

(** * References *)

Lemma id_range_skipn k : (k < 255)%nat ->
  skipn k id_range = Z.of_nat k :: skipn (S k) id_range.
Proof.
  intros H. unfold id_range. rewrite !skipn_map.
  assert (forall a n k, (k < n)%nat -> skipn k (seq a n) = (a + k)%nat :: skipn (S k) (seq a n)) as L.
  { clear. intros a n. revert a. induction n as [|n IH]; intros a k Hk; [lia|]. cbn [seq].
    destruct k as [|k]; [cbn [skipn]; now rewrite Nat.add_0_r|].
    cbn [skipn]. rewrite (IH (S a) k) by lia. f_equal. lia. }
  rewrite L by exact H. reflexivity.
Qed.

Lemma draw_step k s : (k <= 255)%nat -> s_id_list s = skipn k id_range ->
  exists k', (k' <= 255)%nat /\ s_id_list (snd (get_rand_id s)) = skipn k' id_range /\
    fst (get_rand_id s) = Ok (Z.of_nat k mod 255) /\
    Z.of_nat k' mod 255 = (Z.of_nat k + 1) mod 255.
Proof.
  intros Hk E. unfold get_rand_id, st_bind, st_get, st_lift, st_upd, st_ret.
  destruct (Nat.eq_dec k 255) as [->|Hne].
  - exists 1%nat. rewrite E. change (skipn 255 id_range) with (@nil Z). cbv iota beta.
    change id_range with (0 :: skipn 1 id_range). cbn [pop0]. cbv iota beta. cbn [s_id_list with_id_list fst snd].
    repeat split. lia.
  - exists (S k). rewrite E. rewrite id_range_skipn by lia. cbn [pop0]. cbv iota beta.
    cbn [s_id_list with_id_list fst snd].
    split; [lia|]. split; [reflexivity|]. split; [rewrite Z.mod_small by lia; reflexivity|lia].
Qed.

Lemma nth_draw_from n : forall k s, (k <= 255)%nat -> s_id_list s = skipn k id_range ->
  nth_draw n s = Ok ((Z.of_nat k + Z.of_nat n) mod 255).
Proof.
  induction n as [|n IH]; intros k s Hk E; destruct (draw_step k s Hk E) as (k' & Hk' & E' & F & M).
  - cbn [nth_draw]. rewrite F. f_equal. lia.
  - cbn [nth_draw]. rewrite (IH k' _ Hk' E'). f_equal. lia.
Qed.

Lemma new_submit_ids number text s : new_submit number text = Ok s ->
  s_id_list s = id_range /\ s_fmt s = None /\ s_ref s = None /\ s_text s = text /\ s_rand_id s = None.
Proof.
  unfold new_submit, set_number. destruct number as [[|c n]|]; cbn [st_upd].
  - intros H. injection H as <-. auto.
  - destruct (valid_number (c :: n)); cbn; intros H; [injection H as <-; auto|discriminate].
  - intros H. injection H as <-. auto.
Qed.

Lemma references number text s n : new_submit number text = Ok s ->
  nth_draw n s = Ok (Z.of_nat n mod 255).
Proof.
  intros H. apply new_submit_ids in H as [H _].
  rewrite (nth_draw_from n 0 s); [f_equal; lia|lia|exact H].
Qed.

(** * Setters *)

Lemma set_number_valid n s : n <> [] ->
  ((exists intl ds, number_syntax intl ds n) ->
     set_number (Some n) s = (Ok tt, with_number (Some n) s)) /\
  (~ (exists intl ds, number_syntax intl ds n) ->
     set_number (Some n) s = (Err ValueError, s)).
Proof.
  intros Hne. destruct n as [|c n]; [congruence|]. unfold set_number.
  destruct (valid_number (c :: n)) eqn:E.
  - split; [reflexivity|]. intros C. exfalso. apply C. now apply valid_number_spec.
  - split; [|reflexivity]. intros H. apply valid_number_spec in H. congruence.
Qed.

Lemma set_csca_valid n s : n <> [] ->
  ((exists intl ds, number_syntax intl ds n) ->
     set_csca (Some n) s = (Ok tt, with_csca (Some n) s)) /\
  (~ (exists intl ds, number_syntax intl ds n) ->
     set_csca (Some n) s = (Err ValueError, s)).
Proof.
  intros Hne. destruct n as [|c n]; [congruence|]. unfold set_csca.
  destruct (valid_number (c :: n)) eqn:E.
  - split; [reflexivity|]. intros C. exfalso. apply C. now apply valid_number_spec.
  - split; [|reflexivity]. intros H. apply valid_number_spec in H. congruence.
Qed.

(** * A PDU determines what it carries *)

Lemma hex_digit_upper_inj a b : 0 <= a < 16 -> 0 <= b < 16 ->
  hex_digit_upper a = hex_digit_upper b -> a = b.
Proof.
  unfold hex_digit_upper. intros Ha Hb. destruct (a <? 10) eqn:E1, (b <? 10) eqn:E2; lia.
Qed.

Lemma hex_upper_inj a : forall b, Forall octet a -> Forall octet b -> hex_upper a = hex_upper b -> a = b.
Proof.
  induction a as [|x a IH]; intros [|y b] Ha Hb H; try reflexivity; try discriminate.
  cbn [hex_upper] in H. injection H as H1 H2 H3.
  inversion Ha as [|? ? Hx Ha']; inversion Hb as [|? ? Hy Hb']; subst. unfold octet in *.
  apply hex_digit_upper_inj in H1, H2; try lia.
  f_equal; [lia|auto].
Qed.

Lemma carries_fun s c mr u l d p c' mr' u' l' d' :
  carries s c mr u l d p -> carries s c' mr' u' l' d' p ->
  mr = mr' /\ u = u' /\ l = l' /\ d = d'.
Proof.
  intros (o & sc & da & vpf & vp & E & Ho & P & _) (o' & sc' & da' & vpf' & vp' & E' & Ho' & P' & _).
  assert (o = o') as <- by (apply hex_upper_inj; [assumption|assumption|congruence]).
  rewrite P in P'. injection P'. auto.
Qed.

(** * 8-bit parts *)

Lemma part_8bit_length ref total i part udl ud :
  part_ud 4 ref total i part udl ud -> zlen ud = udl.
Proof.
  intros P. remember 4 as c eqn:Ec. destruct P; [discriminate| |discriminate].
  rewrite zlen_app. reflexivity.
Qed.

Lemma eight_bit_parts s pdus s' : wf_submit s -> validity_ok (s_validity s) ->
  coding_of s = 4 -> Forall octet (chars (s_text s)) -> 140 < zlen (chars (s_text s)) ->
  to_pdu s = (Ok pdus, s') ->
  2 <= zlen pdus /\
  forall p, In p pdus -> forall mr ref total i part udl ud,
    ~ (carries s 4 mr true udl ud p /\ part_ud 4 ref total i part udl ud).
Proof.
  intros Hwf Hv Hc Ho Hl E.
  destruct (to_pdu_inv s pdus s' Hwf Hv (fun _ => Ho) E) as (mr0 & l & _ & _ & _ & _ & _ & H).
  cbv zeta in H. rewrite Hc in H. unfold message_size, capacity in H. cbn [Z.eqb Pos.eqb] in H.
  destruct H as [(p & udl & ud & n & _ & _ & _ & En & Hn & _)|
                 (ref0 & parts & l2 & n & En & Hn & H2 & Hz & Hp & Hsz & _ & _ & _ & _ & Hall)].
  { unfold zlen in Hl. lia. }
  split; [lia|]. intros p Hin mr ref total i part udl ud [C P].
  apply In_nth_error in Hin as (k & Hk).
  assert (k < length parts)%nat as Hkl.
  { assert (k < length pdus)%nat by (apply nth_error_Some; congruence). unfold zlen in Hz. lia. }
  destruct (nth_error parts k) as [m|] eqn:Em; [|apply nth_error_None in Em; lia].
  destruct (Hall k p m Hk Em) as (_ & _ & udl' & ud' & Hud & C').
  unfold emitted_ud in Hud. cbn [Z.eqb Pos.eqb] in Hud. destruct Hud as [-> ->].
  destruct (carries_fun _ _ _ _ _ _ _ _ _ _ _ _ C C') as (_ & _ & -> & ->).
  apply part_8bit_length in P. lia.
Qed.

(** * Summaries used by the claims *)

Lemma single_pdus s pdus s' n : wf_submit s -> validity_ok (s_validity s) ->
  (coding_of s = 4 -> Forall octet (chars (s_text s))) ->
  message_size (coding_of s) (chars (s_text s)) n ->
  to_pdu s = (Ok pdus, s') ->
  (n <= capacity (coding_of s) -> zlen pdus = 1) /\
  (capacity (coding_of s) < n -> 2 <= zlen pdus).
Proof.
  intros Hwf Hv H4 Hn E.
  destruct (to_pdu_inv s pdus s' Hwf Hv H4 E) as (mr0 & l & _ & _ & _ & _ & _ & H).
  cbv zeta in H.
  assert (forall n', message_size (coding_of s) (chars (s_text s)) n' -> n' = n) as Hu.
  { intros n' Hn'. unfold message_size in *. destruct (coding_of s =? 0); [|congruence].
    destruct Hn as (g & Hg & ->), Hn' as (g' & Hg' & ->).
    now rewrite (gsm_text_det _ _ _ Hg Hg'). }
  destruct H as [(p & udl & ud & n' & -> & _ & _ & En & Hn' & _)|
                 (ref0 & parts & l2 & n' & En & Hn' & H2 & Hz & _)];
    apply Hu in En; subst n'.
  - split; [reflexivity|lia].
  - split; [lia|lia].
Qed.

Lemma every_pdu s pdus s' : wf_submit s -> validity_ok (s_validity s) ->
  (coding_of s = 4 -> Forall octet (chars (s_text s))) ->
  to_pdu s = (Ok pdus, s') ->
  forall k p, nth_error pdus k = Some p ->
    p_cnt p = zlen pdus /\ p_seq p = 1 + Z.of_nat k /\
    exists udl ud, carries s (coding_of s) (message_ref s) (1 <? zlen pdus) udl ud p.
Proof.
  intros Hwf Hv H4 E k p Hk.
  destruct (to_pdu_inv s pdus s' Hwf Hv H4 E) as (mr & l & _ & _ & -> & _ & _ & H).
  cbv zeta in H. destruct H as [(q & udl & ud & n & -> & C1 & C2 & _ & _ & _ & C & _)|
                 (ref & parts & l2 & n & _ & _ & H2 & Hz & _ & _ & _ & _ & _ & _ & Hall)].
  - destruct k as [|[|k]]; cbn in Hk; try discriminate. injection Hk as <-.
    split; [exact C1|]. split; [exact C2|]. exists udl, ud. exact C.
  - assert (k < length parts)%nat as Hkl.
    { assert (k < length pdus)%nat by (apply nth_error_Some; congruence). unfold zlen in Hz. lia. }
    destruct (nth_error parts k) as [m|] eqn:Em; [|apply nth_error_None in Em; lia].
    destruct (Hall k p m Hk Em) as (C1 & C2 & udl & ud & _ & C).
    split; [congruence|]. split; [exact C2|]. exists udl, ud.
    replace (1 <? zlen pdus) with true by lia. exact C.
Qed.

Lemma one_pdu s p s' : wf_submit s -> validity_ok (s_validity s) ->
  (coding_of s = 4 -> Forall octet (chars (s_text s))) ->
  to_pdu s = (Ok [p], s') ->
  exists udl ud, carries s (coding_of s) (message_ref s) false udl ud p /\
    single_ud (coding_of s) (chars (s_text s)) udl ud.
Proof.
  intros Hwf Hv H4 E.
  destruct (to_pdu_inv s [p] s' Hwf Hv H4 E) as (mr & l & _ & _ & -> & _ & _ & H).
  cbv zeta in H. destruct H as [(q & udl & ud & n & Eq & _ & _ & _ & _ & Hs & C & _)|
                 (ref & parts & l2 & n & _ & _ & H2 & Hz & _)].
  - assert (p = q) as -> by congruence. eauto.
  - unfold zlen in Hz at 1. cbn in Hz. lia.
Qed.

Lemma several_pdus s pdus s' : wf_submit s -> validity_ok (s_validity s) ->
  (coding_of s = 4 -> Forall octet (chars (s_text s))) ->
  to_pdu s = (Ok pdus, s') -> zlen pdus <> 1 ->
  exists parts, length parts = length pdus /\
    parts_of (coding_of s) (chars (s_text s)) parts /\
    Forall (fun p => 1 <= zlen p <= part_capacity (coding_of s)) parts /\
    (coding_of s <> 4 -> 2 <= zlen pdus <= 255 /\
     exists ref, octet ref /\
       forall k p m, nth_error pdus k = Some p -> nth_error parts k = Some m ->
         exists udl ud, carries s (coding_of s) (message_ref s) true udl ud p /\
           part_ud (coding_of s) ref (zlen pdus) (1 + Z.of_nat k) m udl ud).
Proof.
  intros Hwf Hv H4 E Hne.
  destruct (to_pdu_inv s pdus s' Hwf Hv H4 E) as (mr & l & _ & _ & -> & _ & _ & H).
  cbv zeta in H. destruct H as [(q & udl & ud & n & -> & _)|
                 (ref & parts & l2 & n & _ & _ & H2 & Hz & Hp & Hsz & Hr & _ & _ & _ & Hall)].
  { now contradiction Hne. }
  exists parts. split; [unfold zlen in Hz; lia|]. split; [exact Hp|]. split; [exact Hsz|].
  intros Hc.
  assert (forall k p m, nth_error pdus k = Some p -> nth_error parts k = Some m ->
         exists udl ud, carries s (coding_of s) (message_ref s) true udl ud p /\
           part_ud (coding_of s) ref (zlen pdus) (1 + Z.of_nat k) m udl ud /\ octet (zlen pdus)) as HA.
  { intros k p m Hk Hm. destruct (Hall k p m Hk Hm) as (_ & _ & udl & ud & Hud & C).
    unfold emitted_ud in Hud. replace (coding_of s =? 4) with false in Hud by lia.
    rewrite Hz. destruct Hud. eauto 10. }
  split.
  - destruct pdus as [|p pdus]; [unfold zlen in Hz at 1; cbn in Hz; lia|].
    destruct parts as [|m parts]; [unfold zlen in H2; cbn in H2; lia|].
    destruct (HA 0%nat p m eq_refl eq_refl) as (_ & _ & _ & _ & Ho). unfold octet in Ho. lia.
  - exists ref. split; [exact Hr|]. intros k p m Hk Hm.
    destruct (HA k p m Hk Hm) as (udl & ud & C & P & _). eauto.
Qed.

(** * Automatic coding *)

Lemma auto_coding s : s_fmt s = None ->
  (Forall (fun u => gsm_char u /\ (is_uni (s_text s) = true \/ u < 128)) (chars (s_text s)) ->
     coding_of s = 0) /\
  (~ Forall (fun u => gsm_char u /\ (is_uni (s_text s) = true \/ u < 128)) (chars (s_text s)) ->
     coding_of s = 8).
Proof.
  intros E. unfold coding_of. rewrite E. rewrite <- is_gsm_text_spec.
  destruct (is_gsm_text (Some (s_text s))); split; intros H; try reflexivity; try congruence.
Qed.

(** * Reading a concrete PDU, for the counterexamples *)

Definition unhex1 (c : Z) : Z := if c <? 58 then c - 48 else c - 55.
Fixpoint unhex (l : list Z) : list Z :=
  match l with a :: b :: r => 16 * unhex1 a + unhex1 b :: unhex r | _ => [] end.

Lemma unhex_hex o : Forall octet o -> unhex (hex_upper o) = o.
Proof.
  induction 1 as [|b l Hb _ IH]; [reflexivity|]. cbn [hex_upper unhex]. rewrite IH. f_equal.
  unfold octet in Hb. unfold unhex1, hex_digit_upper.
  destruct (b / 16 <? 10) eqn:E1, (b mod 16 <? 10) eqn:E2.
  all: repeat match goal with |- context [if ?x <? 58 then _ else _] =>
    destruct (x <? 58) eqn:? end; lia.
Qed.

Lemma carries_read s c mr u l d p : carries s c mr u l d p ->
  match parse_submit (unhex (p_pdu p)) with
  | Some f => f_mr f = mr /\ f_udhi f = u /\ f_udl f = l /\ f_ud f = d /\
              f_dcs f = dcs_octet c (s_klass s)
  | None => False
  end.
Proof.
  intros (o & sc & da & vpf & vp & E & Ho & P & _). rewrite E, unhex_hex by exact Ho.
  rewrite P. cbn. auto.
Qed.

(** * More than 255 parts: never PDUs *)

Lemma too_many s n : wf_submit s -> ready s -> coding_of s = 0 \/ coding_of s = 8 ->
  encodable (coding_of s) (s_text s) ->
  message_size (coding_of s) (chars (s_text s)) n ->
  255 * part_capacity (coding_of s) < n ->
  exists e s', to_pdu s = (Err e, s') /\ (e = ValueError \/ e = UnicodeError).
Proof.
  intros Hwf Hr Hc He Hn Hl.
  destruct (ready_total s Hwf Hr Hc He) as [(pdus & s' & E)|H]; [|exact H]. exfalso.
  assert (validity_ok (s_validity s)) as Hv by apply Hr.
  assert (coding_of s = 4 -> Forall octet (chars (s_text s))) as H4 by lia.
  assert (capacity (coding_of s) < n) as Hcap.
  { revert Hl. unfold capacity, part_capacity. destruct Hc as [-> | ->]; cbn; lia. }
  destruct (single_pdus s pdus s' n Hwf Hv H4 Hn E) as [_ H2]. specialize (H2 Hcap).
  destruct (several_pdus s pdus s' Hwf Hv H4 E ltac:(lia)) as (parts & Hlen & Hp & Hsz & Hk).
  destruct (Hk ltac:(lia)) as (Hb & _).
  assert (zlen (concat parts) <= part_capacity (coding_of s) * zlen parts) as B.
  { apply concat_zlen. eapply Forall_impl; [|exact Hsz]. cbn. lia. }
  assert (n = zlen (concat parts)) as En.
  { unfold message_size, parts_of in *. destruct (coding_of s =? 0).
    - destruct Hn as (g & Hg & ->), Hp as (texts & Ht & Ec). unfold zlen. do 2 f_equal.
      eapply gsm_text_det; [exact Hg|]. rewrite <- Ec. clear - Ht.
      induction Ht; cbn; [now apply gsm_text_nil|now apply gsm_text_app].
    - rewrite Hn, Hp. reflexivity. }
  assert (zlen parts = zlen pdus) as Ez by (unfold zlen; lia).
  assert (0 < part_capacity (coding_of s)) by (unfold part_capacity; destruct Hc as [-> | ->]; cbn; lia).
  nia.
Qed.
