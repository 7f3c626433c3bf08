(** Proofs about what [SmsSubmit.to_pdu] refuses. *)
From Coq Require Import Lia ZifyBool ZifyNat.
From Verif Require Import Py PyFacts SpecGsm SpecPack SpecAddress SpecTime SpecSubmit SpecCuts
  Gsm GsmFacts Utils PackFacts ValidityFacts Submit SubmitClaims NumberFacts SplitFacts
  SubmitFacts ToPduFacts PropCuts SpecUnsent.
Open Scope Z_scope.

Lemma sent_in_coding : forall s c, sent_in s c <-> c = coding_of s.
Proof.
  intros s c. unfold sent_in, coding_of, in_gsm. pose proof (is_gsm_text_spec (s_text s)) as G.
  destruct (s_fmt s) as [f|].
  - split; [intros [X|[(X & _)|(X & _)]]; congruence|]. intros ->. auto.
  - destruct (is_gsm_text (Some (s_text s))) eqn:E.
    + assert (F := proj1 G eq_refl). split; [|intros ->; auto].
      intros [X|[(_ & _ & X)|(_ & X & _)]]; [discriminate|exact X|contradiction].
    + split; [|intros ->; right; right; split; [reflexivity|split; [|reflexivity]]].
      * intros [X|[(_ & X & _)|(_ & _ & X)]]; [discriminate|apply G in X; discriminate|exact X].
      * intros X. apply G in X. discriminate.
Qed.

(** * The validity *)

Definition tz_an_octet (m : Z) : bool :=
  match tz_octet (Some m) with Ok z => (0 <=? z) && (z <? 256) | Err _ => false end.

Lemma tz_octets_sweep : forallb (fun k => tz_an_octet (k - 1439)) (zrange 2879) = true.
Proof. vm_compute. reflexivity. Qed.

Lemma tz_an_octet_ok m : -1440 < m < 1440 -> exists z, tz_octet (Some m) = Ok z /\ 0 <= z < 256.
Proof.
  intros H. assert (R : 0 <= m + 1439 < 2879) by lia.
  assert (T : (fun k => tz_an_octet (k - 1439)) (m + 1439) = true).
  { apply (range_sweep 2879 _ tz_octets_sweep). change (Z.of_nat 2879) with 2879. exact R. }
  cbv beta in T. replace (m + 1439 - 1439) with m in T by (clear; lia). unfold tz_an_octet in T.
  destruct (tz_octet (Some m)) as [z|]; [|discriminate]. exists z. split; [reflexivity|]. clear - T. lia.
Qed.

Lemma validity_out : forall v, python_date v ->
  (exists l, get_msgvp_pdu v = Ok l /\
     (forall t, v = Relative t -> ~ (t < 5 * 60 * 1000000 \/ 63 * 7 * 86400 * 1000000 < t)) /\
     (forall d, v = Absolute d -> 1900 <= dt_year d)) \/
  (get_msgvp_pdu v = Err ValueError /\
     ((exists t, v = Relative t /\ (t < 5 * 60 * 1000000 \/ 63 * 7 * 86400 * 1000000 < t)) \/
      (exists d, v = Absolute d /\ dt_year d < 1900))).
Proof.
  intros v Hd. destruct v as [|t|d]; cbn [get_msgvp_pdu].
  - left. exists []. split; [reflexivity|]. split; discriminate.
  - destruct (Z_le_dec (5 * 60 * 1000000) t) as [L1|L1];
    [destruct (Z_le_dec t (63 * 7 * 86400 * 1000000)) as [L2|L2]|].
    + left. destruct (relative_floor t (conj L1 L2)) as (v & E & Hv & _).
      rewrite E. cbn [bind]. rewrite py_chr_octet by (unfold is_octet; lia). cbn [bind].
      eexists. split; [reflexivity|]. split; [|discriminate]. intros t' X. assert (t' = t) by congruence. lia.
    + right. rewrite (proj1 (relative_error t)); [|lia]. split; [reflexivity|]. left. exists t. split; [reflexivity|lia].
    + right. rewrite (proj1 (relative_error t)); [|lia]. split; [reflexivity|]. left. exists t. split; [reflexivity|lia].
  - destruct (Z_lt_dec (dt_year d) 1900) as [L|L].
    + right. unfold datetime_to_absolute_validity. replace (dt_year d <? 1900) with true by lia.
      split; [reflexivity|]. right. eauto.
    + left. destruct (Hd d eq_refl) as (Hv & Ho).
      assert (T : exists z, tz_octet (dt_offset d) = Ok z /\ 0 <= z < 256).
      { destruct (dt_offset d) as [m|]; [exact (tz_an_octet_ok m (Ho m eq_refl))|].
        exists 0. split; [vm_compute; reflexivity|lia]. }
      destruct T as (oz & Ez & Rz).
      apply valid_fields in Hv as (H1 & H2 & H3 & H4 & H5).
      destruct (dec02_int (dt_year d mod 100)) as (oy & Ey & Ry & _); [lia|].
      destruct (dec02_int _ H1) as (om & Emo & Rmo & _).
      destruct (dec02_int _ H2) as (od & Eda & Rda & _).
      destruct (dec02_int _ H3) as (oh & Eh & Rh & _).
      destruct (dec02_int _ H4) as (oi & Emi & Rmi & _).
      destruct (dec02_int _ H5) as (os & Es & Rs & _).
      assert (El : mapM (fun c => py_int 16 (rev c))
         [dec02 (dt_year d mod 100); dec02 (dt_month d); dec02 (dt_day d);
          dec02 (dt_hour d); dec02 (dt_minute d); dec02 (dt_second d)] = Ok [oy; om; od; oh; oi; os]).
      { cbn [mapM]. rewrite Ey. cbn [bind]. rewrite Emo. cbn [bind]. rewrite Eda. cbn [bind].
        rewrite Eh. cbn [bind]. rewrite Emi. cbn [bind]. rewrite Es. reflexivity. }
      destruct (absolute_split d ltac:(lia)) as [E|(e & _ & [[e2 C]|[e2 C]])]; [|congruence|congruence].
      rewrite E, El, Ez. cbn [bind app]. rewrite mapM_py_chr by (repeat constructor; unfold is_octet; lia).
      cbn [bind]. eexists. split; [reflexivity|]. split; [discriminate|].
      intros d' X. assert (d' = d) by congruence. subst. lia.
Qed.

(** * Numbers *)

Lemma lor_above : forall a b, 0 <= a -> 0 <= b -> a <= Z.lor a b.
Proof.
  intros a b Ha Hb. assert (E : Z.ldiff a (Z.lor a b) = 0).
  { rewrite <- Z.ldiff_ldiff_l, Z.ldiff_diag. apply Z.ldiff_0_l. }
  apply Z.sub_nocarry_ldiff in E.
  assert (0 <= Z.ldiff (Z.lor a b) a) by (apply Z.ldiff_nonneg; left; apply Z.lor_nonneg; lia). lia.
Qed.

(** The third character of the header. *)
Lemma third_above : forall total i, 0 <= total -> 0 <= i -> total * 256 <= Z.lor (Z.shiftl total 8) i.
Proof.
  intros total i Ht Hi. rewrite Z.shiftl_mul_pow2 by lia. change (2 ^ 8) with 256. apply lor_above; lia.
Qed.

Lemma third_unichr : forall total i, 1 <= i <= total ->
  py_unichr (Z.lor (Z.shiftl total 8) i) =
  if total <=? 4351 then Ok (Z.lor (Z.shiftl total 8) i) else Err ValueError.
Proof.
  intros total i H. pose proof (third_above total i ltac:(lia) ltac:(lia)) as L. unfold py_unichr.
  destruct (total <=? 4351) eqn:E.
  - assert (S : Z.shiftr (Z.lor (Z.shiftl total 8) i) 16 = total / 256).
    { rewrite Z.shiftr_lor, Z.shiftr_shiftl_r by lia. change (16 - 8) with 8.
      rewrite !Z.shiftr_div_pow2 by lia. change (2 ^ 8) with 256. change (2 ^ 16) with 65536.
      rewrite (Z.div_small i 65536) by lia. apply Z.lor_0_r. }
    rewrite Z.shiftr_div_pow2 in S by lia. change (2 ^ 16) with 65536 in S.
    replace ((0 <=? Z.lor (Z.shiftl total 8) i) && (Z.lor (Z.shiftl total 8) i <? 1114112)) with true; [reflexivity|].
    symmetry. revert L S E. generalize (Z.lor (Z.shiftl total 8) i). intros x L S E.
    assert (x / 65536 < 17) by (rewrite S; apply Z.div_lt_upper_bound; lia).
    assert (x < 17 * 65536) by (pose proof (Z.mul_succ_div_gt x 65536 ltac:(lia)); lia). lia.
  - replace ((0 <=? Z.lor (Z.shiftl total 8) i) && (Z.lor (Z.shiftl total 8) i <? 1114112)) with false by lia.
    reflexivity.
Qed.

Lemma second_unichr : forall ref, octet ref -> py_unichr (Z.lor (Z.shiftl 3 8) ref) = Ok (768 + ref).
Proof.
  intros ref H. unfold octet in H. rewrite lor_shift8 by lia. unfold py_unichr.
  replace ((0 <=? 3 * 256 + ref) && (3 * 256 + ref <? 1114112)) with true by lia. reflexivity.
Qed.

Lemma ascii_dec : forall l, is_ascii l = true \/ (is_ascii l = false /\ exists c, In c l /\ 128 <= c).
Proof.
  induction l as [|c l [IH|(IH & x & Hx & Lx)]]; cbn [is_ascii forallb]; [left; reflexivity| |].
  - unfold is_ascii in IH. rewrite IH. destruct (c <? 128) eqn:E; [left; reflexivity|].
    right. split; [reflexivity|]. exists c. split; [left; reflexivity|lia].
  - right. unfold is_ascii in IH. rewrite IH, andb_false_r. split; [reflexivity|]. exists x.
    split; [right; exact Hx|exact Lx].
Qed.

Lemma ascii_none : forall l c, is_ascii l = true -> In c l -> c < 128.
Proof.
  intros l c H I. unfold is_ascii in H. rewrite forallb_forall in H. specialize (H c I). lia.
Qed.

Lemma unit16_dec : forall l, Forall unit16 l \/ exists c, In c l /\ ~ unit16 c.
Proof.
  induction l as [|c l [IH|(x & Hx & Lx)]]; [left; constructor| |].
  - destruct (Z_le_dec 0 c) as [A|A]; [destruct (Z_lt_dec c 65536) as [B|B]|].
    + left. constructor; [split; assumption|exact IH].
    + right. exists c. split; [left; reflexivity|]. unfold unit16. lia.
    + right. exists c. split; [left; reflexivity|]. unfold unit16. lia.
  - right. exists x. split; [right; exact Hx|exact Lx].
Qed.

(** * Parts *)

Lemma parts_loop_out : forall A (f : Z -> A -> res (list Z)) msgs i,
  match parts_loop f i msgs with
  | Ok _ => forall j m, nth_error msgs j = Some m -> exists o, f (i + Z.of_nat j) m = Ok o
  | Err e => exists j m, nth_error msgs j = Some m /\ f (i + Z.of_nat j) m = Err e
  end.
Proof.
  intros A f msgs. induction msgs as [|x msgs IH]; intros i; cbn [parts_loop].
  - intros [|j] m X; discriminate X.
  - destruct (f i x) as [o|e] eqn:E; cbn [bind].
    + specialize (IH (i + 1)). destruct (parts_loop f (i + 1) msgs) as [os|e]; cbn [bind].
      * intros [|j] m X; cbn [nth_error] in X.
        -- injection X as <-. exists o. replace (i + Z.of_nat 0) with i by lia. exact E.
        -- replace (i + Z.of_nat (S j)) with (i + 1 + Z.of_nat j) by lia. exact (IH j m X).
      * destruct IH as (j & m & X & Y). exists (S j), m. split; [exact X|].
        replace (i + Z.of_nat (S j)) with (i + 1 + Z.of_nat j) by lia. exact Y.
    + exists 0%nat, x. split; [reflexivity|]. replace (i + Z.of_nat 0) with i by lia. exact E.
Qed.

Lemma part_7bit_out : forall ref total i m, octet ref -> 1 <= i <= total -> Forall septet m ->
  1 <= zlen m <= 153 ->
  match part_7bit ref total i m with
  | Ok _ => total <= 255
  | Err e => e = ValueError /\ 255 < total
  end.
Proof.
  intros ref total i m Hr Hi Hm Hl. destruct (Z_le_dec total 255) as [L|L].
  - destruct (part_7bit_ok ref total i m Hr ltac:(unfold octet; lia) ltac:(unfold octet; lia) Hm Hl)
      as (udl & ud & -> & _). exact L.
  - unfold part_7bit. rewrite py_chr_octet by exact Hr. cbn [bind]. unfold py_chr at 1.
    replace ((0 <=? total) && (total <? 256)) with false by lia. cbn [bind]. split; [reflexivity|lia].
Qed.

Lemma part_ucs2_out : forall ref total i uni m, octet ref -> 1 <= i <= total -> zlen m <= 67 ->
  match part_wide pack_8bits_to_ucs2 ref total i (PyStr uni m) with
  | Ok _ => total <= 255 /\ Forall unit16 m /\ (uni = false -> is_ascii m = true)
  | Err e => (e = ValueError /\ (255 < total \/ exists c, In c m /\ ~ unit16 c)) \/
             (e = UnicodeError /\ uni = false /\ exists c, In c m /\ 128 <= c)
  end.
Proof.
  intros ref total i uni m Hr Hi Hl. unfold part_wide. cbn [bind].
  replace (py_unichr (Z.lor (Z.shiftl 5 8) 0)) with (Ok 1280 : res Z) by (vm_compute; reflexivity).
  cbn [bind]. rewrite second_unichr by exact Hr. cbn [bind]. rewrite third_unichr by exact Hi.
  pose proof (third_above total i ltac:(lia) ltac:(lia)) as L3.
  assert (L4 : total <= 255 -> Z.lor (Z.shiftl total 8) i < 65536).
  { intros H. rewrite lor_shift8 by lia. lia. }
  revert L3 L4. generalize (Z.lor (Z.shiftl total 8) i). intros x L3 L4.
  destruct (total <=? 4351) eqn:E; cbn [bind]; [|left; split; [reflexivity|lia]].
  unfold pack_8bits_to_ucs2, pystr_add. cbn [is_uni chars].
  assert (T : uni = true \/ is_ascii m = true \/
            (uni = false /\ is_ascii m = false /\ exists c, In c m /\ 128 <= c)).
  { destruct uni; [auto|]. destruct (ascii_dec m) as [A|(A & B)]; auto. }
  assert (R : (uni = false -> is_ascii m = true) ->
    match
     (nmesg <- mapM ucs2_char ([1280; 768 + ref; x] ++ m);;
      c <- py_chr (zlen ([1280; 768 + ref; x] ++ m) * 2);; Ok (encode_str (c :: concat nmesg)))
    with
    | Ok _ => total <= 255 /\ Forall unit16 m /\ (uni = false -> is_ascii m = true)
    | Err e => (e = ValueError /\ (255 < total \/ exists c, In c m /\ ~ unit16 c)) \/
             (e = UnicodeError /\ uni = false /\ exists c, In c m /\ 128 <= c)
    end).
  { intros U. unfold octet in Hr. destruct (unit16_dec m) as [F|F].
    - destruct (Z_le_dec total 255) as [L|L].
      + assert (G : Forall unit16 ([1280; 768 + ref; x] ++ m)).
        { repeat constructor; try (unfold unit16; lia). exact F. }
        destruct (mapM_ucs2 _ G) as (nm & -> & _). cbn [bind]. rewrite zlen_app.
        change (zlen [1280; 768 + ref; x]) with 3. pose proof (zlen_nonneg m).
        rewrite py_chr_octet by (unfold is_octet; lia). cbn [bind]. auto.
      + rewrite mapM_ucs2_err; [cbn [bind]; left; split; [reflexivity|lia]|].
        intros G. inversion G as [|? ? _ G1]; subst. inversion G1 as [|? ? _ G2]; subst.
        inversion G2 as [|? ? G3 _]; subst. unfold unit16 in G3. lia.
    - rewrite mapM_ucs2_err; [cbn [bind]; left; auto|].
      intros G. destruct F as (c & I & N). rewrite Forall_forall in G. apply N, G, in_app_iff. right. exact I. }
  destruct T as [->|[A|(-> & A & B)]].
  - apply R. discriminate.
  - destruct uni; [apply R; discriminate|]. rewrite A in *. apply R. intros _. reflexivity.
  - rewrite A. cbn [bind]. right. auto.
Qed.

Lemma part_8bit_out : forall ref total i uni m, octet ref -> 1 <= i <= total -> zlen m <= 134 ->
  match part_wide pack_8bits_to_8bit ref total i (PyStr uni m) with
  | Ok _ => total <= 4351 /\ (uni = false -> is_ascii m = true) /\ (uni = true -> zlen m < 125)
  | Err e => (e = ValueError /\ 4351 < total) \/
             (e = UnicodeError /\ uni = false /\ exists c, In c m /\ 128 <= c) \/
             (e = UnicodeError /\ uni = true)
  end.
Proof.
  intros ref total i uni m Hr Hi Hl. unfold part_wide. cbn [bind].
  replace (py_unichr (Z.lor (Z.shiftl 5 8) 0)) with (Ok 1280 : res Z) by (vm_compute; reflexivity).
  cbn [bind]. rewrite second_unichr by exact Hr. cbn [bind]. rewrite third_unichr by exact Hi.
  generalize (Z.lor (Z.shiftl total 8) i). intros x.
  destruct (total <=? 4351) eqn:E; cbn [bind]; [|left; split; [reflexivity|lia]].
  unfold pack_8bits_to_8bit, pystr_add. cbn [is_uni chars]. pose proof (zlen_nonneg m) as N.
  assert (Z3 : zlen ([1280; 768 + ref; x] ++ m) = 3 + zlen m) by (rewrite zlen_app; reflexivity).
  destruct uni.
  - cbn [bind chars]. rewrite Z3, py_chr_octet by (unfold is_octet; lia). cbn [bind]. unfold is_ascii. cbn [forallb].
    destruct (3 + zlen m <? 128) eqn:L; cbn [andb bind].
    + split; [lia|]. split; [discriminate|]. intros _. lia.
    + right. right. auto.
  - destruct (ascii_dec m) as [A|(A & B)]; rewrite A; cbn [bind chars].
    + rewrite Z3, py_chr_octet by (unfold is_octet; lia). cbn [bind]. split; [lia|]. split; [auto|discriminate].
    + right. left. auto.
Qed.

(** * User data *)

Lemma split_beyond : forall text w parts n, 2 <= w -> text <> [] -> split_text text w = Ok parts ->
  Cuts (Z.to_nat w) text parts /\
  (parts_beyond n (Z.to_nat w) text <-> (n < length parts)%nat).
Proof.
  intros text w parts n Hw Ht E. rewrite split_text_cut in E by exact Hw.
  assert (C : Cuts (Z.to_nat w) text parts).
  { assert (cut (S (length text)) (Z.to_nat w) text = parts) as <- by congruence.
    apply cut_cuts; [lia|lia|exact Ht]. }
  split; [exact C|]. split.
  - intros (ps & C' & L). rewrite (cuts_cut (Z.to_nat w) ltac:(lia) _ _ C (length text) (le_n _)).
    rewrite <- (cuts_cut (Z.to_nat w) ltac:(lia) _ _ C' (length text) (le_n _)). exact L.
  - intros L. exists parts. auto.
Qed.

(** Why the user data cannot be made. *)
Definition ud_refused (c : Z) (t : pystr) (e : exn) : Prop :=
  (c <> 0 /\ c <> 4 /\ c <> 8 /\ e = ValueError) \/
  (c = 0 /\ ~ in_gsm t /\ e = UnicodeError) \/
  (c = 0 /\ (exists g, gsm_text (chars t) g /\ (160 < length g)%nat /\ parts_beyond 255 153 g) /\ e = ValueError) \/
  (c = 4 /\ is_uni t = true /\ (128 <= length (chars t))%nat /\ e = UnicodeError) \/
  (c = 4 /\ is_uni t = false /\ (140 < length (chars t))%nat /\
     (exists u, In u (chars t) /\ 128 <= u) /\ e = UnicodeError) \/
  (c = 4 /\ parts_beyond (Z.to_nat 4351) 134 (chars t) /\ e = ValueError) \/
  (c = 8 /\ (exists u, In u (chars t) /\ ~ unit16 u) /\ e = ValueError) \/
  (c = 8 /\ is_uni t = false /\ (70 < length (chars t))%nat /\
     (exists u, In u (chars t) /\ 128 <= u) /\ e = UnicodeError) \/
  (c = 8 /\ parts_beyond 255 67 (chars t) /\ e = ValueError).

Lemma beyond_long : forall n w t, (2 <= w)%nat -> parts_beyond n w t -> (n * (w - 1) < length t)%nat.
Proof.
  intros n w t Hw (ps & C & L). destruct (cuts_nonempty w t ps Hw C) as (Ht & _).
  pose proof (cut_count w Hw (length t) t (le_n _) Ht) as B.
  rewrite <- (cuts_cut w Hw _ _ C (length t) (le_n _)) in B. unfold zlen in B. nia.
Qed.

Lemma gsm_ud_out : forall t s, Forall (fun i => 0 <= i < 255) (s_id_list s) ->
  match message_ud 0 t s with
  | (Ok _, _) => forall e, ~ ud_refused 0 t e
  | (Err e, _) => ud_refused 0 t e
  end.
Proof.
  intros t s Hid.
  assert (K : (in_gsm t) -> (forall g, gsm_text (chars t) g -> (160 < length g)%nat -> ~ parts_beyond 255 153 g) ->
              forall e, ~ ud_refused 0 t e).
  { intros K1 K2 e H. unfold ud_refused in H.
    repeat destruct H as [H|H]; try (destruct H as (H & _); lia).
    - destruct H as (_ & H & _). contradiction.
    - destruct H as (_ & (g & A & B & C) & _). exact (K2 g A B C). }
  unfold message_ud. cbn [Z.eqb]. unfold st_bind, st_lift, st_upd, st_ret.
  destruct (gsm_encode t) as [g|e] eqn:Eg.
  2:{ pose proof (gsm_encode_err _ _ Eg) as ->. right. left. split; [reflexivity|]. split; [|reflexivity].
      unfold in_gsm. apply strict_error. exact Eg. }
  assert (G1 : in_gsm t).
  { unfold in_gsm. apply is_gsm_text_spec. unfold is_gsm_text. rewrite Eg. reflexivity. }
  pose proof Eg as Eg'. apply gsm_encode_text in Eg' as [_ Hg].
  assert (G2 : forall g', gsm_text (chars t) g' -> g' = g) by (intros g' H; eapply gsm_text_det; eassumption).
  unfold SEVENBIT_SIZE. destruct (Z_le_dec (zlen g) 160) as [L|L].
  - pose proof (message_gsm_single t g s Eg L) as (ud & _ & _ & E). unfold message_ud in E. cbn [Z.eqb] in E.
    unfold st_bind, st_lift, st_upd, st_ret in E. rewrite Eg in E. unfold SEVENBIT_SIZE in E.
    replace (zlen g <=? 160) with true in * by lia. rewrite E.
    apply K; [exact G1|]. intros g' H H'. apply G2 in H. subst g'. unfold zlen in L. lia.
  - replace (zlen g <=? 160) with false by lia.
    destruct (split_sms_message_eq 0 (PyStr false g) (with_text_gsm (Some g) s) Hid)
      as (ref & l' & parts & Hd & Href & Hl' & Esp & Ecc & Hlen & Es).
    cbn [chars] in *. change (part_capacity 0) with 153 in *. rewrite Es. cbn [Z.eqb].
    assert (Hne : g <> []) by (intros ->; unfold zlen in L; cbn in L; lia).
    destruct (split_beyond g 153 parts 255 ltac:(lia) Hne Esp) as (C & B).
    change (Z.to_nat 153) with 153%nat in *.
    pose proof (parts_loop_out _ (part_7bit ref (zlen parts)) parts 1) as P.
    assert (Hs : Forall septet g) by (eapply septets_of_text; exact Hg).
    assert (Q : forall j m, nth_error parts j = Some m ->
      match part_7bit ref (zlen parts) (1 + Z.of_nat j) m with
      | Ok _ => zlen parts <= 255 | Err e => e = ValueError /\ 255 < zlen parts end).
    { intros j m Hj. assert (I : In m parts) by (eapply nth_error_In; exact Hj).
      apply part_7bit_out; [exact Href| | |].
      - assert (j < length parts)%nat by (apply nth_error_Some; congruence). unfold zlen. lia.
      - rewrite <- Ecc in Hs. rewrite Forall_forall in *. intros c Hc. apply Hs. apply in_concat. eauto.
      - rewrite Forall_forall in Hlen. exact (Hlen m I). }
    destruct (parts_loop (part_7bit ref (zlen parts)) 1 parts) as [os|e].
    + apply K; [exact G1|]. intros g' H H'. apply G2 in H. subst g'. rewrite B.
      destruct (cuts_nonempty 153 g parts ltac:(lia) C) as (_ & Hp). destruct parts as [|m0 parts]; [congruence|].
      destruct (P 0%nat m0 eq_refl) as (o & Eo). specialize (Q 0%nat m0 eq_refl). rewrite Eo in Q.
      unfold zlen in Q. lia.
    + destruct P as (j & m & Hj & Ej). specialize (Q j m Hj). rewrite Ej in Q. destruct Q as (-> & Q).
      right. right. left. split; [reflexivity|]. split; [|reflexivity]. exists g. split; [exact Hg|].
      split; [unfold zlen in L; lia|]. apply B. unfold zlen in Q. lia.
Qed.

Lemma ucs2_ud_out : forall t s, Forall (fun i => 0 <= i < 255) (s_id_list s) ->
  match message_ud 8 t s with
  | (Ok _, _) => forall e, ~ ud_refused 8 t e
  | (Err e, _) => ud_refused 8 t e
  end.
Proof.
  intros t s Hid.
  assert (K : Forall unit16 (chars t) -> (is_uni t = false -> (70 < length (chars t))%nat -> is_ascii (chars t) = true) ->
              ~ parts_beyond 255 67 (chars t) -> forall e, ~ ud_refused 8 t e).
  { intros K1 K2 K3 e H. unfold ud_refused in H.
    repeat destruct H as [H|H]; try (destruct H as (H & _); lia); try lia.
    - destruct H as (_ & (u & A & B) & _). rewrite Forall_forall in K1. auto.
    - destruct H as (_ & A & B & (u & C & D) & _). pose proof (ascii_none _ u (K2 A B) C). lia.
    - destruct H as (_ & H & _). contradiction. }
  destruct (Z_le_dec (zlen (chars t)) 70) as [L|L].
  - rewrite message_ucs2_single by exact L.
    destruct (forallb (fun u => (0 <=? u) && (u <? 65536)) (chars t)) eqn:F.
    + apply K.
      * apply Forall_forall. intros u Hu. rewrite forallb_forall in F. specialize (F u Hu). unfold unit16. lia.
      * intros _ X. unfold zlen in L. lia.
      * intros X. apply beyond_long in X; [|lia]. unfold zlen in L. lia.
    + destruct (unit16_dec (chars t)) as [G|G].
      * exfalso. assert (X : forallb (fun u => (0 <=? u) && (u <? 65536)) (chars t) = true); [|congruence].
        apply forallb_forall. intros u Hu. rewrite Forall_forall in G. specialize (G u Hu). unfold unit16 in G. lia.
      * unfold ud_refused. do 6 right. left. auto.
  - unfold message_ud. cbn [Z.eqb Pos.eqb]. unfold UCS2_SIZE. replace (zlen (chars t) <=? 70) with false by lia.
    destruct (split_sms_message_eq 8 t s Hid)
      as (ref & l' & parts & Hd & Href & Hl' & Esp & Ecc & Hlen & Es).
    change (part_capacity 8) with 67 in *. rewrite Es. cbn [Z.eqb Pos.eqb].
    assert (Hne : chars t <> []) by (intros X; rewrite X in L; unfold zlen in L; cbn in L; lia).
    destruct (split_beyond (chars t) 67 parts 255 ltac:(lia) Hne Esp) as (C & B).
    change (Z.to_nat 67) with 67%nat in *. cbv zeta.
    pose proof (parts_loop_out _ (part_wide pack_8bits_to_ucs2 ref (zlen parts)) (map (PyStr (is_uni t)) parts) 1) as P.
    assert (Q : forall j m, nth_error parts j = Some m ->
      match part_wide pack_8bits_to_ucs2 ref (zlen parts) (1 + Z.of_nat j) (PyStr (is_uni t) m) with
      | Ok _ => zlen parts <= 255 /\ Forall unit16 m /\ (is_uni t = false -> is_ascii m = true)
      | Err e => (e = ValueError /\ (255 < zlen parts \/ exists c, In c m /\ ~ unit16 c)) \/
             (e = UnicodeError /\ is_uni t = false /\ exists c, In c m /\ 128 <= c) end).
    { intros j m Hj. assert (I : In m parts) by (eapply nth_error_In; exact Hj).
      apply part_ucs2_out; [exact Href| |].
      - assert (j < length parts)%nat by (apply nth_error_Some; congruence). unfold zlen. lia.
      - rewrite Forall_forall in Hlen. apply (Hlen m I). }
    assert (M : forall j m, nth_error parts j = Some m -> nth_error (map (PyStr (is_uni t)) parts) j = Some (PyStr (is_uni t) m)).
    { intros j m H. apply map_nth_error. exact H. }
    assert (S : forall m u, In m parts -> In u m -> In u (chars t)).
    { intros m u A D. rewrite <- Ecc. apply in_concat. eauto. }
    destruct (parts_loop (part_wide pack_8bits_to_ucs2 ref (zlen parts)) 1 (map (PyStr (is_uni t)) parts)) as [os|e].
    + assert (R : forall m, In m parts -> zlen parts <= 255 /\ Forall unit16 m /\ (is_uni t = false -> is_ascii m = true)).
      { intros m I. apply In_nth_error in I. destruct I as (j & Hj). destruct (P j _ (M j m Hj)) as (o & Eo).
        specialize (Q j m Hj). rewrite Eo in Q. exact Q. }
      apply K.
      * rewrite <- Ecc. apply Forall_forall. intros u Hu. apply in_concat in Hu. destruct Hu as (m & I & Hu).
        destruct (R m I) as (_ & F & _). rewrite Forall_forall in F. auto.
      * intros U _. apply forallb_forall. intros u Hu. rewrite <- Ecc in Hu. apply in_concat in Hu.
        destruct Hu as (m & I & Hu). destruct (R m I) as (_ & _ & F). pose proof (ascii_none m u (F U) Hu). lia.
      * rewrite B. destruct (cuts_nonempty 67 _ parts ltac:(lia) C) as (_ & Hp). destruct parts as [|m0 parts]; [congruence|].
        destruct (R m0 (or_introl eq_refl)) as (X & _). unfold zlen in X. lia.
    + destruct P as (j & m & Hj & Ej). rewrite nth_error_map in Hj.
      destruct (nth_error parts j) as [m'|] eqn:Hj'; [|discriminate]. cbn [option_map] in Hj. injection Hj as <-.
      specialize (Q j m' Hj'). rewrite Ej in Q. apply nth_error_In in Hj'. unfold ud_refused.
      destruct Q as [(-> & [Q|(u & A & D)])|(-> & U & u & A & D)].
      * do 8 right. split; [reflexivity|]. split; [|reflexivity]. apply B. unfold zlen in Q. lia.
      * do 6 right. left. eauto 10.
      * do 7 right. left. split; [reflexivity|]. split; [exact U|]. split; [unfold zlen in L; lia|]. eauto 10.
Qed.

Lemma eight_ud_out : forall t s, Forall (fun i => 0 <= i < 255) (s_id_list s) ->
  match message_ud 4 t s with
  | (Ok _, _) => forall e, ~ ud_refused 4 t e
  | (Err e, _) => ud_refused 4 t e
  end.
Proof.
  intros t s Hid.
  assert (K : (is_uni t = true -> (length (chars t) < 128)%nat) ->
              (is_uni t = false -> (140 < length (chars t))%nat -> is_ascii (chars t) = true) ->
              ~ parts_beyond (Z.to_nat 4351) 134 (chars t) -> forall e, ~ ud_refused 4 t e).
  { intros K1 K2 K3 e H. unfold ud_refused in H.
    repeat destruct H as [H|H]; try (destruct H as (H & _); lia); try lia.
    - destruct H as (_ & A & B & _). specialize (K1 A). lia.
    - destruct H as (_ & A & B & (u & C & D) & _). pose proof (ascii_none _ u (K2 A B) C). lia.
    - destruct H as (_ & H & _). contradiction. }
  unfold message_ud. cbn [Z.eqb Pos.eqb]. unfold EIGHTBIT_SIZE.
  destruct (Z_le_dec (zlen (chars t)) 140) as [L|L].
  - replace (zlen (chars t) <=? 140) with true by lia. unfold st_bind, st_lift, st_ret, pack_8bits_to_8bit. cbn [bind].
    pose proof (zlen_nonneg (chars t)). rewrite py_chr_octet by (unfold is_octet; lia). cbn [bind].
    unfold pystr_add. cbn [is_uni chars].
    assert (NB : ~ parts_beyond (Z.to_nat 4351) 134 (chars t)).
    { intros X. apply beyond_long in X; [|lia]. unfold zlen in L. lia. }
    destruct (is_uni t) eqn:U.
    + unfold is_ascii. cbn [forallb]. destruct (zlen (chars t) <? 128) eqn:E; cbn [andb bind].
      * apply K; [|discriminate|exact NB]. intros _. unfold zlen in E. lia.
      * unfold ud_refused. do 3 right. left. split; [reflexivity|]. split; [exact U|].
        split; [unfold zlen in E; lia|reflexivity].
    + cbn [bind]. apply K; [discriminate| |exact NB]. intros _ X. unfold zlen in L. lia.
  - replace (zlen (chars t) <=? 140) with false by lia.
    destruct (split_sms_message_eq 4 t s Hid)
      as (ref & l' & parts & Hd & Href & Hl' & Esp & Ecc & Hlen & Es).
    change (part_capacity 4) with 134 in *. rewrite Es. cbn [Z.eqb Pos.eqb].
    assert (Hne : chars t <> []) by (intros X; rewrite X in L; unfold zlen in L; cbn in L; lia).
    destruct (split_beyond (chars t) 134 parts (Z.to_nat 4351) ltac:(lia) Hne Esp) as (C & B).
    change (Z.to_nat 134) with 134%nat in *. cbv zeta.
    pose proof (parts_loop_out _ (part_wide pack_8bits_to_8bit ref (zlen parts)) (map (PyStr (is_uni t)) parts) 1) as P.
    assert (Q : forall j m, nth_error parts j = Some m ->
      match part_wide pack_8bits_to_8bit ref (zlen parts) (1 + Z.of_nat j) (PyStr (is_uni t) m) with
      | Ok _ => zlen parts <= 4351 /\ (is_uni t = false -> is_ascii m = true) /\ (is_uni t = true -> zlen m < 125)
      | Err e => (e = ValueError /\ 4351 < zlen parts) \/
             (e = UnicodeError /\ is_uni t = false /\ exists c, In c m /\ 128 <= c) \/
             (e = UnicodeError /\ is_uni t = true) end).
    { intros j m Hj. assert (I : In m parts) by (eapply nth_error_In; exact Hj).
      apply part_8bit_out; [exact Href| |].
      - assert (j < length parts)%nat by (apply nth_error_Some; congruence). unfold zlen. lia.
      - rewrite Forall_forall in Hlen. apply (Hlen m I). }
    assert (M : forall j m, nth_error parts j = Some m -> nth_error (map (PyStr (is_uni t)) parts) j = Some (PyStr (is_uni t) m)).
    { intros j m H. apply map_nth_error. exact H. }
    destruct (cuts_nonempty 134 _ parts ltac:(lia) C) as (_ & Hp).
    assert (First : exists m0 r, parts = m0 :: r /\ 125 <= zlen m0).
    { unfold zlen in L. destruct C as [t0 A1 A2 A3|p r ps A1 A2 A3|p r ps A1 A2].
      - lia.
      - exists p, ps. split; [reflexivity|]. unfold zlen. lia.
      - exists p, ps. split; [reflexivity|]. unfold zlen. lia. }
    destruct (parts_loop (part_wide pack_8bits_to_8bit ref (zlen parts)) 1 (map (PyStr (is_uni t)) parts)) as [os|e].
    + assert (R : forall m, In m parts -> zlen parts <= 4351 /\ (is_uni t = false -> is_ascii m = true) /\
                                          (is_uni t = true -> zlen m < 125)).
      { intros m I. apply In_nth_error in I. destruct I as (j & Hj). destruct (P j _ (M j m Hj)) as (o & Eo).
        specialize (Q j m Hj). rewrite Eo in Q. exact Q. }
      destruct First as (m0 & r & Em & Lm).
      assert (I0 : In m0 parts) by (rewrite Em; left; reflexivity).
      apply K.
      * intros U. destruct (R m0 I0) as (_ & _ & X). specialize (X U). lia.
      * intros U _. apply forallb_forall. intros u Hu. rewrite <- Ecc in Hu. apply in_concat in Hu.
        destruct Hu as (m & I & Hu). destruct (R m I) as (_ & F & _). pose proof (ascii_none m u (F U) Hu). lia.
      * rewrite B. destruct (R m0 I0) as (X & _). unfold zlen in X. lia.
    + destruct P as (j & m & Hj & Ej). rewrite nth_error_map in Hj.
      destruct (nth_error parts j) as [m'|] eqn:Hj'; [|discriminate]. cbn [option_map] in Hj. injection Hj as <-.
      specialize (Q j m' Hj'). rewrite Ej in Q. apply nth_error_In in Hj'. unfold ud_refused.
      destruct Q as [(-> & Q)|[(-> & U & u & A & D)|(-> & U)]].
      * do 5 right. left. split; [reflexivity|]. split; [|reflexivity]. apply B. unfold zlen in Q. lia.
      * do 4 right. left. split; [reflexivity|]. split; [exact U|]. split; [unfold zlen in L; lia|].
        split; [|reflexivity]. exists u. split; [|exact D]. rewrite <- Ecc. apply in_concat. eauto.
      * do 3 right. left. split; [reflexivity|]. split; [exact U|]. split; [unfold zlen in L; lia|reflexivity].
Qed.

Lemma ud_out : forall c t s, Forall (fun i => 0 <= i < 255) (s_id_list s) ->
  match message_ud c t s with
  | (Ok _, _) => forall e, ~ ud_refused c t e
  | (Err e, _) => ud_refused c t e
  end.
Proof.
  intros c t s H. destruct (Z.eq_dec c 0) as [->|N0]; [apply gsm_ud_out, H|].
  destruct (Z.eq_dec c 4) as [->|N4]; [apply eight_ud_out, H|].
  destruct (Z.eq_dec c 8) as [->|N8]; [apply ucs2_ud_out, H|].
  unfold message_ud. replace (c =? 0) with false by lia. replace (c =? 4) with false by lia.
  replace (c =? 8) with false by lia. left. auto.
Qed.

(** * The whole message *)

Lemma ud_unsendable : forall s e, ud_refused (coding_of s) (s_text s) e -> unsendable s e.
Proof.
  intros s e H. pose proof (sent_in_coding s) as S. unfold ud_refused in H.
  repeat destruct H as [H|H].
  - destruct H as (A & B & C & ->). eapply un_coding; [apply S; reflexivity|exact A|exact B|exact C].
  - destruct H as (A & B & ->). apply un_gsm; [apply S; congruence|exact B].
  - destruct H as (A & (g & B & C & D) & ->). eapply un_gsm_parts; [apply S; congruence|exact B|exact C|exact D].
  - destruct H as (A & B & C & ->). apply un_8bit_unicode; [apply S; congruence|exact B|exact C].
  - destruct H as (A & B & C & (u & D & E) & ->). eapply un_8bit_bytes; [apply S; congruence|exact B|exact C|exact D|exact E].
  - destruct H as (A & B & ->). apply un_8bit_parts; [apply S; congruence|exact B].
  - destruct H as (A & (u & B & C) & ->). eapply un_ucs2; [apply S; congruence|exact B|exact C].
  - destruct H as (A & B & C & (u & D & E) & ->). eapply un_ucs2_bytes; [apply S; congruence|exact B|exact C|exact D|exact E].
  - destruct H as (A & B & ->). apply un_ucs2_parts; [apply S; congruence|exact B].
Qed.

Lemma unsendable_cases : forall s e, unsendable s e ->
  (s_number s = None) \/ (s_number s = Some []) \/ ~ octet (s_pid s) \/
  (exists t, s_validity s = Relative t /\ (t < 5 * 60 * 1000000 \/ 63 * 7 * 86400 * 1000000 < t)) \/
  (exists d, s_validity s = Absolute d /\ dt_year d < 1900) \/
  ud_refused (coding_of s) (s_text s) e.
Proof.
  intros s e H. pose proof (sent_in_coding s) as S. unfold ud_refused.
  destruct H; auto; try (match goal with H : sent_in _ _ |- _ => apply S in H end).
  - subst. do 5 right. left. auto.
  - do 3 right. left. eauto.
  - do 4 right. left. eauto.
  - do 5 right. do 1 right. left. auto.
  - do 5 right. do 2 right. left. eauto 10.
  - do 5 right. do 3 right. left. auto.
  - do 5 right. do 4 right. left. eauto 10.
  - do 5 right. do 5 right. left. auto.
  - do 5 right. do 6 right. left. eauto 10.
  - do 5 right. do 7 right. left. eauto 10.
  - do 5 right. do 8 right. auto.
Qed.

Lemma to_pdu_out : forall s, wf_submit s -> python_date (s_validity s) ->
  match to_pdu s with
  | (Ok _, _) => forall e, ~ unsendable s e
  | (Err e, _) => unsendable s e
  end.
Proof.
  intros s Hwf Hv. pose proof Hwf as (Hnum & _ & Hk & Hid).
  destruct (tpmessref_ok s Hid) as (mr & l & Er & Hmr & Hl & Hd).
  unfold to_pdu. unfold st_bind, st_get, st_lift.
  destruct (smsc_pdu_ok s Hwf) as (sm & v & Esm & _). rewrite Esm.
  rewrite !submit_octet, Er.
  destruct (s_number s) as [[|c n]|] eqn:En.
  1:{ replace (get_phone_pdu s) with (Err IndexError : res (list Z)); [apply un_empty; exact En|].
      unfold get_phone_pdu. rewrite En. reflexivity. }
  2:{ replace (get_phone_pdu s) with (Err AttributeError : res (list Z)); [apply un_nobody; exact En|].
      unfold get_phone_pdu. rewrite En. reflexivity. }
  cbn [settable] in Hnum. destruct Hnum as (intl & ds & Hn).
  destruct (phone_pdu_spec s intl ds _ En Hn) as (os & _ & Eph). rewrite Eph.
  unfold get_tppid_pdu. unfold py_chr at 1.
  destruct ((0 <=? s_pid s) && (s_pid s <? 256)) eqn:Ep; cbn [bind].
  2:{ apply un_pid. unfold octet. lia. }
  rewrite get_msg_pdu_eq, coding_ref_state. cbn [s_klass s_validity s_text with_ref with_id_list].
  destruct (py_chr (dcs_of (coding_of s) (s_klass s))) as [c'|e] eqn:Ec.
  2:{ assert (X : ~ (coding_of s = 0 \/ coding_of s = 4 \/ coding_of s = 8)).
      { intros X. destruct (dcs_of_octet (coding_of s) (s_klass s) X Hk) as [Y Z].
        rewrite Y, py_chr_octet in Ec by exact Z. discriminate. }
      replace e with ValueError by (unfold py_chr in Ec; destruct (_ && _) in Ec; congruence).
      apply (un_coding s (coding_of s)); [apply sent_in_coding; reflexivity|tauto|tauto|tauto]. }
  destruct (validity_out (s_validity s) Hv) as [(vp & Evp & V1 & V2)|(Evp & V)]; rewrite Evp.
  2:{ destruct V as [(t & A & B)|(d & A & B)]; [eapply un_relative; eauto|eapply un_absolute; eauto]. }
  pose proof (ud_out (coding_of s) (s_text s) (fmt_state (with_ref (Some mr) (with_id_list l s))) Hl) as U.
  destruct (message_ud (coding_of s) (s_text s) (fmt_state (with_ref (Some mr) (with_id_list l s)))) as [[ms|e] s'].
  2:{ apply ud_unsendable. exact U. }
  assert (R : forall e, ~ unsendable s e).
  { intros e H. apply unsendable_cases in H. destruct H as [H|[H|[H|[(t & A & B)|[(d & A & B)|H]]]]].
    - congruence.
    - congruence.
    - apply H. unfold octet. lia.
    - exact (V1 t A B).
    - specialize (V2 d A). lia.
    - exact (U e H). }
  destruct ms as [|m [|m2 ms]]; exact R.
Qed.
