(** Proofs for PropPdus.v: every character SmsSubmit.to_pdu returns. *)
From Coq Require Import Lia ZifyBool ZifyNat.
From Verif Require Import Py PyFacts SpecGsm SpecPack SpecAddress SpecTime SpecSubmit SpecCuts SpecUnsent SpecPdus
  Gsm GsmFacts Utils PackFacts ValidityFacts Submit SubmitClaims NumberFacts SplitFacts SubmitFacts
  CutFacts UnsentFacts.
Open Scope Z_scope.
Ltac Zify.zify_post_hook ::= Z.div_mod_to_equations.

(** * Hexadecimal notation of a character *)

Lemma upper_digit d : 0 <= d < 16 -> up (hexdigit d) = hex_digit_upper d.
Proof.
  intros H. unfold up, hexdigit, hex_digit_upper. destruct (d <? 10) eqn:E.
  - now replace ((97 <=? 48 + d) && (48 + d <=? 122)) with false by lia.
  - replace ((97 <=? 87 + d) && (87 + d <=? 122)) with true by lia. lia.
Qed.

Lemma base16_from ds : forall a, fold_left (fun a d => 16 * a + d) ds a = 16 ^ Z.of_nat (length ds) * a + base16 ds.
Proof.
  unfold base16. induction ds as [|d ds IH]; intros a; cbn [fold_left length].
  - rewrite Z.pow_0_r. lia.
  - rewrite (IH (16 * a + d)), (IH (16 * 0 + d)). rewrite Nat2Z.inj_succ, Z.pow_succ_r by lia. lia.
Qed.

Lemma hex_fuel_digits : forall fuel n acc, 0 <= n < 16 ^ Z.of_nat fuel -> (0 < fuel)%nat ->
  exists ds, hex_fuel fuel n acc = map hexdigit ds ++ acc /\ Forall (fun d => 0 <= d < 16) ds /\
    base16 ds = n /\ (1 <= length ds)%nat /\ ((1 < length ds)%nat -> hd 0 ds <> 0).
Proof.
  induction fuel as [|fuel IH]; intros n acc Hn Hf; [lia|]. cbn [hex_fuel].
  destruct (n / 16 =? 0) eqn:E.
  - exists [n mod 16]. cbn [map app length hd]. split; [reflexivity|].
    split; [repeat constructor; lia|]. split; [unfold base16; cbn [fold_left]; lia|]. split; lia.
  - rewrite Nat2Z.inj_succ, Z.pow_succ_r in Hn by lia.
    destruct fuel as [|fuel]; [cbn in Hn; lia|].
    destruct (IH (n / 16) (hexdigit (n mod 16) :: acc)) as (ds & -> & F & B & L & H); [lia|lia|].
    exists (ds ++ [n mod 16]). rewrite map_app, <- app_assoc. cbn [map app]. split; [reflexivity|].
    split; [apply Forall_app; split; [exact F|repeat constructor; lia]|].
    split.
    { unfold base16. rewrite fold_left_app. fold (base16 ds). rewrite B. cbn [fold_left]. lia. }
    rewrite app_length. cbn [length]. split; [lia|]. intros _.
    destruct ds as [|d ds]; [cbn in L; lia|]. cbn [app hd]. cbn [hd] in H.
    destruct ds as [|d' ds]; [|apply H; cbn; lia].
    unfold base16 in B. cbn [fold_left] in B. lia.
Qed.

Lemma hex02_in_hex n : 0 <= n -> in_hex n (py_upper (hex02 n)).
Proof.
  intros Hn. unfold hex02, py_hex.
  destruct (hex_fuel_digits (S (Z.to_nat (Z.log2 n))) n []) as (ds & E & F & B & L & H).
  { split; [exact Hn|]. rewrite Nat2Z.inj_succ, Z2Nat.id by apply Z.log2_nonneg.
    apply Z.lt_le_trans with (2 ^ Z.succ (Z.log2 n)).
    - destruct (Z.eq_dec n 0) as [->|X]; [reflexivity|]. apply Z.log2_spec. lia.
    - apply Z.pow_le_mono_l. lia. }
  { lia. }
  rewrite E, app_nil_r.
  assert (K : forall l, Forall (fun d => 0 <= d < 16) l -> py_upper (map hexdigit l) = map hex_digit_upper l).
  { intros l Hl. unfold py_upper. rewrite map_map. apply map_ext_in. intros d Hd. apply upper_digit.
    rewrite Forall_forall in Hl. auto. }
  destruct ds as [|a [|b ds]]; [cbn in L; lia| |].
  - cbn [map]. change (py_upper [48; hexdigit a]) with (py_upper (map hexdigit [0; a])).
    assert (G : Forall (fun d => 0 <= d < 16) [0; a]).
    { inversion F; subst. repeat constructor; lia. }
    rewrite K by exact G. apply hex_is; [exact G| |left; reflexivity].
    rewrite <- B. unfold base16. cbn [fold_left]. lia.
  - change (in_hex n (py_upper (map hexdigit (a :: b :: ds)))). rewrite K by exact F. apply hex_is; [exact F|exact B|].
    destruct ds as [|c ds]; [left; reflexivity|]. right. split; [cbn; lia|]. apply H. cbn. lia.
Qed.

Lemma hex02_all l : Forall (fun c => 0 <= c) l ->
  exists hs, py_upper (encode_str l) = concat hs /\ Forall2 in_hex l hs.
Proof.
  intros H. exists (map (fun c => py_upper (hex02 c)) l). split.
  - unfold encode_str, py_upper. rewrite concat_map, map_map. reflexivity.
  - induction H; cbn [map]; constructor; [now apply hex02_in_hex|assumption].
Qed.

Lemma py_upper_app a b : py_upper (a ++ b) = py_upper a ++ py_upper b.
Proof. apply map_app. Qed.

Lemma hex_upper_app a b : hex_upper (a ++ b) = hex_upper a ++ hex_upper b.
Proof. induction a as [|x a IH]; [reflexivity|]. cbn [app hex_upper]. now rewrite IH. Qed.

(** * Validity *)

Lemma dec02_two n : 0 <= n < 100 -> py_int 16 (rev (dec02 n)) = Ok (swapped_decimal n) /\ octet (swapped_decimal n).
Proof.
  intros H. pose proof (range_sweep 100 (fun n =>
    match py_int 16 (rev (dec02 n)) with
    | Ok o => (o =? swapped_decimal n) && (0 <=? o) && (o <? 256)
    | Err _ => false end) eq_refl n H) as S.
  cbn beta in S. destruct (py_int 16 (rev (dec02 n))) as [o|]; [|discriminate].
  apply andb_true_iff in S as [S S3]. apply andb_true_iff in S as [S1 S2].
  assert (o = swapped_decimal n) as -> by lia. split; [reflexivity|]. unfold octet. lia.
Qed.

Definition zone_ok (m : Z) : bool :=
  match tz_octet (Some m) with
  | Ok o => (o =? zone_written m) && (0 <=? o) && (o <? 256)
  | Err _ => false
  end.
Lemma zone_sweep : forallb (fun k => zone_ok (k - 1439)) (zrange 2879) = true.
Proof. vm_compute. reflexivity. Qed.

Lemma zone_octet m : -1440 < m < 1440 -> tz_octet (Some m) = Ok (zone_written m) /\ octet (zone_written m).
Proof.
  intros H. pose proof (range_sweep 2879 (fun k => zone_ok (k - 1439)) zone_sweep (m + 1439) ltac:(lia)) as S.
  cbn beta in S. replace (m + 1439 - 1439) with m in S by lia. unfold zone_ok in S.
  destruct (tz_octet (Some m)) as [o|]; [|discriminate].
  apply andb_true_iff in S as [S S3]. apply andb_true_iff in S as [S1 S2].
  assert (o = zone_written m) as -> by (apply Z.eqb_eq; exact S1). split; [reflexivity|]. unfold octet. lia.
Qed.

Lemma validity_pdu v l : python_date v -> get_msgvp_pdu v = Ok l ->
  exists vp, l = hex_of vp /\ Forall octet vp /\ validity_written v vp.
Proof.
  intros Hd E. destruct v as [|t|d]; cbn [get_msgvp_pdu] in E.
  - exists []. injection E as <-. split; [reflexivity|]. split; constructor.
  - destruct (Z_le_dec (5 * 60 * 1000000) t) as [L1|L1];
    [destruct (Z_le_dec t (63 * 7 * 86400 * 1000000)) as [L2|L2]|].
    + destruct (relative_floor t (conj L1 L2)) as (v & E' & Hv & Hp & Hm).
      rewrite E' in E. cbn [bind] in E. rewrite py_chr_octet in E by (unfold is_octet; lia).
      cbn [bind] in E. assert (octet v) by (unfold octet; lia).
      rewrite encode_str_hex in E by (foralls; assumption). injection E as <-.
      exists [v]. split; [reflexivity|]. split; [foralls; assumption|].
      constructor; [assumption|assumption|]. intros o' Ho'. apply Hm. unfold octet in Ho'. lia.
    + rewrite (proj1 (relative_error t)) in E; [discriminate|]. lia.
    + rewrite (proj1 (relative_error t)) in E; [discriminate|]. lia.
  - destruct (Z_le_dec 1900 (dt_year d)) as [L|L].
    2:{ unfold datetime_to_absolute_validity in E.
        replace (dt_year d <? 1900) with true in E by lia. discriminate. }
    destruct (Hd d eq_refl) as [Hv Ho].
    apply valid_fields in Hv as (H1 & H2 & H3 & H4 & H5).
    assert (Y : 0 <= dt_year d mod 100 < 100) by lia.
    assert (T : tz_octet (dt_offset d) = Ok (zone_written (match dt_offset d with Some m => m | None => 0 end)) /\
                octet (zone_written (match dt_offset d with Some m => m | None => 0 end))).
    { destruct (dt_offset d) as [m|]; [apply zone_octet; auto|]. split; [vm_compute; reflexivity|].
      unfold octet. vm_compute. intuition discriminate. }
    destruct T as [T1 T2].
    destruct (dec02_two _ Y) as [D1 O1]. destruct (dec02_two _ H1) as [D2 O2].
    destruct (dec02_two _ H2) as [D3 O3]. destruct (dec02_two _ H3) as [D4 O4].
    destruct (dec02_two _ H4) as [D5 O5]. destruct (dec02_two _ H5) as [D6 O6].
    assert (M : mapM (fun c => py_int 16 (rev c))
         [dec02 (dt_year d mod 100); dec02 (dt_month d); dec02 (dt_day d);
          dec02 (dt_hour d); dec02 (dt_minute d); dec02 (dt_second d)] =
      Ok [swapped_decimal (dt_year d mod 100); swapped_decimal (dt_month d); swapped_decimal (dt_day d);
          swapped_decimal (dt_hour d); swapped_decimal (dt_minute d); swapped_decimal (dt_second d)]).
    { cbn [mapM]. rewrite D1. cbn [bind]. rewrite D2. cbn [bind]. rewrite D3. cbn [bind]. rewrite D4.
      cbn [bind]. rewrite D5. cbn [bind]. rewrite D6. cbn [bind]. reflexivity. }
    destruct (absolute_split d L) as [A|(e & A & [(e' & B)|(e' & B)])];
      [|rewrite T1 in B; discriminate|rewrite M in B; discriminate].
    rewrite M, T1 in A. cbn [bind app] in A. rewrite A in E. cbn [bind] in E.
    set (z := zone_written _) in *.
    set (vp := [swapped_decimal (dt_year d mod 100); swapped_decimal (dt_month d); swapped_decimal (dt_day d);
          swapped_decimal (dt_hour d); swapped_decimal (dt_minute d); swapped_decimal (dt_second d); z]) in *.
    assert (F : Forall octet vp) by (unfold vp; foralls; assumption).
    rewrite mapM_py_chr in E by exact F. cbn [bind] in E. exists vp. split; [|split; [exact F|constructor]].
    rewrite <- encode_str_hex by exact F. injection E as <-. unfold vp, encode_str. cbn [map concat app].
    rewrite !app_nil_r. reflexivity.
Qed.

(** * References *)

Lemma drawn_first (ids : list Z) mr l : mr :: l = match ids with [] => id_range | _ => ids end ->
  mr = nth 0 (ids ++ id_range) 0 /\
  forall mr' l', mr' :: l' = match l with [] => id_range | _ => l end -> mr' = nth 1 (ids ++ id_range) 0.
Proof.
  intros H. destruct ids as [|i ids].
  - assert (L : 0 :: map Z.of_nat (seq 1 254) = mr :: l) by (rewrite H; reflexivity).
    injection L as <- <-. split; [reflexivity|]. intros mr' l' H'.
    assert (L : 1 :: map Z.of_nat (seq 2 253) = mr' :: l') by (rewrite H'; reflexivity).
    injection L as <- _. reflexivity.
  - injection H as -> ->. split; [reflexivity|]. intros mr' l' H'. destruct ids as [|j ids].
    + assert (L : 0 :: map Z.of_nat (seq 1 254) = mr' :: l') by (rewrite H'; reflexivity).
      injection L as <- _. reflexivity.
    + injection H' as -> ->. reflexivity.
Qed.

Lemma reference_drawn s mr l :
  match s_ref s with
  | Some r => mr = r mod 256 /\ l = s_id_list s
  | None => mr :: l = match s_id_list s with [] => id_range | _ => s_id_list s end
  end -> mr = reference_written s.
Proof.
  unfold reference_written, to_draw. destruct (s_ref s); [tauto|]. intros H. apply (drawn_first _ _ _ H).
Qed.

Lemma part_reference_drawn s s1 mr l ref l' :
  match s_ref s with
  | Some r => mr = r mod 256 /\ l = s_id_list s
  | None => mr :: l = match s_id_list s with [] => id_range | _ => s_id_list s end
  end -> s_rand_id s1 = s_rand_id s -> s_id_list s1 = l -> drawn s1 ref l' -> ref = part_reference s.
Proof.
  unfold part_reference, to_draw, drawn. intros H E1 E2 D. rewrite E1, E2 in D.
  destruct (s_rand_id s); [tauto|]. destruct (s_ref s).
  - destruct H as [_ ->]. apply (drawn_first _ _ _ D).
  - destruct (drawn_first _ _ _ H) as [_ K]. eapply K. exact D.
Qed.

(** * User data *)

Lemma upper_hex_of l : Forall octet l -> py_upper (hex_of l) = hex_upper l.
Proof. apply upper_hex. Qed.

Lemma wide_8bit_data m uni hd o :
  Forall (fun c => 0 <= c) m -> zlen m <= 140 ->
  (hd = [] \/ (length hd = 3%nat /\ zlen m <= 134)) ->
  pack_8bits_to_8bit (PyStr uni m) (match hd with [] => None | _ => Some (PyStr true hd) end) = Ok o ->
  exists hs, Forall2 in_hex m hs /\ py_upper o = hex_upper [zlen hd + zlen m] ++ concat hs.
Proof.
  intros Hm Hl Hh E. unfold pack_8bits_to_8bit in E. pose proof (zlen_nonneg m) as N.
  destruct (hex02_all m Hm) as (hs & E1 & F). exists hs. split; [exact F|].
  assert (T : exists u, match hd with [] => None | _ => Some (PyStr true hd) end = u /\
     (t <- match u with None => Ok (PyStr uni m) | Some u => pystr_add u (PyStr uni m) end ;;
     Ok (zlen (chars t))) = Ok (zlen hd + zlen m)).
  { destruct hd as [|a hd]; [exists None; split; reflexivity|].
    exists (Some (PyStr true (a :: hd))). split; [reflexivity|].
    destruct (uni || is_ascii m) eqn:U.
    - rewrite pystr_add_unicode by exact U. cbn [bind chars]. now rewrite zlen_app.
    - unfold pystr_add in E. cbn [is_uni chars] in E. apply orb_false_iff in U as [-> U]. rewrite U in E. discriminate. }
  destruct T as (u & Eu & T). rewrite Eu in E.
  destruct (match u with None => Ok (PyStr uni m) | Some u => pystr_add u (PyStr uni m) end) as [t|e]; [|discriminate].
  cbn [bind] in E, T. assert (zlen (chars t) = zlen hd + zlen m) as X by congruence. rewrite X in E.
  assert (O : octet (zlen hd + zlen m)).
  { unfold octet. pose proof (zlen_nonneg hd). destruct Hh as [->|[Y Z']]; [change (zlen (@nil Z)) with 0; lia|].
    assert (zlen hd = 3) by (unfold zlen; rewrite Y; reflexivity). lia. }
  rewrite py_chr_octet in E by exact O. cbn [bind] in E.
  assert (o = encode_str ((zlen hd + zlen m) :: m)) as ->.
  { unfold pystr_add in E. cbn [is_uni chars] in E. destruct uni.
    - destruct (is_ascii [zlen hd + zlen m]); [|discriminate]. cbn [bind chars app] in E. congruence.
    - cbn [bind chars app] in E. congruence. }
  change (encode_str ((zlen hd + zlen m) :: m)) with (hex02 (zlen hd + zlen m) ++ encode_str m).
  rewrite py_upper_app, E1. f_equal.
  rewrite <- upper_hex_of by (foralls; exact O). f_equal. rewrite <- encode_str_hex by (foralls; exact O).
  unfold encode_str. cbn [map concat]. now rewrite app_nil_r.
Qed.

(** The text in each PDU. *)
Lemma ud_written coding text s ms s' :
  Forall (fun i => 0 <= i < 255) (s_id_list s) ->
  (coding = 4 -> Forall (fun c => 0 <= c) (chars text)) ->
  message_ud coding text s = (Ok ms, s') ->
  (exists m, ms = [m] /\ data_written (chars text) coding (py_upper m)) \/
  (exists ref l parts, drawn s ref l /\ cut_into (chars text) coding parts /\ 2 <= zlen parts /\
     length ms = length parts /\
     forall k part m, nth_error parts k = Some part -> nth_error ms k = Some m ->
       part_user_data ref (zlen parts) (1 + Z.of_nat k) part coding (py_upper m)).
Proof.
  intros Hid H4 E. pose proof (message_ud_coding _ _ _ _ _ E) as Hc.
  destruct (Z.eq_dec coding 4) as [->|Hn4].
  - unfold message_ud in E. cbn [Z.eqb Pos.eqb] in E. unfold EIGHTBIT_SIZE in E. specialize (H4 eq_refl).
    destruct text as [uni t]. cbn [chars] in *.
    destruct (zlen t <=? 140) eqn:EL.
    + left. unfold st_bind, st_lift, st_ret in E.
      destruct (pack_8bits_to_8bit (PyStr uni t) None) as [m|e] eqn:P; [|discriminate].
      injection E as <- <-. exists m. split; [reflexivity|].
      destruct (wide_8bit_data t uni [] m H4 ltac:(lia) (or_introl eq_refl) P) as (hs & F & U).
      rewrite U. apply data_8bit; [unfold zlen in EL; lia|exact F].
    + right. destruct (split_sms_message_eq 4 (PyStr uni t) s Hid)
        as (ref & l & parts & Hd & Href & Hl & Esp & Ec & Hlen & Es).
      cbn [chars is_uni] in *. change (part_capacity 4) with 134 in *. rewrite Es in E.
      injection E as E _. cbn [Z.eqb Pos.eqb] in E. cbv zeta in E.
      assert (H2 : 2 <= zlen parts) by (apply (two_parts parts 134); [lia|assumption|rewrite Ec; lia]).
      destruct (parts_loop_inv _ _ _ _ E) as [L Q]. rewrite map_length in L.
      assert (Hne : t <> []) by (intros ->; unfold zlen in EL; cbn in EL; lia).
      destruct (split_beyond t 134 parts 255 ltac:(lia) Hne Esp) as (C & _).
      exists ref, l, parts. split; [exact Hd|]. split.
      { apply cut_8bit; [unfold zlen in EL; lia|exact C]. }
      split; [exact H2|]. split; [exact L|]. intros k part m Hk Hm.
      destruct (Q k (PyStr uni part)) as (p' & Hp' & F); [now rewrite nth_error_map, Hk|].
      assert (p' = m) as -> by congruence.
      assert (In part parts) as Hin by (eapply nth_error_In; eassumption).
      assert (kl : (k < length parts)%nat) by (apply nth_error_Some; congruence).
      unfold part_wide in F.
      replace (py_unichr (Z.lor (Z.shiftl 5 8) 0)) with (Ok 1280 : res Z) in F by (vm_compute; reflexivity).
      cbn [bind] in F. rewrite second_unichr in F by exact Href. cbn [bind] in F.
      destruct (py_unichr (Z.lor (Z.shiftl (zlen parts) 8) (1 + Z.of_nat k))) as [c|e]; [|discriminate].
      cbn [bind] in F. rewrite Forall_forall in Hlen. specialize (Hlen part Hin).
      assert (G : Forall (fun c => 0 <= c) part).
      { rewrite <- Ec in H4. rewrite Forall_forall in *. intros x Hx. apply H4. apply in_concat. eauto. }
      destruct (wide_8bit_data part uni [1280; 768 + ref; c] m G ltac:(lia)
        (or_intror (conj eq_refl (proj2 Hlen))) F) as (hs & F2 & U).
      rewrite U. change (zlen [1280; 768 + ref; c]) with 3. apply pd_8bit. exact F2.
  - destruct Hc as [->|[->| ->]]; [|contradiction|].
    + unfold message_ud in E. cbn [Z.eqb] in E. unfold st_bind at 1, st_lift in E.
      destruct (gsm_encode text) as [g|e] eqn:Eg; [|discriminate].
      pose proof Eg as Eg'. apply gsm_encode_text in Eg' as [_ Hg].
      destruct (zlen g <=? 160) eqn:EL.
      * left. destruct (message_gsm_single text g s Eg ltac:(lia)) as (ud & P & O & E2).
        unfold message_ud in E2. cbn [Z.eqb] in E2. unfold st_bind at 1, st_lift in E2.
        rewrite Eg in E2. rewrite E in E2.
        assert (ms = [hex_of (zlen g :: ud)]) as -> by congruence.
        exists (hex_of (zlen g :: ud)). split; [reflexivity|]. rewrite upper_hex by exact O.
        apply data_gsm; [exact Hg|unfold zlen in EL; lia|exact P].
      * right. unfold st_bind, st_upd, SEVENBIT_SIZE in E. rewrite EL in E.
        destruct (split_sms_message_inv 0 (PyStr false g) (with_text_gsm (Some g) s) ms s') as
          (ref & parts & l & os & Es & Em & Esp & H2 & Ec & Hs & He & Hd & Ho & Hl).
        -- auto. -- exact Hid. -- intros _. eapply septets_of_text; eassumption. -- discriminate.
        -- cbn. lia. -- exact E.
        -- cbn [chars] in *. change (part_capacity 0) with 153 in *.
           assert (Hne : g <> []) by (intros ->; unfold zlen in EL; cbn in EL; lia).
           destruct (split_beyond g 153 parts 255 ltac:(lia) Hne Esp) as (C & _).
           exists ref, l, parts. split; [exact Hd|]. split.
           { eapply cut_gsm; [exact Hg|unfold zlen in EL; lia|exact C]. }
           split; [exact H2|]. destruct He as [L Q]. subst ms. rewrite map_length. split; [exact L|].
           intros k part m Hk Hm. rewrite nth_error_map in Hm.
           destruct (nth_error os k) as [o|] eqn:Hko; [|discriminate]. cbn in Hm. injection Hm as <-.
           destruct (Q k part o Hk Hko) as (udl & ud & -> & Foct & U & _).
           rewrite upper_hex by exact Foct. inversion U; subst. apply pd_gsm. assumption.
    + unfold message_ud in E. cbn [Z.eqb Pos.eqb] in E. unfold UCS2_SIZE in E.
      destruct (zlen (chars text) <=? 70) eqn:EL.
      * left. pose proof (message_ucs2_single text s ltac:(lia)) as E2.
        unfold message_ud in E2. cbn [Z.eqb Pos.eqb] in E2. unfold UCS2_SIZE in E2.
        rewrite EL, E in E2.
        destruct (forallb (fun u => (0 <=? u) && (u <? 65536)) (chars text)) eqn:F; [|discriminate].
        assert (Forall unit16 (chars text)) as Hu.
        { apply Forall_forall. intros u Hin. rewrite forallb_forall in F.
          specialize (F u Hin). unfold unit16. lia. }
        assert (ms = [hex_of (2 * zlen (chars text) :: be16 (chars text))]) as -> by congruence.
        eexists. split; [reflexivity|]. rewrite upper_hex.
        -- apply data_ucs2; [unfold zlen in EL; lia|exact Hu].
        -- constructor; [pose proof (zlen_nonneg (chars text)); unfold octet; lia|now apply be16_octets].
      * right. destruct (split_sms_message_inv 8 text s ms s') as
          (ref & parts & l & os & Es & Em & Esp & H2 & Ec & Hs & He & Hd & Ho & Hl).
        -- auto. -- exact Hid. -- discriminate. -- discriminate.
        -- cbn. lia. -- exact E.
        -- change (part_capacity 8) with 67 in *.
           assert (Hne : chars text <> []) by (intros X; rewrite X in EL; unfold zlen in EL; cbn in EL; lia).
           destruct (split_beyond (chars text) 67 parts 255 ltac:(lia) Hne Esp) as (C & _).
           exists ref, l, parts. split; [exact Hd|]. split.
           { apply cut_ucs2; [unfold zlen in EL; lia|exact C]. }
           split; [exact H2|]. destruct He as [L Q]. subst ms. rewrite map_length. split; [exact L|].
           intros k part m Hk Hm. rewrite nth_error_map in Hm.
           destruct (nth_error os k) as [o|] eqn:Hko; [|discriminate]. cbn in Hm. injection Hm as <-.
           destruct (Q k part o Hk Hko) as (udl & ud & -> & Foct & U & _).
           rewrite upper_hex by exact Foct. inversion U; subst.
           apply pd_ucs2. assumption.
Qed.

(** * The PDUs *)

Lemma number_pdus_nth pre ls cnt : forall ms seq k m, nth_error ms k = Some m ->
  nth_error (number_pdus pre ls cnt seq ms) k = Some (mk_pdu (pre ++ m) ls cnt (seq + Z.of_nat k)).
Proof.
  induction ms as [|x ms IH]; intros seq k m H; [destruct k; discriminate|].
  destruct k as [|k]; cbn [nth_error number_pdus] in *.
  - injection H as ->. now rewrite Z.add_0_r.
  - rewrite (IH (seq + 1) k m H). do 2 f_equal. lia.
Qed.
Lemma number_pdus_length pre ls cnt : forall ms seq, length (number_pdus pre ls cnt seq ms) = length ms.
Proof. induction ms as [|x ms IH]; intros seq; cbn; [reflexivity|]. now rewrite IH. Qed.

Lemma pdu_is centre front m cnt seq ls : Forall octet (centre ++ front) -> ls = zlen centre ->
  mk_pdu (hex_of (centre ++ front) ++ m) ls cnt seq = pdu_with centre front (py_upper m) cnt seq.
Proof.
  intros F ->. unfold mk_pdu, pdu_with. rewrite py_upper_app, upper_hex by exact F. f_equal.
  rewrite <- upper_hex by exact F. rewrite <- py_upper_app. unfold py_upper. rewrite map_length. reflexivity.
Qed.

Lemma to_pdu_written s pdus s' : wf_submit s -> python_date (s_validity s) ->
  (sent_in s 4 -> Forall (fun c => 0 <= c) (chars (s_text s))) ->
  to_pdu s = (Ok pdus, s') -> pdus_written s pdus.
Proof.
  intros Hwf Hv H4 E. pose proof Hwf as (Hnum & Hcs & Hk & Hid).
  destruct (tpmessref_ok s Hid) as (mr & l & Er & Hmr & Hl & Hd).
  pose proof (reference_drawn s mr l Hd) as Emr.
  unfold to_pdu in E. unfold st_bind, st_get, st_lift in E.
  (* the centre *)
  assert (C : exists centre, get_smsc_pdu s = Ok (hex_of centre) /\ centre_written (s_csca s) centre /\
              Forall octet centre).
  { unfold settable in Hcs. unfold get_smsc_pdu at 1. destruct (s_csca s) as [[|c n]|] eqn:Ec.
    - exists [0]. split; [reflexivity|]. split; [apply cw_none; auto|repeat constructor; unfold octet; lia].
    - destruct Hcs as (intl & ds & Hn).
      destruct (smsc_pdu_spec s intl ds _ Ec Hn) as (os & S & G).
      exists (1 + zlen os :: address_type intl :: os). unfold get_smsc_pdu in G. rewrite Ec in G.
      split; [exact G|]. split; [eapply cw_number; eauto|].
      pose proof (semi_octets_length _ _ S) as Hos. unfold zlen in Hos at 2. rewrite map_length in Hos.
      destruct Hn as (_ & Hl' & _).
      constructor; [unfold octet; lia|]. constructor; [unfold octet, address_type; destruct intl; lia|].
      eapply semi_octets_octet; eassumption.
    - exists [0]. split; [reflexivity|]. split; [apply cw_none; auto|repeat constructor; unfold octet; lia]. }
  destruct C as (centre & Ec & Wc & Fc). rewrite Ec, !submit_octet, Er in E.
  destruct (get_phone_pdu s) as [ph|e] eqn:Eph; [|discriminate].
  assert (D : exists dest, ph = hex_of dest /\ destination_written (s_number s) dest /\ Forall octet dest).
  { unfold settable in Hnum. destruct (s_number s) as [[|c n]|] eqn:En.
    - unfold get_phone_pdu in Eph. rewrite En in Eph. discriminate.
    - destruct Hnum as (intl & ds & Hn).
      destruct (phone_pdu_spec s intl ds _ En Hn) as (os & S & G). rewrite Eph in G.
      exists (zlen ds :: address_type intl :: os). split; [congruence|]. split; [eapply dw_number; eauto|].
      destruct Hn as (_ & Hl' & _).
      constructor; [unfold octet, zlen; lia|]. constructor; [unfold octet, address_type; destruct intl; lia|].
      eapply semi_octets_octet; eassumption.
    - unfold get_phone_pdu in Eph. rewrite En in Eph. discriminate. }
  destruct D as (dest & -> & Wd & Fd).
  unfold get_tppid_pdu in E.
  destruct (py_chr (s_pid s)) as [pidc|e] eqn:Epid; cbn [bind] in E; [|discriminate].
  apply py_chr_Ok in Epid as [-> Hpid].
  rewrite get_msg_pdu_eq in E. rewrite coding_ref_state in E. cbn [s_klass s_validity s_text with_ref with_id_list] in E.
  destruct (py_chr (dcs_of (coding_of s) (s_klass s))) as [c|e] eqn:Edc; [|discriminate].
  apply py_chr_Ok in Edc as [-> Hdc].
  destruct (get_msgvp_pdu (s_validity s)) as [vpx|e] eqn:Evp; [|discriminate].
  destruct (validity_pdu _ _ Hv Evp) as (vp & -> & Fv & Wv).
  fold (ref_state s mr l) in E.
  destruct (message_ud (coding_of s) (s_text s) (ref_state s mr l)) as [[ms|e] s1] eqn:Em; [|discriminate].
  pose proof (message_ud_coding _ _ _ _ _ Em) as Hcoding.
  destruct (dcs_of_octet (coding_of s) (s_klass s) Hcoding Hk) as [Edcs Hdcs].
  rewrite Edcs in *.
  assert (S : sent_in s (coding_of s)) by (apply sent_in_coding; reflexivity).
  set (front := fun several => [first_written s several; reference_written s] ++ dest ++
       [s_pid s; dcs_octet (coding_of s) (s_klass s)] ++ vp).
  assert (W : forall several, front_written s several (coding_of s) centre (front several)).
  { intros several. apply front_is; assumption. }
  assert (FO : forall several, first_octet (vpf_of (s_validity s)) (s_request_status s) several = first_written s several).
  { intros several. unfold first_octet, first_written.
    destruct (s_validity s), (s_request_status s), several; reflexivity. }
  assert (F : forall several, Forall octet (centre ++ front several)).
  { intros several. apply Forall_app. split; [exact Fc|]. unfold front.
    apply Forall_app. split; [|apply Forall_app; split; [exact Fd|apply Forall_app; split; [|exact Fv]]].
    - foralls; [|now rewrite <- Emr]. rewrite <- FO.
      apply (first_octet_fields _ _ _ (vpf_cases (s_validity s))).
    - foralls; assumption. }
  assert (P : forall several m,
    hex_of centre ++ hex_of [first_octet (vpf_of (s_validity s)) (s_request_status s) several] ++ hex_of [mr] ++
    hex_of dest ++ encode_str [s_pid s] ++ (encode_str [dcs_octet (coding_of s) (s_klass s)] ++ hex_of vp ++ m) =
    hex_of (centre ++ front several) ++ m).
  { intros several m. rewrite FO, Emr. rewrite !encode_str_hex by (foralls; assumption). unfold front.
    rewrite !hex_of_app, <- !app_assoc.
    change (hex_of [first_written s several; reference_written s])
      with (hex_of [first_written s several] ++ hex_of [reference_written s]).
    change (hex_of [s_pid s; dcs_octet (coding_of s) (s_klass s)])
      with (hex_of [s_pid s] ++ hex_of [dcs_octet (coding_of s) (s_klass s)]).
    rewrite <- !app_assoc. reflexivity. }
  assert (LS : zlen (hex_of centre) / 2 = zlen centre) by (rewrite hex_of_length; lia).
  destruct (ud_written (coding_of s) (s_text s) (ref_state s mr l) ms s1) as
    [(m & -> & Wu)|(ref & l' & parts & Hdr & Hcut & H2 & Hlen & Hpd)].
  - exact Hl.
  - intros X. apply H4. rewrite <- X. exact S.
  - exact Em.
  - cbn [map] in E. unfold st_ret in E.
    match type of E with (Ok ?x, _) = _ => assert (pdus = x) as -> by congruence end. rewrite P, LS.
    rewrite (pdu_is centre (front false) m 1 1 _ (F false) eq_refl).
    apply (pdus_one s (coding_of s)); auto.
  - assert (Eref : ref = part_reference s).
    { eapply (part_reference_drawn s (ref_state s mr l) mr l ref l'); [exact Hd|reflexivity|reflexivity|exact Hdr]. }
    set (ps := map _ ms) in E.
    assert (Lps : length ps = length parts) by (unfold ps; rewrite map_length; exact Hlen).
    assert (Epd : pdus = number_pdus (hex_of centre ++
        hex_of [first_octet (vpf_of (s_validity s)) (s_request_status s) true] ++
        hex_of [mr] ++ hex_of dest ++ encode_str [s_pid s]) (zlen (hex_of centre) / 2) (zlen ps) 1 ps).
    { destruct ps as [|p1 [|p2 ps']]; [unfold zlen in H2; cbn in Lps; lia|unfold zlen in H2; cbn in Lps; lia|].
      injection E as <- _. reflexivity. }
    apply (pdus_several s (coding_of s) centre (front true) parts); auto.
    + rewrite Epd, number_pdus_length. exact Lps.
    + intros k part p Hk1 Hk2.
      assert (kl : (k < length ms)%nat) by (rewrite Hlen; apply nth_error_Some; congruence).
      destruct (nth_error ms k) as [m|] eqn:Hm; [|apply nth_error_None in Hm; lia].
      exists (py_upper m). rewrite <- Eref. split; [apply (Hpd k part m Hk1 Hm)|].
      rewrite Epd in Hk2. erewrite number_pdus_nth in Hk2; [|unfold ps; rewrite nth_error_map, Hm; reflexivity].
      match type of Hk2 with Some ?x = _ => assert (p = x) as -> by congruence end.
      assert (PP : (hex_of centre ++ hex_of [first_octet (vpf_of (s_validity s)) (s_request_status s) true] ++
        hex_of [mr] ++ hex_of dest ++ encode_str [s_pid s]) ++
        (encode_str [dcs_octet (coding_of s) (s_klass s)] ++ hex_of vp ++ m) = hex_of (centre ++ front true) ++ m).
      { rewrite <- (P true m), <- !(app_assoc (hex_of centre)), <- !app_assoc. reflexivity. }
      rewrite PP, LS.
      rewrite (pdu_is centre (front true) m _ _ _ (F true) eq_refl). unfold zlen. rewrite Lps. reflexivity.
Qed.
