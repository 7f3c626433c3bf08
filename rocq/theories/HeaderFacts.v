(** Facts about single MMS headers. *)
From Coq Require Import Lia ZifyBool ZifyNat.
From Verif Require Import Py Iter Tables WspDec WspEnc Message MmsEnc MmsDec
  SpecWsp SpecVersion WspClaims MmsClaims PyFacts IterFacts WspFacts ContentFacts PropVersion.
Open Scope Z_scope.
Ltac Zify.zify_post_hook ::= Z.div_mod_to_equations.

(** [bytes] is what encoding the header gives, and decoding gives it back. *)
Definition header_run (name : list Z) (v : hval) (bytes : list Z) : Prop :=
  mms_encode_header name v = Ok (ints bytes) /\ Forall is_octet bytes /\
  bytes <> [] /\
  forall rest, wp decode_header (bytes ++ rest) 0 (becomes (name, v) rest).

Lemma runtime_run : forall A (m : ST piter A) l p v rest,
  wp m l p (becomes v rest) -> wp (as_runtime_error m) l p (becomes v rest).
Proof.
  intros A m l p v rest H. eapply wp_then with (m := m)
    (j := fun r => match r with
                   | Ok a => st_ret a
                   | Err DecodeError => st_err DecodeError
                   | Err OutOfFuel => st_err OutOfFuel
                   | Err _ => st_err RuntimeError
                   end).
  - intros it. unfold as_runtime_error. destruct (m it) as [[a|e] it']; [reflexivity|].
    destruct e; reflexivity.
  - eapply wp_mono; [exact H|]. intros r l' p' (-> & -> & ->). wsteps. apply becomes_intro.
Qed.

(** A header of the MMS table. *)
Lemma mms_header_run : forall n name t v vb rest,
  0 <= n < 128 -> d_get Z.eqb n mms_field_names = Some (name, t) ->
  wp (decode_mms_value t) (vb ++ rest) 0 (becomes v rest) ->
  wp decode_header ((128 + n) :: vb ++ rest) 0 (becomes (name, v) rest).
Proof.
  intros n name t v vb rest Hn E H. unfold decode_header. apply wp_becomes_catch.
  unfold decode_mms_header. wsteps. unfold decode_short_integer_from_byte.
  rewrite land_128 by lia. replace (128 + n <? 128) with false by lia.
  rewrite land_127. replace ((128 + n) mod 128) with n by lia. rewrite E.
  wsteps. eapply wp_mono; [apply runtime_run; exact H|].
  intros r l' p' (-> & -> & ->). wsteps. apply becomes_intro.
Qed.

Lemma header_run_mms : forall n name t v vb,
  0 <= n < 128 -> find_field name = Some (n, (name, t)) ->
  d_get Z.eqb n mms_field_names = Some (name, t) ->
  encode_mms_value t v = Ok (ints vb) -> Forall is_octet vb ->
  (forall rest, wp (decode_mms_value t) (vb ++ rest) 0 (becomes v rest)) ->
  header_run name v ((128 + n) :: vb).
Proof.
  intros n name t v vb Hn F D E Ho Hw. split; [|split; [|split]].
  - unfold mms_encode_header. rewrite F, encode_short_integer_ok by lia. cbn [bind].
    rewrite E. reflexivity.
  - constructor; [unfold is_octet; lia|exact Ho].
  - discriminate.
  - intros rest. cbn [app]. eapply mms_header_run; eauto.
Qed.

Lemma wp_map_becomes : forall A B (m : ST piter A) (g : A -> B) l p v rest,
  wp m l p (becomes v rest) -> wp (st_bind m (fun a => st_ret (g a))) l p (becomes (g v) rest).
Proof.
  intros A B m g l p v rest H. eapply wp_seq; [exact H|]. wsteps. apply becomes_intro.
Qed.

Lemma no_nul_octets : forall s, no_nul s -> Forall is_octet (encode_text_string s).
Proof.
  intros s H. unfold encode_text_string. apply Forall_app. split.
  - eapply Forall_impl; [|exact H]. unfold is_octet. cbn. lia.
  - constructor; [unfold is_octet; lia|constructor].
Qed.

Lemma plain_string_text : forall s, plain_string s -> plain_text s.
Proof.
  intros s [H1 H2]. split; auto. destruct s as [|c s]; cbn in *; [tauto|]. lia.
Qed.

Lemma encoded_string_run : forall s rest, plain_string s ->
  wp decode_encoded_string_value (encode_text_string s ++ rest) 0 (becomes s rest).
Proof.
  intros s rest H. pose proof (plain_string_text s H) as [Ht1 Ht2].
  unfold decode_encoded_string_value.
  destruct s as [|c s]; [destruct H as [_ []]|].
  destruct H as [H1 H2]. cbn in H2.
  apply wp_refused_catch.
  - unfold encode_text_string. cbn [app]. apply wp_bind.
    eapply wp_mono; [apply decode_value_length_refuses; lia|].
    intros r l p (-> & -> & ->). repeat split.
  - apply decode_text_string_run; auto.
Qed.

Lemma value_length_octets : forall n, 0 <= n -> Forall is_octet (encode_value_length n).
Proof.
  intros n Hn. unfold encode_value_length, encode_short_length.
  destruct ((n <? 0) || (30 <? n)) eqn:E.
  - constructor; [unfold is_octet; lia|].
    destruct (encode_uint_var_spec n Hn) as (ds & d & -> & Hds & Hd & _).
    unfold uintvar_octets, digit128 in *. apply Forall_app. split.
    + apply Forall_map. eapply Forall_impl; [|exact Hds]. unfold is_octet; cbv beta; lia.
    + constructor; [unfold is_octet; lia|constructor].
  - constructor; [unfold is_octet; lia|constructor].
Qed.

Lemma find_field_none : forall name,
  ~ In name (map (fun p => fst (snd p)) mms_field_names) -> find_field name = None.
Proof.
  intros name H. unfold find_field. induction mms_field_names as [|[n [s t]] d IH]; [reflexivity|].
  cbn [find fst snd]. destruct (leqb s name) eqn:E.
  - apply leqb_eq in E. destruct H. left. exact E.
  - apply IH. intros X. apply H. right. exact X.
Qed.

(** The look-ahead is at the second byte when this decoder runs. *)
Lemma short_integer_second : forall c c' l, 0 <= c' < 128 ->
  wp decode_short_integer (c :: c' :: l) 1 (refuses (c :: c' :: l)).
Proof.
  intros c c' l H. unfold decode_short_integer. wsteps.
  rewrite land_128 by lia. replace (c' <? 128) with true by lia. wsteps. repeat split.
Qed.

(** A header with any other name. *)
Lemma other_header_run : forall name s rest, token_name name s -> plain_text s ->
  wp decode_header (encode_text_string name ++ encode_text_string s ++ rest) 0
     (becomes (name, HStr s) rest).
Proof.
  intros name s rest (Hn & Hk & Ha) [Hs1 Hs2].
  assert (Hn0 : no_nul name) by (eapply Forall_impl; [|exact Hn]; cbv beta; tauto).
  destruct (encode_text_string name ++ encode_text_string s ++ rest) as [|c [|c' l]] eqn:E.
  { exfalso. destruct name; discriminate E. }
  { exfalso. apply (f_equal (@length Z)) in E. unfold encode_text_string in E.
    rewrite !app_length in E. cbn in E. lia. }
  assert (X : 0 <= c < 128 /\ 0 <= c' < 128).
  { assert (Eo : firstn 2 (name ++ [0] ++ s ++ [0]) = [c; c']).
    { transitivity (firstn 2 ((name ++ [0] ++ s ++ [0]) ++ rest)).
      - rewrite (firstn_app 2 (name ++ [0] ++ s ++ [0]) rest). replace (2 - length (name ++ [0%Z] ++ s ++ [0%Z]))%nat with 0%nat.
        + change (firstn 0 rest) with (@nil Z). now rewrite app_nil_r.
        + rewrite !app_length. change (length [0]) with 1%nat. lia.
      - unfold encode_text_string in E. rewrite <- !app_assoc in *. rewrite E. reflexivity. }
    assert (Hp : Forall (fun c => 0 <= c) (name ++ [0] ++ s ++ [0])).
    { rewrite !Forall_app. repeat split; try (constructor; [lia|constructor]);
        (eapply Forall_impl; [|first [exact Hn0|exact Hs1]]; cbv beta; lia). }
    rewrite <- (firstn_skipn 2) in Hp. apply Forall_app in Hp. destruct Hp as [Hp _].
    rewrite Eo in *. pose proof (Forall_inv Hp). pose proof (Forall_inv (Forall_inv_tail Hp)).
    pose proof (Forall_inv Ha). pose proof (Forall_inv (Forall_inv_tail Ha)). cbv beta in *. lia. }
  destruct X as (Hc & Hc').
  unfold decode_header. apply wp_catch. unfold decode_mms_header.
  wsteps. unfold decode_short_integer_from_byte.
  rewrite land_128 by lia. replace (c <? 128) with true by lia. cbn [exn_eqb].
  unfold wsp_decode_header. apply wp_refused_catch.
  - unfold decode_well_known_header. apply wp_bind.
    eapply wp_mono; [apply short_integer_second; lia|].
    intros r l' p' (-> & -> & ->). repeat split.
  - unfold decode_application_header. rewrite <- E.
    eapply wp_seq with (v := name) (rest := encode_text_string s ++ rest).
    + assert (T : forall c0, starts_with (fun c => c < 32) (c0 :: tl (name ++ [0])) ->
                name ++ [0] = c0 :: tl (name ++ [0]) ->
                wp (st_catch decode_token_text DecodeError decode_text_string)
                   (encode_text_string name ++ encode_text_string s ++ rest) 0
                   (becomes name (encode_text_string s ++ rest))).
      { intros c0 H0 E0. cbn [starts_with] in H0. apply wp_refused_catch.
        - change (encode_text_string name) with (name ++ [0]). rewrite E0. cbn [app]. unfold decode_token_text. wsteps.
          assert (Ec : token_char c0 = false) by (unfold token_char; replace (c0 <=? 31) with true by lia; reflexivity).
          rewrite Ec. cbn [negb]. wsteps. repeat split.
        - apply decode_text_string_run; [exact Hn0|]. destruct name as [|d name]; [intros []|].
          apply (f_equal (hd 0)) in E0. cbn [hd app tl] in E0. cbn [starts_with]. lia. }
      destruct name as [|d name]; [apply (T 0); [cbn; lia|reflexivity]|].
      destruct (Z.ltb_spec d 32) as [L|L]; [apply (T d); [cbn; lia|reflexivity]|].
      destruct Hk as [Hk|Hk]; [|cbn [starts_with] in Hk; lia].
      apply wp_becomes_catch. apply decode_token_text_run; [discriminate|].
      apply Forall_forall. intros x Hx. rewrite Forall_forall in Hn, Hk.
      specialize (Hn x Hx). specialize (Hk x Hx). apply token_char_iff. split; [lia|tauto].
    + eapply wp_seq; [apply decode_text_string_run; auto|]. wsteps. apply becomes_intro.
Qed.

Lemma application_other name s : application_name name -> plain_text s -> other_name name s.
Proof.
  intros ((Hne & Ht) & Ha & Hm) [Hs _]. split; [|split; [|split]].
  - exact Hm.
  - eapply Forall_impl; [|exact Ht]. cbv beta. intros c [X Y]. split; [lia|exact Y].
  - left. eapply Forall_impl; [|exact Ht]. cbv beta. lia.
  - destruct name as [|c [|c' name]]; [congruence| |].
    + cbn [app firstn]. constructor; [exact (Forall_inv Ha)|]. constructor; [lia|constructor].
    + exact Ha.
Qed.

Lemma sup_application : forall name s, application_name name -> plain_text s ->
  supported name (HStr s).
Proof. intros name s H1 H2. apply sup_other; [apply application_other; auto|exact H2]. Qed.

Lemma no_separator : forall s, Forall (fun c => ~ In c separator_chars) s ->
  existsb is_separator s = false.
Proof.
  intros s H. apply Bool.not_true_iff_false. rewrite existsb_exists.
  intros (c & Hc & E). rewrite Forall_forall in H. apply (H c Hc).
  unfold is_separator in E. apply existsb_exists in E. destruct E as (x & Hx & Ex).
  replace c with x by lia. exact Hx.
Qed.

Lemma plain_version_nul s : plain_version s -> no_nul s.
Proof.
  intros (M & m & HM & [(Hm & ->)|(Hm & ->)]); repeat constructor; lia.
Qed.

Lemma sup_numbers : forall M m, 1 <= M <= 7 -> 0 <= m <= 14 ->
  supported (str "MMS-Version") (HStr (py_dec M ++ str "." ++ py_dec m)).
Proof.
  intros M m HM Hm. apply sup_version. exists M.
  assert (EM : M = 1 \/ M = 2 \/ M = 3 \/ M = 4 \/ M = 5 \/ M = 6 \/ M = 7) by lia.
  assert (Em : m = 0 \/ m = 1 \/ m = 2 \/ m = 3 \/ m = 4 \/ m = 5 \/ m = 6 \/ m = 7 \/ m = 8 \/
            m = 9 \/ m = 10 \/ m = 11 \/ m = 12 \/ m = 13 \/ m = 14) by lia.
  exists (if m <? 10 then m else m - 10). split; [exact HM|].
  destruct (m <? 10) eqn:L; [left|right]; (split; [lia|]); clear HM Hm;
  repeat destruct EM as [->|EM]; try subst M; repeat destruct Em as [->|Em]; try subst m;
    try discriminate L; reflexivity.
Qed.

Lemma version_header_run s : Forall is_octet (encode_version_value s) ->
  Decodes decode_version_value (encode_version_value s) s ->
  exists bytes, header_run (str "MMS-Version") (HStr s) bytes.
Proof.
  intros Ho D. eexists. eapply header_run_mms with (n := 13) (t := MVersion)
      (vb := encode_version_value s); [lia|vm_compute; reflexivity|vm_compute; reflexivity| | |].
  - cbn [encode_mms_value encode_version_value_h encode_version_value_p HStr bind]. reflexivity.
  - exact Ho.
  - intros rest. cbn [decode_mms_value]. apply wp_map_becomes. apply wp_decodes. exact D.
Qed.

Lemma big_endian_at_least : forall ds n, Forall is_octet ds -> 0 <= n ->
  n * 256 ^ zlen ds <= fold_left (fun n b => n * 256 + b) ds n.
Proof.
  induction ds as [|d ds IH]; intros n H Hn; cbn [fold_left].
  - unfold zlen. cbn. lia.
  - pose proof (Forall_inv H) as Hd. unfold is_octet in Hd.
    specialize (IH (n * 256 + d) (Forall_inv_tail H) ltac:(lia)).
    replace (zlen (d :: ds)) with (Z.succ (zlen ds)) by (unfold zlen; cbn [length]; lia).
    rewrite Z.pow_succ_r by apply zlen_nonneg.
    pose proof (Z.pow_nonneg 256 (zlen ds) ltac:(lia)). nia.
Qed.

(** A Python int has at most eight octets. *)
Lemma octets_short : forall ds, Forall is_octet ds -> minimal128 ds -> big_endian ds <= maxint ->
  zlen ds <= 30.
Proof.
  intros [|d ds] H Hm Hx; [unfold zlen; cbn; lia|]. cbn [minimal128] in Hm.
  pose proof (Forall_inv H) as Hd. unfold is_octet in Hd.
  unfold big_endian in Hx. cbn [fold_left] in Hx.
  pose proof (big_endian_at_least ds (0 * 256 + d) (Forall_inv_tail H) ltac:(lia)) as B.
  replace (zlen (d :: ds)) with (Z.succ (zlen ds)) by (unfold zlen; cbn [length]; lia).
  destruct (Z.le_gt_cases (zlen ds) 29) as [L|L]; [lia|exfalso].
  pose proof (Z.pow_le_mono_r 256 30 (zlen ds) ltac:(lia) ltac:(lia)) as P.
  assert (maxint < 256 ^ 30) by (vm_compute; reflexivity). nia.
Qed.

Lemma token_octets : forall s, token_string s -> Forall is_octet (encode_text_string s).
Proof.
  intros s [_ H]. apply no_nul_octets. eapply Forall_impl; [|exact H]. cbn. lia.
Qed.

Lemma supported_run : forall name v, supported name v -> exists bytes, header_run name v bytes.
Proof.
  intros name v H. destruct H as [name s Hn Hs|s Hs|name s Hn Hs|s Hs|s Hv|s Hv1 Hv2 Hv3|s Hs|ds Ho Hm Hr Hx|name s Hn Hs].
  - assert (X : exists n, 0 <= n < 128 /\ find_field name = Some (n, (name, MEncodedString)) /\
               d_get Z.eqb n mms_field_names = Some (name, MEncodedString)).
    { cbn in Hn. destruct Hn as [<-|[<-|[<-|[<-|[<-|[]]]]]];
        [exists 23|exists 2|exists 1|exists 22|exists 19]; (split; [lia|]);
        split; vm_compute; reflexivity. }
    destruct X as (n & Hr & F & D). eexists.
    eapply header_run_mms with (vb := encode_text_string s);
      [exact Hr|exact F|exact D| | |].
    + cbn [encode_mms_value encode_encoded_string_value encode_text_string_h
           encode_text_string_p HStr bind]. reflexivity.
    + apply no_nul_octets. apply Hs.
    + intros rest. cbn [decode_mms_value]. apply wp_map_becomes, encoded_string_run. exact Hs.
  - eexists. eapply header_run_mms with (n := 9) (t := MFrom)
      (vb := encode_value_length (zlen (encode_text_string s) + 1) ++ [128]
             ++ encode_text_string s);
      [lia|vm_compute; reflexivity|vm_compute; reflexivity| | |].
    + cbn [encode_mms_value encode_from_value HStr].
      destruct s as [|c s]; [destruct Hs as [_ []]|]. cbn [bind]. reflexivity.
    + destruct s as [|c s]; [destruct Hs as [_ []]|]. cbv zeta.
      apply Forall_app. split.
      * apply value_length_octets. pose proof (zlen_nonneg (encode_text_string (c :: s))). lia.
      * constructor; [unfold is_octet; lia|]. apply no_nul_octets. apply Hs.
    + intros rest. cbn [decode_mms_value]. apply wp_map_becomes. unfold decode_from_value.
      rewrite <- !app_assoc. eapply wp_seq.
      * apply value_length_run. pose proof (zlen_nonneg (encode_text_string s)). lia.
      * cbn [app]. wsteps. cbn [Z.eqb Pos.eqb]. apply encoded_string_run. exact Hs.
  - assert (X : exists n, 0 <= n < 128 /\ find_field name = Some (n, (name, MTextString)) /\
               d_get Z.eqb n mms_field_names = Some (name, MTextString)).
    { cbn in Hn. destruct Hn as [<-|[<-|[]]]; [exists 11|exists 24]; (split; [lia|]);
        split; vm_compute; reflexivity. }
    destruct X as (n & Hr & F & D). eexists.
    eapply header_run_mms with (vb := encode_text_string s);
      [exact Hr|exact F|exact D| | |].
    + cbn [encode_mms_value encode_text_string_h encode_text_string_p HStr bind]. reflexivity.
    + apply no_nul_octets. apply Hs.
    + intros rest. cbn [decode_mms_value]. apply wp_map_becomes.
      apply decode_text_string_run; apply Hs.
  - assert (X : exists n, 128 <= n < 256 /\ encode_message_type_value (HStr s) = Ok [n] /\
               d_get Z.eqb n message_types_dec = Some s).
    { cbn in Hs. destruct Hs as [<-|[<-|[<-|[<-|[<-|[<-|[<-|[]]]]]]]];
        [exists 128|exists 129|exists 130|exists 131|exists 132|exists 133|exists 134];
        (split; [lia|]); split; vm_compute; reflexivity. }
    destruct X as (n & Hr & E & D). eexists.
    eapply header_run_mms with (n := 12) (t := MMessageType) (vb := [n]);
      [lia|vm_compute; reflexivity|vm_compute; reflexivity| | |].
    + cbn [encode_mms_value]. rewrite E. reflexivity.
    + constructor; [unfold is_octet; lia|constructor].
    + intros rest. cbn [decode_mms_value app]. apply wp_map_becomes.
      unfold decode_message_type_value. wsteps. rewrite D. wsteps. apply becomes_intro.
  - apply version_header_run.
    + destruct (plain_encoded s Hv) as (M & m & HM & Hm & -> & _).
      constructor; [unfold is_octet; lia|constructor].
    + apply C47_roundtrip_exact; [exact (plain_version_nul s Hv)|left; exact Hv].
  - apply version_header_run.
    + rewrite (proj2 (C47_exact s (s ++ [0])) (sent_text s Hv2)). apply (no_nul_octets s Hv1).
    + apply C47_roundtrip_exact; [exact Hv1|right; auto].
  - assert (X : exists n, 128 <= n < 256 /\ encode_status_value (HStr s) = Ok (ints [n]) /\
               d_get Z.eqb n status_values_dec = Some s).
    { cbn in Hs. destruct Hs as [<-|[<-|[<-|[<-|[<-|[]]]]]];
        [exists 128|exists 129|exists 130|exists 131|exists 132];
        (split; [lia|]); split; vm_compute; reflexivity. }
    destruct X as (n & Hr & E & D). eexists.
    eapply header_run_mms with (n := 21) (t := MStatus) (vb := [n]);
      [lia|vm_compute; reflexivity|vm_compute; reflexivity| | |].
    + cbn [encode_mms_value]. exact E.
    + constructor; [unfold is_octet; lia|constructor].
    + intros rest. cbn [decode_mms_value app].
      apply (wp_map_becomes _ _ decode_status_value HP _ _ (PStr s)).
      unfold decode_status_value. wsteps. rewrite D. apply becomes_intro.
  - assert (L : zlen ds <= 30) by (apply octets_short; auto).
    eexists. eapply header_run_mms with (n := 14) (t := MLong) (vb := zlen ds :: ds);
      [lia|vm_compute; reflexivity|vm_compute; reflexivity| | |].
    + cbn [encode_mms_value encode_long_integer_h HInt].
      rewrite encode_long_integer_spec by auto. rewrite Hr. reflexivity.
    + constructor; [unfold is_octet; pose proof (zlen_nonneg ds); lia|exact Ho].
    + intros rest. cbn [decode_mms_value]. apply wp_map_becomes. cbn [app].
      apply decode_long_integer_run; auto.
  - exists (encode_text_string name ++ encode_text_string s).
    pose proof Hn as (Hm & Ht & _). split; [|split; [|split]].
    + unfold mms_encode_header. rewrite find_field_none by exact Hm.
      rewrite encode_token_text_spec, no_separator by (eapply Forall_impl; [|exact Ht]; cbv beta; tauto).
      cbn [bind encode_text_string_h encode_text_string_p HStr]. unfold ints.
      rewrite (map_app EInt (encode_text_string name)). reflexivity.
    + apply Forall_app. split; apply no_nul_octets; [|apply Hs].
      eapply Forall_impl; [|exact Ht]. cbv beta. tauto.
    + unfold encode_text_string. destruct name; discriminate.
    + intros rest. rewrite <- app_assoc. apply other_header_run; [exact (proj2 Hn)|exact Hs].
Qed.

Lemma supported_roundtrip : forall name v, supported name v -> HeaderRoundTrip name v.
Proof.
  intros name v H. destruct (supported_run name v H) as (bytes & E & Ho & _ & Hw).
  exists (ints bytes), bytes. rewrite array_of_ints by exact Ho.
  repeat split; auto. apply decodes_wp. exact Hw.
Qed.
