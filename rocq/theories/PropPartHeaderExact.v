(** C56: exactly which headers of a part are read back. *)
From Coq Require Import Lia ZifyBool ZifyNat.
From Verif Require Import Py Iter Tables WspDec WspEnc Message MmsEnc MmsDec
  SpecWsp WspClaims MmsClaims PyFacts IterFacts WspFacts ContentFacts HeaderFacts
  MmsTotal CutFacts BodyFacts PropContent PropType PropHeaderExact.
Open Scope Z_scope.

(** A header read as a name and a text takes more than the text. *)
Lemma wsp_takes_text l p :
  wp wsp_decode_header l p (fun r l' _ => forall x, r = Ok x ->
    header_field_encoding (fst x) = OtherValue ->
    exists s, snd x = HStr s /\ (length s + 2 + length l' <= length l)%nat).
Proof.
  unfold wsp_decode_header. apply wp_catch.
  assert (W : wp decode_well_known_header l p (fun r l1 _ => (exists pre, l = pre ++ l1) /\
      forall x, r = Ok x -> header_field_encoding (fst x) = OtherValue ->
      exists s, snd x = HStr s /\ (length s + 2 + length l1 <= length l)%nat)).
  { unfold decode_well_known_header. apply wp_bind. eapply wp_mono; [apply safe_short_integer|].
    intros [n|e] l1 p1 (pre & -> & Hk); [|split; [eauto|discriminate]].
    apply wp_bind. replace (get_header_field_names (str "1.2")) with (Ok (firstn 56 header_field_names))
      by reflexivity. apply wp_lift.
    destruct (nth_error (firstn 56 header_field_names) (Z.to_nat n)) as [name|] eqn:En;
      [|wsteps; split; [eauto|discriminate]].
    apply wp_bind.
    assert (V2 : wp (match header_field_encoding name with
            | AcceptValue => s <~ decode_accept_value ;; st_ret (HStr s)
            | PragmaValue => '(p, v) <~ decode_pragma_value ;; st_ret (HPragma p v)
            | OtherValue => s <~ decode_text_string ;; st_ret (HStr s)
            end) l1 p1 (fun r l2 p2 => (exists q, l1 = q ++ l2) /\
              forall v, r = Ok v -> header_field_encoding name = OtherValue ->
              exists s, v = HStr s /\ (length s + 1 + length l2 <= length l1)%nat)).
    { destruct (header_field_encoding name).
      - apply wp_bind. eapply wp_mono; [apply safe_accept_value|].
        intros [a|e] l2 p2 (q & E & _); wsteps; split; eauto; discriminate.
      - apply wp_bind. eapply wp_mono; [apply safe_pragma_value|].
        intros [[a b]|e] l2 p2 (q & E & _); wsteps; split; eauto; discriminate.
      - apply wp_bind. eapply wp_mono; [apply wp_and; [apply safe_text_string|apply text_takes]|].
        intros [a|e] l2 p2 [(q & E & _) T]; wsteps; (split; [eauto|]); [|discriminate].
        intros v Ev _. exists a. destruct T as (_ & T & _). split; [congruence|exact T]. }
    eapply wp_mono; [exact V2|]. intros [v|e] l2 p2 [(q & ->) H]; wsteps.
    + split; [exists (pre ++ q); now rewrite app_assoc|]. intros x E He.
      assert (x = (name, v)) as -> by congruence. cbn [fst snd] in *.
      destruct (H v eq_refl He) as (s & -> & L). exists s. split; [reflexivity|].
      rewrite !app_length in *. lia.
    + split; [exists (pre ++ q); now rewrite app_assoc|discriminate]. }
  eapply wp_mono; [exact W|]. intros [x|e] l1 p1 [(pre & E) H].
  - intros y Ey He. assert (x = y) as <- by congruence. exact (H x eq_refl He).
  - destruct (exn_eqb DecodeError e); [|intros x X; discriminate].
    eapply wp_mono; [apply application_takes|]. intros [x|e2] l2 p2 X y Ey _; [|discriminate].
    assert (x = y) as <- by congruence. destruct X as (s & X1 & X2). exists s.
    split; [exact X1|]. rewrite E, app_length. lia.
Qed.

(** A value that is written as a text is one, or no text at all. *)
Lemma text_sent v ts : encode_text_string_h v = Ok ts ->
  exists s, ts = encode_text_string s /\ (v = HStr s \/ forall x, v <> HStr x).
Proof.
  intros E. destruct v as [[s| | |]| | | |p q]; try discriminate E.
  - exists s. split; [cbn in E; congruence|left; reflexivity].
  - destruct p as [|c [|? ?]]; try discriminate E. destruct q as [[|d [|? ?]]| | |]; try discriminate E.
    exists [c; d]. split; [cbn in E |- *; congruence|right; intros x X; discriminate X].
Qed.

(** A header under a number of the MMS table is read as another one. *)
Lemma table_lost n tn t name s v : 0 <= n < 128 -> d_get Z.eqb n mms_field_names = Some (tn, t) ->
  tn <> name -> header_field_encoding name = OtherValue -> (forall x, v = HStr x -> x = s) ->
  ~ Decodes decode_header ((128 + n) :: s ++ [0]) (name, v).
Proof.
  intros Hn Ed Ht He Hv D.
  assert (W : wp decode_header ((128 + n) :: s ++ [0]) 0 (fun r l' _ => forall x, r = Ok x ->
             fst x = tn \/ (header_field_encoding (fst x) = OtherValue ->
             exists s', snd x = HStr s' /\ (length s' + 2 <= length (s ++ [0%Z]))%nat))).
  { unfold decode_header. apply wp_catch. unfold decode_mms_header. apply wp_bind, wp_preview.
    cbn [nth_error]. apply wp_bind, wp_lift. unfold decode_short_integer_from_byte.
    rewrite land_128 by lia. replace (128 + n <? 128) with false by lia.
    rewrite land_127. replace ((128 + n) mod 128) with n by
      (rewrite Z.add_comm, <- (Z.mul_1_l 128), Z.mod_add, Z.mod_small by lia; reflexivity).
    rewrite Ed. wsteps.
    assert (S : wp (as_runtime_error (decode_mms_value t)) (s ++ [0]) 0
            (fun r l1 p1 => exists pre, s ++ [0] = pre ++ l1)).
    { eapply wp_then with (m := decode_mms_value t)
        (j := fun r => match r with
               | Ok a => st_ret a
               | Err DecodeError => st_err DecodeError
               | Err OutOfFuel => st_err OutOfFuel
               | Err _ => st_err RuntimeError
               end).
      - intros it. unfold as_runtime_error. destruct (decode_mms_value t it) as [[a|e] it']; [reflexivity|].
        destruct e; reflexivity.
      - eapply wp_mono; [apply safe_mms_value|]. intros [a|e] l1 p1 (pre & E & _);
          [|destruct e]; wsteps; eauto. }
    eapply wp_mono; [exact S|]. intros [v0|e] l1 p1 (pre & E); wsteps.
    - intros x Ex. left. assert (x = (tn, v0)) as -> by congruence. reflexivity.
    - destruct e; try (intros x X; discriminate).
      eapply wp_mono; [apply wsp_takes_text|]. intros r l2 p2 H x Ex. right. intros Hx.
      destruct (H x Ex Hx) as (s' & V1 & V2). exists s'. split; [exact V1|].
      rewrite E, app_length. lia. }
  destruct (decodes_all _ _ _ _ _ D W) as (p & H).
  destruct (H _ eq_refl) as [K|K]; cbn [fst snd] in K; [congruence|].
  destruct (K He) as (s' & K1 & K2). assert (s' = s) as -> by exact (Hv s' K1).
  rewrite app_length in K2. cbn [length] in K2. lia.
Qed.

(** * Media types *)

(** What the media type of an Accept header takes. *)
Lemma content_type_at_takes n l p : wp (content_type_at n) l p (fun r l' _ =>
  l' = l /\ forall m, r = Ok m -> In m well_known_content_types).
Proof.
  unfold content_type_at. destruct (n <? zlen well_known_content_types) eqn:E; wsteps.
  - split; [reflexivity|]. intros m Em.
    remember (nth (Z.to_nat n) well_known_content_types []) as x eqn:Ex.
    assert (x = m) as <- by congruence. rewrite Ex. apply nth_In.
    assert (0 < length well_known_content_types)%nat by (vm_compute; lia). unfold zlen in E. lia.
  - split; [reflexivity|discriminate].
Qed.

Lemma media_ascii m : In m well_known_content_types -> starts_with (fun c => 32 <= c < 127) m.
Proof.
  intros H. assert (B : forallb (fun n => match n with c :: _ => (32 <=? c) && (c <? 127) | _ => false end)
              well_known_content_types = true) by (vm_compute; reflexivity).
  rewrite forallb_forall in B. specialize (B m H). destruct m as [|c m]; [discriminate|]. cbn. lia.
Qed.

Lemma extension_takes : forall l p, wp decode_extension_media l p (fun r l' _ =>
  (exists pre, l = pre ++ l') /\ forall x, r = Ok x -> (length x + 1 + length l' <= length l)%nat).
Proof.
  intros l p. unfold decode_extension_media. apply wp_bind, wp_preview.
  destruct (nth_error l p) as [b|]; [|split; [exists []; reflexivity|discriminate]].
  destruct ((b <? 32) || (b =? 127)).
  - wsteps. split; [exists []; reflexivity|discriminate].
  - destruct l as [|c l]; wsteps; [split; [exists []; reflexivity|discriminate]|].
    assert (G : forall fuel b l p, wp (text_loop fuel b) l p (fun r l' _ =>
      (exists pre, l = pre ++ l') /\ forall x, r = Ok x -> (length x + length l' <= length l)%nat)).
    { clear. induction fuel as [|f IH]; intros b l p; cbn [text_loop]; destruct (b =? 0); wsteps.
      - split; [exists []; reflexivity|]. intros x Ex. assert (x = []) as -> by congruence. cbn. lia.
      - split; [exists []; reflexivity|discriminate].
      - split; [exists []; reflexivity|]. intros x Ex. assert (x = []) as -> by congruence. cbn. lia.
      - destruct l as [|o l]; [split; [exists []; reflexivity|discriminate]|]. wsteps.
        eapply wp_mono; [apply IH|]. intros [x|e] l' p' [(pre & E) H]; wsteps.
        + split; [exists (o :: pre); now rewrite E|]. intros y Ey.
          assert (y = b :: x) as -> by congruence. specialize (H x eq_refl). cbn [length]. lia.
        + split; [exists (o :: pre); now rewrite E|discriminate]. }
    eapply wp_mono; [apply G|]. intros r l' p' [(pre & E) H].
    split; [exists (c :: pre); now rewrite E|]. intros x Ex. specialize (H x Ex). cbn [length]. lia.
Qed.

Lemma media_type_takes l p : wp decode_media_type l p (fun r _ _ => forall m, r = Ok m ->
  In m well_known_content_types \/ (length m + 1 <= length l)%nat).
Proof.
  unfold decode_media_type. apply wp_catch. unfold decode_well_known_media. apply wp_bind.
  eapply wp_mono; [apply safe_integer_value|]. intros [k|e] l3 p3 (q & -> & _).
  - eapply wp_mono; [apply content_type_at_takes|]. intros [m|e] l4 p4 [-> H4].
    + intros m' Em. left. apply H4. exact Em.
    + destruct e; try (intros; discriminate).
      eapply wp_mono; [apply extension_takes|]. intros r l5 p5 [_ H5] m Em.
      specialize (H5 _ Em). right. rewrite app_length. lia.
  - destruct (exn_eqb DecodeError e); [|intros; discriminate].
    eapply wp_mono; [apply extension_takes|]. intros r l5 p5 [_ H5] m Em.
    specialize (H5 _ Em). right. rewrite app_length. lia.
Qed.

Lemma media_high c s m : 128 <= c -> In m well_known_content_types -> m <> c :: s.
Proof. intros Hc H ->. apply media_ascii in H. cbn in H. lia. Qed.

(** A number is read, and may mean nothing. *)
Lemma constrained_high c l : 128 <= c < 256 -> wp decode_constrained_media (c :: l) 0 (fun r l1 _ =>
  l1 = l /\ forall m, r = Ok m -> In m well_known_content_types).
Proof.
  intros Hc. unfold decode_constrained_media, decode_constrained_encoding. apply wp_bind.
  eapply wp_mono; [apply wp_becomes_catch; apply wp_map_becomes; apply decode_short_integer_run; lia|].
  intros r l1 p1 (-> & -> & ->). apply content_type_at_takes.
Qed.

(** Otherwise it is a text. *)
Lemma constrained_text c l : 32 <= c < 127 -> wp decode_constrained_media (c :: l) 0
  (gives (fun x l' => c :: l = x ++ 0 :: l' /\ ~ In 0 x)).
Proof.
  intros Hc. unfold decode_constrained_media, decode_constrained_encoding. apply wp_bind.
  apply wp_refused_catch.
  - apply wp_bind. eapply wp_mono; [apply decode_short_integer_refuses; [reflexivity|lia]|].
    intros r l' p' (-> & -> & ->). repeat split.
  - apply wp_bind. unfold decode_extension_media. wsteps.
    replace ((c <? 32) || (c =? 127)) with false by lia. wsteps.
    eapply wp_mono; [apply text_loop_takes|]. intros [x|e] l' p' H; wsteps; exact H.
Qed.

(** A text that begins with an octet from 128 up is not read back, whichever way a
    media type is read. *)
Lemma accept_high c s : 128 <= c < 256 -> wp decode_accept_value (c :: s ++ [0]) 0
  (fun r _ _ => forall m, r = Ok m -> m <> c :: s).
Proof.
  intros Hc. unfold decode_accept_value. apply wp_catch.
  eapply wp_mono; [apply constrained_high; exact Hc|]. intros [m|e] l1 p1 [-> H].
  { intros m' Em. apply media_high; [lia|]. apply H. exact Em. }
  destruct e; try (intros; discriminate). cbn [exn_eqb].
  apply wp_bind. eapply wp_mono; [apply safe_value_length|].
  intros [n|e] l2 p2 (pre & E & Hk); [|intros; discriminate].
  assert (L2 : (length l2 <= length s)%nat).
  { apply (f_equal (@length Z)) in E. rewrite !app_length in E. cbn [length] in E. lia. }
  apply wp_bind. eapply wp_mono; [apply media_type_takes|].
  intros [m|e] l3 p3 Hm; [|intros; discriminate].
  assert (N : m <> c :: s).
  { destruct (Hm m eq_refl) as [X|X]; [apply media_high; [lia|exact X]|].
    intros ->. cbn [length] in X. lia. }
  apply wp_bind, wp_preview. destruct (nth_error l3 p3) as [b|]; [|intros; discriminate].
  apply wp_bind.
  assert (T : forall A k (f : ST piter A) l p, safe wsp_exn k f -> wp f l p (fun _ _ _ => True)).
  { intros A k f l p S. eapply wp_mono; [apply S|]. auto. }
  destruct (b =? 128); wsteps; [|intros m' Em; congruence].
  destruct l3 as [|o l3]; [intros; discriminate|].
  eapply wp_mono.
  - eapply (T _ 0%nat). apply (safe_bind _ _ _ 0 0).
    + eapply safe_weaken; [apply safe_q_value|auto|lia].
    + intros _. apply (safe_catch_wsp _ 1 0); [|apply safe_ret].
      apply safe_map. apply safe_parameter.
  - intros [u|e] l4 p4 _; wsteps; intros m' Em; congruence.
Qed.

(** What a content type in the general form is read as. *)
Lemma media_of_takes l m ps : decode_media_and_params l = Ok (m, ps) ->
  In m well_known_content_types \/ (length m + 1 <= length l)%nat.
Proof.
  intros E. unfold decode_media_and_params in E.
  match type of E with fst (?f _) = _ =>
    destruct (wp_fst _ f l (fun r l' p' => match r with
      | Ok (m, ps) => In m well_known_content_types \/ (length m + 1 <= length l)%nat | Err _ => True end))
      as (r & l' & p' & E' & H) end.
  - apply wp_bind. eapply wp_mono; [apply media_type_takes|].
    intros [x|e] l1 p1 H; [|exact I]. specialize (H x eq_refl).
    apply wp_bind. eapply wp_mono; [apply safe_parameters|].
    intros [q|e] l2 p2 _; wsteps; auto.
  - rewrite E in E'. subst r. exact H.
Qed.

Lemma general_takes l p : wp decode_content_general_form l p
  (fun r _ _ => forall m ps, r = Ok (m, ps) -> In m well_known_content_types \/ (length m + 2 <= length l)%nat).
Proof.
  unfold decode_content_general_form. apply wp_bind. eapply wp_mono; [apply safe_value_length|].
  intros [n|e] l2 p2 (pre & -> & Hk); [|intros; discriminate]. apply wp_bind.
  assert (W : wp (read_n n) l2 p2 (fun r l' _ => forall x, r = Ok x -> (length x <= length l2)%nat)).
  { eapply wp_mono; [apply read_n_data|]. intros r l' p' H x E. rewrite (H x E), app_length. lia. }
  eapply wp_mono; [exact W|]. intros [x|e] l3 p3 H; wsteps; [|intros; discriminate].
  intros m ps E. apply media_of_takes in E. specialize (H x eq_refl). rewrite app_length.
  destruct E as [E|E]; [left; exact E|right; lia].
Qed.

Lemma content_type_high c s : 128 <= c < 256 -> wp decode_content_type_value (c :: s ++ [0]) 0
  (fun r _ _ => forall m ps, r = Ok (m, ps) -> m <> c :: s).
Proof.
  intros Hc. unfold decode_content_type_value. apply wp_catch. apply wp_bind.
  eapply wp_mono; [apply constrained_high; exact Hc|]. intros [m|e] l1 p1 [-> H]; wsteps.
  { intros m' ps Em. apply media_high; [lia|]. apply H. congruence. }
  destruct e; try (intros; discriminate). cbn [exn_eqb].
  eapply wp_mono; [apply general_takes|]. intros r l2 p2 G m ps E.
  destruct (G m ps E) as [X|X]; [apply media_high; [lia|exact X]|].
  intros ->. rewrite app_length in X. cbn [length] in X. lia.
Qed.

(** * C48 and C56 *)

Lemma media_octets c s : Forall is_octet (c :: s ++ [0]) -> 32 <= c < 127 ->
  ~ In 0 (c :: s) -> plain_media (c :: s).
Proof.
  intros Ho Hc N. right. split; [|exact Hc].
  apply octets_nul; [exact Ho|exact N].
Qed.

(** C48, exactly: a content type is read back just when it has no parameters and its
    media type has a number or is text that begins with printable ASCII. *)
Theorem C48_exact : forall media params,
  (exists l bytes, encode_content_type_value media params = Ok l /\
     array_of (flatten_list l) = Ok bytes /\
     Decodes decode_content_type_value bytes (media, params)) <->
  params = [] /\ plain_media media.
Proof.
  intros media params. split.
  2: { intros [-> H]. apply C48_roundtrip_partial. exact H. }
  intros (l & bytes & E & Ea & D). destruct params as [|q params].
  2: { exfalso. assert (Hp : q :: params <> []) by discriminate.
       destruct (D [] (new_iter bytes) (app_nil_end bytes) eq_refl) as (it' & R & _).
       pose proof (C48_parameters_refuted media _ l bytes Hp E Ea [] (new_iter bytes) (app_nil_end bytes) eq_refl) as X.
       rewrite R in X. cbn [fst] in X. lia. }
  split; [reflexivity|].
  destruct (in_dec (list_eq_dec Z.eq_dec) media well_known_content_types) as [Hi|Hi]; [left; exact Hi|].
  unfold encode_content_type_value, encode_constrained_media in E.
  rewrite index_of_none in E by exact Hi. cbn [encode_constrained_encoding] in E.
  destruct media as [|c s]; [discriminate|]. cbn [encode_extension_media] in E.
  destruct ((c <? 32) || (c =? 127)) eqn:Ec.
  - exfalso. cbn [bind on_encode_error] in E.
    unfold encode_content_general_form, encode_media_type in E. rewrite index_of_none in E by exact Hi.
    cbn [bind mapM] in E. cbv zeta in E. cbn [map] in E. rewrite app_nil_r in E.
    change (encode_value_length (zlen [EList (ints (encode_text_string (c :: s)))] + zlen (@nil (list Z)))) with [1] in E.
    assert (l = ints [1] ++ [EList (ints (encode_text_string (c :: s)))]) as -> by congruence. clear E.
    assert (F : flatten_list (ints [1] ++ [EList (ints (encode_text_string (c :: s)))]) = ints (1 :: c :: s ++ [0])).
    { rewrite flatten_app, flatten_ints. unfold flatten_list at 1. cbn [flat_map flatten_elt].
      rewrite app_nil_r. fold (flatten_list (ints (encode_text_string (c :: s)))). rewrite flatten_ints. reflexivity. }
    rewrite F in Ea. apply array_octets in Ea. destruct Ea as [-> Ho].
    assert (W : wp decode_content_type_value (1 :: c :: s ++ [0]) 0 (fun r _ _ =>
      forall m ps, r = Ok (m, ps) -> m <> c :: s)).
    { assert (N : forall m, In m well_known_content_types \/ m = [] -> m <> c :: s).
      { intros m [Hm|Hm] ->; [|discriminate]. apply media_ascii in Hm. cbn in Hm. lia. }
      unfold decode_content_type_value. apply wp_refused_catch.
      - apply wp_bind. eapply wp_mono; [apply constrained_media_refuses; lia|].
        intros r' l p (-> & -> & ->). repeat split.
      - unfold decode_content_general_form. change (1 :: c :: s ++ [0]) with (encode_value_length 1 ++ c :: s ++ [0]).
        eapply wp_seq; [apply value_length_run; lia|]. apply wp_bind.
        eapply wp_mono; [apply read_n_length; lia|].
        intros [x|e] l p H; wsteps; [|intros; discriminate].
        intros m ps Em. apply N. apply media_of_takes in Em. destruct Em as [Em|Em]; [left; exact Em|right].
        destruct m; [reflexivity|]. unfold zlen in H. cbn [length] in Em. lia. }
    destruct (decodes_all _ _ _ _ _ D W) as (p & H). exact (H _ _ eq_refl eq_refl).
  - cbn [bind on_encode_error] in E.
    assert (l = ints (c :: s ++ [0])) as -> by (unfold encode_text_string in E; cbn [app] in E; congruence).
    rewrite flatten_ints in Ea. apply array_octets in Ea. destruct Ea as [-> Ho].
    pose proof (Forall_inv Ho) as Hc. unfold is_octet in Hc.
    destruct (Z.ltb_spec c 128) as [L|L].
    + assert (W : wp decode_content_type_value (c :: s ++ [0]) 0 (gives (fun x _ => ~ In 0 (fst x)))).
      { unfold decode_content_type_value. apply wp_catch, wp_bind.
        eapply wp_mono; [apply constrained_text; lia|]. intros [x|e] l' p' H; wsteps.
        - cbn [gives fst]. apply H.
        - cbn [gives] in H. destruct e; try exact H; cbn; try discriminate. congruence. }
      apply media_octets; [exact Ho|lia|]. exact (gives_all _ _ _ _ _ D W).
    + exfalso. destruct (decodes_all _ _ _ _ _ D (content_type_high c s ltac:(lia))) as (p & H).
      exact (H _ _ eq_refl eq_refl).
Qed.
Print Assumptions C48_exact.

(** An Accept header is read as such, or what follows is read as another header. *)
Lemma accept_read l P : wp decode_accept_value l 0 P ->
  wp decode_header (128 :: l) 0 (fun r l' p' =>
    (exists m, P (Ok m) l' p' /\ r = Ok (str "Accept", HStr m)) \/
    (exists e, P (Err e) l' p' /\ r = Err e) \/
    (exists l1 p1, P (Err DecodeError) l1 p1 /\ forall x, r = Ok x -> header_at 0 l1 x l')).
Proof.
  intros W. unfold decode_header. apply wp_refused_catch.
  - unfold decode_mms_header. wsteps.
    unfold decode_short_integer_from_byte. change (Z.land 128 128 =? 0) with false. cbv iota.
    change (d_get Z.eqb (Z.land 128 127) mms_field_names) with (@None (list Z * mtype)).
    wsteps. repeat split.
  - unfold wsp_decode_header. apply wp_catch. unfold decode_well_known_header.
    eapply wp_seq; [apply decode_short_integer_run; lia|].
    rewrite header_names_12. change (Z.to_nat (128 - 128)) with 0%nat.
    apply wp_bind, wp_lift. cbn [header_field_names firstn nth_error].
    change (header_field_encoding (str "Accept")) with AcceptValue. cbv iota.
    apply wp_bind, wp_bind. eapply wp_mono; [exact W|]. intros [m|e] l' p' H; wsteps.
    + left. exists m. auto.
    + destruct e; try (right; left; eexists; split; [exact H|reflexivity]).
      eapply wp_mono; [apply application_takes|]. intros [x|e] l2 p2 Y; right; right;
        exists l', p'; (split; [exact H|]); [|discriminate].
      intros y Ey. assert (x = y) as <- by congruence. exact Y.
Qed.

(** C56, exactly: a header of a part is read back just when it is one of those that
    survive. *)
Theorem C56_exact : forall name v, PartHeaderRoundTrip name v <-> part_header name v.
Proof.
  intros name v. split.
  2: { intros H. destruct (part_header_run name v H) as (b & E & Ho & _ & Hr).
       exists (ints b), b. split; [exact E|]. split; [apply array_of_ints; exact Ho|].
       apply decodes_wp. exact Hr. }
  intros (l & bytes & E & Ea & D). unfold wsp_encode_header in E.
  rewrite header_names_12 in E. cbn [bind] in E.
  destruct (in_dec (list_eq_dec Z.eq_dec) name (firstn 56 header_field_names)) as [Hi|Hi].
  2: { rewrite index_of_none in E by exact Hi. rewrite encode_token_text_spec in E.
       destruct (existsb is_separator name) eqn:Es; [discriminate|]. cbn [bind] in E.
       assert (He : header_field_encoding name = OtherValue).
       { unfold header_field_encoding.
         destruct (leqb name (str "Accept")) eqn:E1.
         { apply leqb_eq in E1. subst. exfalso. apply Hi. vm_compute. auto. }
         destruct (leqb name (str "Pragma")) eqn:E2; [|reflexivity].
         apply leqb_eq in E2. subst. exfalso. apply Hi. vm_compute. auto 40. }
       rewrite He in E. destruct (encode_text_string_h v) as [ts|] eqn:Et; [|discriminate E].
       destruct (text_sent v ts Et) as (s & -> & Hv). cbn [bind] in E.
       assert (l = ints (name ++ [0] ++ s ++ [0])) as ->.
       { unfold encode_text_string in E. unfold ints in *. rewrite <- map_app in E.
         rewrite <- app_assoc in E. congruence. }
       apply array_octets in Ea. destruct Ea as [-> Ho].
       destruct Hv as [->|Hv]; [|destruct (text_comes name s v Ho D) as (x & X); destruct (Hv x X)].
       destruct (token_exact name s Ho Es D) as [A B]. apply ph_token; assumption. }
  destruct (index_of_In name _ Hi) as (i & Ei). rewrite Ei in E.
  destruct (index_of_nth _ _ _ Ei) as (Hr & En).
  assert (H56 : 0 <= i < 56).
  { change (zlen (firstn 56 header_field_names)) with 56 in Hr. exact Hr. }
  rewrite encode_short_integer_ok in E by lia. cbn [bind] in E.
  destruct (Z.eq_dec i 0) as [->|N0].
  { (* Accept *)
    change (nth (Z.to_nat 0) (firstn 56 header_field_names) []) with (str "Accept") in En. subst name.
    change (header_field_encoding (str "Accept")) with AcceptValue in E.
    destruct v as [[s| | |]| | | |]; try discriminate E. apply ph_accept.
    destruct (in_dec (list_eq_dec Z.eq_dec) s well_known_content_types) as [Hw|Hw]; [left; exact Hw|].
    cbn [encode_accept_value] in E. unfold encode_constrained_media in E.
    rewrite index_of_none in E by exact Hw. cbn [encode_constrained_encoding] in E.
    destruct s as [|c s]; [discriminate|]. cbn [encode_extension_media] in E.
    destruct ((c <? 32) || (c =? 127)) eqn:Ec.
    - exfalso. cbn [bind on_encode_error] in E. unfold encode_media_type in E.
      rewrite index_of_none in E by exact Hw. cbn [bind] in E.
      match type of E with Ok ?x = _ => assert (l = x) as -> by congruence end.
      apply array_of_app in Ea. destruct Ea as (x & y & _ & Ea & _).
      apply array_of_app in Ea. destruct Ea as (x' & y' & _ & Ea & _). discriminate Ea.
    - cbn [bind on_encode_error] in E. change (128 + 0) with 128 in E.
      assert (l = ints (128 :: c :: s ++ [0])) as ->
        by (unfold encode_text_string in E; unfold ints in *; cbn [app map] in *; congruence).
      apply array_octets in Ea. destruct Ea as [-> Ho].
      pose proof (Forall_inv (Forall_inv_tail Ho)) as Hc. unfold is_octet in Hc.
      destruct (Z.ltb_spec c 128) as [L|L].
      + assert (W0 : wp decode_accept_value (c :: s ++ [0]) 0 (gives (fun x _ => ~ In 0 x))).
        { unfold decode_accept_value. apply wp_catch.
          eapply wp_mono; [apply constrained_text; lia|]. intros [x|e] l' p' H.
          - apply H.
          - cbn [gives] in H. destruct e; try exact H; cbn; try discriminate. congruence. }
        destruct (decodes_all _ _ _ _ _ D (accept_read _ _ W0)) as (p & [(m & X1 & X2)|[(e & _ & X)|(l1 & p1 & X & _)]]).
        * cbn [gives] in X1. assert (m = c :: s) as -> by (unfold HStr in X2; congruence).
          apply media_octets; [exact (Forall_inv_tail Ho)|lia|exact X1].
        * discriminate X.
        * destruct X. reflexivity.
      + exfalso.
        assert (W0 : wp decode_accept_value (c :: s ++ [0]) 0 (fun r l1 _ =>
          (length l1 <= length s + 2)%nat /\ forall m, r = Ok m -> m <> c :: s)).
        { eapply wp_mono; [apply wp_and; [apply safe_accept_value|apply accept_high; lia]|].
          intros r l' p' [(pre & X & _) Y]. split; [|exact Y].
          apply (f_equal (@length Z)) in X. cbn [length] in X. rewrite !app_length in X. cbn [length] in X. lia. }
        destruct (decodes_all _ _ _ _ _ D (accept_read _ _ W0)) as (p & [(m & [_ X1] & X2)|[(e & _ & X)|(l1 & p1 & [X _] & Y)]]).
        * apply (X1 m eq_refl). unfold HStr in X2. congruence.
        * discriminate X.
        * destruct (Y _ eq_refl) as (s' & Y1 & Y2). cbn [fst snd] in *.
          assert (c :: s = s') as <- by (unfold HStr in Y1; congruence).
          cbn [length] in Y2. change (length (str "Accept")) with 6%nat in Y2. lia. }
  assert (G : forallb (fun k => let n := nth k (firstn 56 header_field_names) [] in
      if (k =? 0)%nat then true
      else if (k =? 31)%nat then leqb n (str "Pragma")
      else match header_field_encoding n with OtherValue => true | _ => false end &&
        (if (k <=? 24)%nat
         then match d_get Z.eqb (Z.of_nat k) mms_field_names with
              | Some (tn, _) => negb (leqb tn n) | None => false end
         else existsb (leqb n) (skipn 25 (firstn 56 header_field_names)) && negb (leqb n (str "Pragma"))))
    (seq 0 56) = true) by (vm_compute; reflexivity).
  rewrite forallb_forall in G. specialize (G (Z.to_nat i) ltac:(apply in_seq; lia)).
  cbv zeta in G. rewrite En in G. replace (Z.to_nat i =? 0)%nat with false in G by lia.
  destruct (Z.to_nat i =? 31)%nat eqn:E31.
  { apply leqb_eq in G. rewrite G in E. change (header_field_encoding (str "Pragma")) with PragmaValue in E.
    discriminate E. }
  apply andb_prop in G. destruct G as [G1 G2].
  destruct (header_field_encoding name) eqn:He; try discriminate G1.
  destruct (encode_text_string_h v) as [ts|] eqn:Et; [|discriminate E].
  destruct (text_sent v ts Et) as (s & -> & Hv). cbn [bind] in E.
  assert (l = ints ((128 + i) :: s ++ [0])) as ->
    by (unfold encode_text_string in E; cbn [app ints map] in E; unfold ints in *; cbn [map]; congruence).
  apply array_octets in Ea. destruct Ea as [-> Ho].
  destruct (Z.to_nat i <=? 24)%nat eqn:E24.
  { exfalso. rewrite Z2Nat.id in G2 by lia.
    destruct (d_get Z.eqb i mms_field_names) as [[tn t]|] eqn:Ed; [|discriminate G2].
    eapply (table_lost i tn t name s v); [lia|exact Ed| |exact He| |exact D].
    2: { intros x X. destruct Hv as [->|Hv]; [unfold HStr in X; congruence|destruct (Hv x X)]. }
    intros ->. rewrite (proj2 (leqb_eq name name) eq_refl) in G2. discriminate G2. }
  apply andb_prop in G2. destruct G2 as [G2 G3].
  apply existsb_exists in G2. destruct G2 as (n' & Hin & X). apply leqb_eq in X. subst n'.
  assert (W : wp decode_header ((128 + i) :: s ++ [0]) 0 (gives (fun x l' =>
     exists y, snd x = HStr y /\ text_at (s ++ [0]) y l'))).
  { unfold decode_header. apply wp_refused_catch.
    - unfold decode_mms_header. wsteps. unfold decode_short_integer_from_byte.
      rewrite land_128 by lia. replace (128 + i <? 128) with false by lia.
      rewrite land_127. replace ((128 + i) mod 128) with i by
        (rewrite Z.add_comm, <- (Z.mul_1_l 128), Z.mod_add, Z.mod_small by lia; reflexivity).
      assert (Dn : d_get Z.eqb i mms_field_names = None).
      { apply d_get_None; [apply Z.eqb_eq|]. cbn [mms_field_names map fst In]. lia. }
      rewrite Dn. wsteps. repeat split.
    - unfold wsp_decode_header. apply wp_catch. unfold decode_well_known_header.
      eapply wp_seq; [apply decode_short_integer_run; lia|].
      rewrite header_names_12. replace (128 + i - 128) with i by lia.
      assert (En' : nth_error (firstn 56 header_field_names) (Z.to_nat i) = Some name)
        by (rewrite <- En; apply nth_error_nth'; unfold zlen in Hr; lia).
      apply wp_bind, wp_lift. rewrite En', He. apply wp_bind, wp_bind.
      eapply wp_mono; [apply text_takes|]. intros [y|e] l' p' T; wsteps.
      + exists y. auto.
      + cbn [gives] in T. destruct e; try exact T; cbn; try discriminate. congruence. }
  destruct (gives_all _ _ _ _ _ D W) as (y & Y1 & Y2). cbn [snd] in Y1.
  destruct Hv as [->|Hv]; [|destruct (Hv y Y1)].
  apply ph_well_known; [exact Hin| |].
  { intros ->. rewrite (proj2 (leqb_eq (str "Pragma") (str "Pragma")) eq_refl) in G3. discriminate G3. }
  apply text_plain; [exact (Forall_inv_tail Ho)|].
  assert (y = s) as <- by (unfold HStr in Y1; congruence). exact Y2.
Qed.
Print Assumptions C56_exact.
Example C56_exact_case :
  part_header (str "To") (HStr (str "x")) /\ part_header (str "Accept") (HStr (str "image/png")) /\
  ~ part_header (str "Content-Location") (HStr (str "cat.jpg")).
Proof.
  split; [|split].
  - apply ph_token.
    + intros H. vm_compute in H. intuition discriminate.
    + let v := eval vm_compute in (str "To") in change (str "To") with v. split; [|split].
      * repeat constructor; try lia; vm_compute; intuition discriminate.
      * left. repeat constructor; lia.
      * repeat constructor; lia.
    + split; [repeat constructor; discriminate|cbn; lia].
  - apply ph_accept. left. vm_compute. auto 60.
  - intros H. remember (str "Content-Location") as n eqn:En. remember (HStr (str "cat.jpg")) as v eqn:Ev.
    destruct H as [n' s H _ _|s _|n' s H _ _].
    + apply H. rewrite En. vm_compute. auto 60.
    + discriminate En.
    + rewrite En in H. vm_compute in H. intuition discriminate.
Qed.
