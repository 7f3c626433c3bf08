(** Facts about the decoders on the grammar of SpecMms. *)
From Coq Require Import Lia ZifyBool ZifyNat.
From Verif Require Import Py Iter Tables WspDec WspEnc Message MmsEnc MmsDec
  SpecWsp WspClaims MmsClaims SpecMms GrammarClaims PyFacts IterFacts WspFacts ContentFacts
  HeaderFacts DeliverFacts MsgHeaderFacts BodyFacts.
Open Scope Z_scope.

Lemma n_octets_zlen : forall l, n_octets l = zlen l.
Proof. reflexivity. Qed.

(** * Primitive values *)

Lemma uintvar_read : forall n l p rest, Uintvar n l ->
  wp decode_uint_var (l ++ rest) p (becomes n rest).
Proof. intros n l p rest H. destruct H as [ds d H1 H2]. apply decode_uint_var_run; auto. Qed.

Lemma uintvar_nonneg : forall n l, Uintvar n l -> 0 <= n.
Proof.
  intros n l H. destruct H as [ds d H1 H2]. apply base128_nonneg. apply Forall_app.
  split; [exact H1|]. constructor; [exact H2|constructor].
Qed.

Lemma uintvar_ne : forall n l, Uintvar n l -> l <> [].
Proof.
  intros n l H. destruct H as [ds d H1 H2]. unfold uintvar_octets. destruct ds; discriminate.
Qed.

Lemma value_length_read : forall n l rest, Value_length n l ->
  wp decode_value_length (l ++ rest) 0 (becomes n rest).
Proof.
  intros n l rest H. unfold decode_value_length. destruct H as [n Hn|n l Hl].
  - apply wp_becomes_catch. apply decode_short_length_run. lia.
  - cbn [app]. apply wp_refused_catch.
    + apply decode_short_length_refuses. lia.
    + wsteps. cbn [Z.eqb Pos.eqb]. wsteps. apply uintvar_read. exact Hl.
Qed.

Lemma value_length_head : forall n l, Value_length n l ->
  exists b r, l = b :: r /\ 0 <= b < 32.
Proof.
  intros n l H. destruct H as [n Hn|n l Hl]; [exists n, []|exists 31, l]; split; auto; lia.
Qed.

Lemma short_integer_read : forall n l rest, Short_integer n l ->
  wp decode_short_integer (l ++ rest) 0 (becomes n rest).
Proof.
  intros n l rest H. destruct H as [n Hn]. cbn [app].
  replace n with (128 + n - 128) at 2 by lia. apply decode_short_integer_run. lia.
Qed.

Lemma long_integer_read : forall n l rest, Long_integer n l ->
  wp decode_long_integer (l ++ rest) 0 (becomes n rest).
Proof.
  intros n l rest H. destruct H as [l Ho Hl]. cbn [app]. rewrite n_octets_zlen in *.
  apply decode_long_integer_run; [|lia]. eapply Forall_impl; [|exact Ho]. unfold is_octet. cbn. lia.
Qed.

Lemma long_integer_head : forall n l, Long_integer n l ->
  exists b r, l = b :: r /\ 1 <= b <= 30.
Proof. intros n l H. destruct H as [l Ho Hl]. exists (n_octets l), l. auto. Qed.

Lemma integer_value_read : forall n l rest, Integer_value n l ->
  wp decode_integer_value (l ++ rest) 0 (becomes n rest).
Proof.
  intros n l rest H. unfold decode_integer_value. destruct H as [n l H|n l H].
  - apply wp_becomes_catch. apply short_integer_read. exact H.
  - destruct (long_integer_head n l H) as (b & r & E & Hb).
    apply wp_refused_catch; [|apply long_integer_read; exact H].
    rewrite E. cbn [app]. apply decode_short_integer_refuses; [reflexivity|lia].
Qed.

Lemma integer_value_head : forall n l, Integer_value n l ->
  exists b r, l = b :: r /\ (1 <= b <= 30 \/ 128 <= b < 256).
Proof.
  intros n l H. destruct H as [n l H|n l H].
  - destruct H as [n Hn]. exists (128 + n), []. split; auto. lia.
  - destruct (long_integer_head n l H) as (b & r & E & Hb). exists b, r. auto.
Qed.

Lemma integer_value_refuses : forall b rest, 30 < b < 128 ->
  wp decode_integer_value (b :: rest) 0 (refuses (b :: rest)).
Proof.
  intros b rest Hb. unfold decode_integer_value. apply wp_refused_catch.
  - apply decode_short_integer_refuses; [reflexivity|lia].
  - unfold decode_long_integer. apply wp_bind.
    eapply wp_mono; [apply decode_short_length_refuses; lia|].
    intros r l p (-> & -> & ->). repeat split.
Qed.

Lemma text_string_read : forall s l p rest, Text_string s l ->
  wp decode_text_string (l ++ rest) p (becomes s rest).
Proof.
  intros s l p rest H. destruct H as [s [H1 H2] H|s [H1 H2] H].
  - apply decode_text_string_run; [exact H1|]. destruct s as [|c s]; cbn in *; [tauto|].
    destruct H2 as [H2|H2]; [discriminate|]. lia.
  - unfold decode_text_string. cbn [app]. destruct s as [|c s]; [destruct H|].
    cbn in H. wsteps. cbn [Z.eqb Pos.eqb]. cbn [app]. wsteps.
    apply text_loop_run with (s := c :: s); auto.
    cbn. rewrite !app_length. lia.
Qed.

Lemma text_string_head : forall s l, Text_string s l ->
  exists b r, l = b :: r /\ (b = 0 /\ s = [] /\ r = [] \/ 32 <= b < 128).
Proof.
  intros s l H. destruct H as [s [H1 H2] H|s [H1 H2] H].
  - destruct s as [|c s]; [exists 0, []; auto|]. exists c, (s ++ [0]). split; auto. right.
    cbn in *. destruct H2 as [H2|H2]; [discriminate|]. lia.
  - exists 127, (s ++ [0]). split; auto. right. lia.
Qed.

Lemma token_chars : forall s, token s ->
  s <> [] /\ Forall (fun c => token_char c = true) s /\ Forall (fun c => 32 < c < 127) s.
Proof.
  intros s [H1 H2]. split; [exact H1|]. split.
  - eapply Forall_impl; [|exact H2]. cbn beta. intros c (Hc & Hs). apply token_char_iff.
    split; [lia|]. intros X. apply Hs. unfold separator_chars, rfc_separators in *. cbn in *. lia.
  - eapply Forall_impl; [|exact H2]. cbn beta. tauto.
Qed.

Lemma token_text_read : forall s l rest, Token_text s l ->
  wp decode_token_text (l ++ rest) 0 (becomes s rest).
Proof.
  intros s l rest H. destruct H as [s H]. destruct (token_chars s H) as (H1 & H2 & _).
  apply decode_token_text_run; auto.
Qed.

Lemma token_text_head : forall s l, Token_text s l ->
  exists c c' r, l = c :: c' :: r /\ 32 < c < 127 /\ 0 <= c' < 127.
Proof.
  intros s l H. destruct H as [s H]. destruct (token_chars s H) as (H1 & _ & H3).
  destruct s as [|c s]; [congruence|]. pose proof (Forall_inv H3). apply Forall_inv_tail in H3.
  destruct s as [|c' s].
  - exists c, 0, []. cbn in *. repeat split; lia.
  - exists c, c', (s ++ [0]). apply Forall_inv in H3. cbn in *. repeat split; lia.
Qed.

Lemma extension_media_read : forall s l rest, Extension_media s l ->
  wp decode_extension_media (l ++ rest) 0 (becomes s rest).
Proof.
  intros s l rest H. destruct H as [s H1 H2]. destruct s as [|c s]; [destruct H2|].
  cbn in H2. unfold decode_extension_media. cbn [app]. wsteps.
  replace ((c <? 32) || (c =? 127)) with false by lia. wsteps.
  apply text_loop_run with (s := c :: s); auto. cbn. rewrite !app_length. lia.
Qed.

Lemma extension_media_head : forall s l, Extension_media s l ->
  exists b r, l = b :: r /\ 32 <= b < 127.
Proof.
  intros s l H. destruct H as [s H1 H2]. destruct s as [|c s]; [destruct H2|].
  exists c, (s ++ [0]). auto.
Qed.

(** The charset is skipped whatever it is. *)
Lemma charset_skip : forall n l rest, Integer_value n l ->
  wp decode_well_known_charset (l ++ rest) 0
     (fun r l' p => (exists s, r = Ok s) /\ l' = rest /\ p = 0%nat).
Proof.
  intros n l rest H. destruct (integer_value_head n l H) as (b & r & E & Hb).
  unfold decode_well_known_charset. rewrite E. cbn [app]. wsteps.
  replace (b =? 127) with false by lia.
  change (b :: r ++ rest) with ((b :: r) ++ rest). rewrite <- E.
  eapply wp_seq; [apply integer_value_read; exact H|]. wsteps. eauto.
Qed.

Lemma charset_read : forall n name l rest, In (n, name) charset_names -> Integer_value n l ->
  wp decode_well_known_charset (l ++ rest) 0 (becomes name rest).
Proof.
  intros n name l rest Hn H. destruct (integer_value_head n l H) as (b & r & E & Hb).
  unfold decode_well_known_charset. rewrite E. cbn [app]. wsteps.
  replace (b =? 127) with false by lia.
  change (b :: r ++ rest) with ((b :: r) ++ rest). rewrite <- E.
  eapply wp_seq; [apply integer_value_read; exact H|].
  assert (D : d_get Z.eqb n well_known_charsets = Some name).
  { unfold charset_names in Hn. cbn [In] in Hn.
    repeat destruct Hn as [Hn|Hn]; try contradiction; injection Hn as <- <-; reflexivity. }
  rewrite D. wsteps. apply becomes_intro.
Qed.

Lemma encoded_string_read : forall s l rest, Encoded_string s l -> l <> [0] ->
  wp decode_encoded_string_value (l ++ rest) 0 (becomes s rest).
Proof.
  intros s l rest H Hl. unfold decode_encoded_string_value.
  destruct H as [s l H|s l cs csl n vl Hc H Hv _].
  - destruct (text_string_head s l H) as (b & r & E & [(-> & _ & ->)|Hb]); [congruence|].
    apply wp_refused_catch; [|apply text_string_read; exact H].
    rewrite E. cbn [app]. apply wp_bind.
    eapply wp_mono; [apply decode_value_length_refuses; lia|].
    intros x l' p (-> & -> & ->). repeat split.
  - apply wp_becomes_catch. rewrite <- !app_assoc.
    eapply wp_seq; [apply value_length_read; exact Hv|]. apply wp_bind.
    eapply wp_mono.
    + apply wp_catch. eapply wp_mono; [apply (charset_skip cs csl (l ++ rest)); exact Hc|].
      intros r l' p ((x & ->) & -> & ->).
      instantiate (1 := fun r l' p => (exists s, r = Ok s) /\ l' = l ++ rest /\ p = 0%nat).
      cbv beta. eauto.
    + intros r l' p ((x & ->) & -> & ->). cbv beta iota. apply text_string_read. exact H.
Qed.

Lemma small_dec_py : forall n, 0 <= n <= 15 -> py_dec n = small_dec n.
Proof.
  intros n Hn. assert (X : forall k, (k <= 15)%nat -> py_dec (Z.of_nat k) = small_dec (Z.of_nat k)).
  { intros k Hk. do 16 (destruct k as [|k]; [vm_compute; reflexivity|]). lia. }
  specialize (X (Z.to_nat n)). rewrite Z2Nat.id in X by lia. apply X. lia.
Qed.

Lemma version_octet : forall M m rest, 0 <= M <= 7 -> 0 <= m <= 15 ->
  wp decode_version_value ((128 + M * 16 + m) :: rest) 0
     (becomes (small_dec M ++ [46] ++ small_dec m) rest).
Proof.
  intros M m rest HM Hm. unfold decode_version_value. apply wp_becomes_catch.
  eapply wp_seq; [apply decode_short_integer_run; lia|].
  replace (128 + M * 16 + m - 128) with (M * 16 + m) by lia.
  assert (X : Z.shiftr (Z.land (M * 16 + m) 112) 4 = M /\ Z.land (M * 16 + m) 15 = m).
  { assert (G : forall i j, (i <= 7)%nat -> (j <= 15)%nat ->
      Z.shiftr (Z.land (Z.of_nat i * 16 + Z.of_nat j) 112) 4 = Z.of_nat i /\
      Z.land (Z.of_nat i * 16 + Z.of_nat j) 15 = Z.of_nat j).
    { intros i j Hi Hj. do 8 (destruct i as [|i];
        [do 16 (destruct j as [|j]; [split; vm_compute; reflexivity|]); lia|]). lia. }
    specialize (G (Z.to_nat M) (Z.to_nat m)). rewrite !Z2Nat.id in G by lia. apply G; lia. }
  destruct X as (-> & ->). wsteps. rewrite !small_dec_py by lia. apply becomes_intro.
Qed.

Lemma version_read : forall s l rest, Version_value s l ->
  ~ (exists M, 1 <= M <= 7 /\ l = [128 + M * 16 + 15]) ->
  wp decode_version_value (l ++ rest) 0 (becomes s rest).
Proof.
  intros s l rest H N. destruct H as [M m HM Hm|M HM|s l H].
  - apply version_octet; lia.
  - exfalso. apply N. exists M. auto.
  - destruct (text_string_head s l H) as (b & r & E & Hb).
    unfold decode_version_value. apply wp_refused_catch; [|apply text_string_read; exact H].
    rewrite E. cbn [app]. apply wp_bind.
    eapply wp_mono; [apply decode_short_integer_refuses; [reflexivity|lia]|].
    intros x l' p (-> & -> & ->). repeat split.
Qed.

Lemma q_read : forall q n l, 0 <= q < 1000 -> n = q_code q -> Uintvar n l ->
  exists a b, 0 < b /\ a * 1000 = q * b /\
    forall rest, wp decode_q_value (l ++ rest) 0 (becomes (PRatio a b) rest).
Proof.
  intros q n l Hq -> H. unfold q_code in H. destruct (q mod 10 =? 0) eqn:E.
  - exists (q / 10 + 1 - 1), 100. split; [lia|]. split; [Z.div_mod_to_equations; lia|]. intros rest.
    unfold decode_q_value. eapply wp_seq; [apply uintvar_read; exact H|].
    replace (100 <? q / 10 + 1) with false by (Z.div_mod_to_equations; lia).
    wsteps. apply becomes_intro.
  - exists (q + 100 - 100), 1000. split; [lia|]. split; [lia|]. intros rest.
    unfold decode_q_value. eapply wp_seq; [apply uintvar_read; exact H|].
    replace (100 <? q + 100) with true by (Z.div_mod_to_equations; lia).
    rewrite small_float by lia. wsteps. apply becomes_intro.
Qed.

(** * Content types *)

Lemma media_table : forall n media, media_number n media ->
  media <> str "multipart/byteranges" ->
  (n <? zlen well_known_content_types) = true /\
  nth (Z.to_nat n) well_known_content_types [] = media.
Proof.
  intros n media [Hn H] Hm.
  assert (G : forallb (fun k =>
    match nth_error assigned_media k with
    | None => true
    | Some m => leqb m (str "multipart/byteranges")
                || leqb (nth k well_known_content_types []) m
    end) (seq 0 (length assigned_media)) = true) by (vm_compute; reflexivity).
  rewrite forallb_forall in G.
  assert (Hk : (Z.to_nat n < length assigned_media)%nat) by (apply nth_error_Some; congruence).
  specialize (G (Z.to_nat n)). rewrite H in G.
  assert (X : (leqb media (str "multipart/byteranges")
               || leqb (nth (Z.to_nat n) well_known_content_types []) media)%bool = true)
    by (apply G; apply in_seq; lia).
  apply Bool.orb_true_iff in X. destruct X as [X|X]; [apply leqb_eq in X; contradiction|].
  apply leqb_eq in X. split; [|exact X].
  replace (zlen well_known_content_types) with (n_octets [] + Z.of_nat (length assigned_media))
    by (vm_compute; reflexivity). unfold n_octets. cbn [length]. lia.
Qed.

Lemma content_type_at_read : forall n media l, media_number n media ->
  media <> str "multipart/byteranges" ->
  wp (content_type_at n) l 0 (becomes media l).
Proof.
  intros n media l H Hm. destruct (media_table n media H Hm) as (H1 & H2).
  unfold content_type_at. rewrite H1, H2. wsteps. apply becomes_intro.
Qed.

Lemma media_read : forall media l rest, Media media l ->
  media <> str "multipart/byteranges" ->
  wp decode_media_type (l ++ rest) 0 (becomes media rest).
Proof.
  intros media l rest H Hm. unfold decode_media_type. destruct H as [n media l Hn H|media l H].
  - apply wp_becomes_catch. unfold decode_well_known_media.
    eapply wp_seq; [apply integer_value_read; exact H|]. apply content_type_at_read; auto.
  - destruct (extension_media_head _ _ H) as (b & r & E & Hb).
    apply wp_refused_catch; [|apply extension_media_read; exact H].
    rewrite E. cbn [app]. unfold decode_well_known_media. apply wp_bind.
    eapply wp_mono; [apply integer_value_refuses; lia|].
    intros x l' p (-> & -> & ->). repeat split.
Qed.

(** A typed parameter. *)
Lemma typed_read : forall k name t i v l rest,
  d_get Z.eqb k (del_range 12 17 (del_range 17 30 well_known_parameters)) = Some (name, t) ->
  Integer_value k i -> wp (decode_by_type t) (l ++ rest) 0 (becomes v rest) ->
  wp decode_parameter ((i ++ l) ++ rest) 0 (becomes (name, v) rest).
Proof.
  intros k name t i v l rest D Hi H. unfold decode_parameter. apply wp_becomes_catch.
  unfold decode_typed_parameter, decode_well_known_parameter, decode_well_known_parameter_in.
  rewrite <- app_assoc.
  eapply wp_seq.
  - eapply wp_seq; [apply integer_value_read; exact Hi|].
    change (get_well_known_parameters (str "1.2"))
      with (Ok (del_range 12 17 (del_range 17 30 well_known_parameters))).
    wsteps. rewrite D. wsteps. apply becomes_intro.
  - cbv beta iota. eapply wp_seq; [exact H|]. wsteps. apply becomes_intro.
Qed.

Lemma untyped_read : forall name t v l rest, Token_text name t ->
  wp decode_untyped_value (l ++ rest) 0 (becomes v rest) ->
  wp decode_parameter ((t ++ l) ++ rest) 0 (becomes (name, v) rest).
Proof.
  intros name t v l rest Ht H. unfold decode_parameter. rewrite <- app_assoc.
  destruct (token_text_head _ _ Ht) as (c & c' & r & E & Hc & _).
  apply wp_refused_catch.
  - rewrite E. cbn [app]. unfold decode_typed_parameter, decode_well_known_parameter, decode_well_known_parameter_in.
    apply wp_bind. apply wp_bind. eapply wp_mono; [apply integer_value_refuses; lia|].
    intros x l' p (-> & -> & ->). repeat split.
  - unfold decode_untyped_parameter. eapply wp_seq; [apply token_text_read; exact Ht|].
    eapply wp_seq; [exact H|]. wsteps. apply becomes_intro.
Qed.

Lemma param_read : forall name v l, Read_param name v l -> exists p, shows_param v p /\
  forall rest, wp decode_parameter (l ++ rest) 0 (becomes (name, p) rest).
Proof.
  intros name v l [H N].
  destruct H as [i q l n Hi Hq Hn Hl|i s l Hi Hs|i s l Hi Hs|i n l Hi Hn|name k i s l Hk Hi Hs
                |i n l Hi Hn|i n l Hi Hn|i s l Hi Hs|name t n l Ht Hn|name t s l Ht Hs|name t s l Ht Hs].
  - destruct (q_read q n l Hq Hn Hl) as (a & b & Hb & Hab & Hw).
    exists (PRatio a b). split; [split; assumption|]. intros rest.
    eapply typed_read with (k := 0) (t := TQ); [reflexivity|exact Hi|].
    cbn [decode_by_type]. apply Hw.
  - exists (PStr s). split; [reflexivity|]. intros rest.
    eapply typed_read with (k := 1) (t := TCharset); [reflexivity|exact Hi|].
    cbn [decode_by_type]. apply wp_map_becomes. destruct Hs as [|n s l Hin Hl].
    + exfalso. apply N. apply mp_any. exact Hi.
    + apply charset_read with n; assumption.
  - exists (PStr s). split; [reflexivity|]. intros rest.
    eapply typed_read with (k := 2) (t := TVersion); [reflexivity|exact Hi|].
    cbn [decode_by_type]. apply wp_map_becomes. apply version_read; [exact Hs|].
    intros (M & HM & ->). apply N. apply mp_major; assumption.
  - exists (PInt n). split; [reflexivity|]. intros rest.
    eapply typed_read with (k := 3) (t := TInteger); [reflexivity|exact Hi|].
    cbn [decode_by_type]. apply wp_map_becomes. apply integer_value_read. exact Hn.
  - exists (PStr s). split; [reflexivity|]. intros rest.
    eapply typed_read with (k := k) (t := TTextString); [|exact Hi|].
    + cbn [In] in Hk. repeat destruct Hk as [Hk|Hk]; try contradiction;
        injection Hk as <- <-; reflexivity.
    + cbn [decode_by_type]. apply wp_map_becomes. apply text_string_read. exact Hs.
  - exists (PInt n). split; [reflexivity|]. intros rest.
    eapply typed_read with (k := 8) (t := TShort); [reflexivity|exact Hi|].
    cbn [decode_by_type]. apply wp_map_becomes. apply short_integer_read. exact Hn.
  - exists (PInt n). split; [reflexivity|]. intros rest.
    eapply typed_read with (k := 9) (t := TConstrained); [reflexivity|exact Hi|].
    cbn [decode_by_type]. unfold decode_constrained_encoding. apply wp_becomes_catch.
    apply wp_map_becomes. apply short_integer_read. exact Hn.
  - exists (PStr s). split; [reflexivity|]. intros rest.
    eapply typed_read with (k := 9) (t := TConstrained); [reflexivity|exact Hi|].
    cbn [decode_by_type]. unfold decode_constrained_encoding.
    destruct (extension_media_head _ _ Hs) as (b & r & E & Hb). apply wp_refused_catch.
    + rewrite E. cbn [app]. apply wp_bind.
      eapply wp_mono; [apply decode_short_integer_refuses; [reflexivity|lia]|].
      intros x l' p (-> & -> & ->). repeat split.
    + apply wp_map_becomes. apply extension_media_read. exact Hs.
  - exists (PInt n). split; [reflexivity|]. intros rest.
    apply untyped_read; [exact Ht|]. unfold decode_untyped_value. apply wp_becomes_catch.
    apply wp_map_becomes. apply integer_value_read. exact Hn.
  - exists (PStr s). split; [reflexivity|]. intros rest.
    apply untyped_read; [exact Ht|]. unfold decode_untyped_value.
    destruct (token_text_head _ _ Hs) as (c & c' & r & E & Hc & _). apply wp_refused_catch.
    + rewrite E. cbn [app]. apply wp_bind.
      eapply wp_mono; [apply integer_value_refuses; lia|].
      intros x l' p (-> & -> & ->). repeat split.
    + apply wp_map_becomes. unfold decode_text_value. apply wp_becomes_catch.
      apply token_text_read. exact Hs.
  - exfalso. apply N. destruct Hs as [s Hs]. apply mp_quoted. exact Ht.
Qed.

(** * Dictionaries filled in order *)

Definition put {W} (L d : list (list Z * W)) : list (list Z * W) :=
  fold_left (fun d e => d_set leqb (fst e) (snd e) d) L d.

Definition pairs {V W} (shows : list Z -> V -> W -> Prop) : list (list Z * V) ->
  list (list Z * W) -> Prop :=
  Forall2 (fun v w => fst w = fst v /\ shows (fst v) (snd v) (snd w)).

Lemma put_shows : forall V W (sh : list Z -> V -> W -> Prop) vs L d, pairs sh vs L ->
  shows_dict sh (fun k => d_get leqb k d) vs (put L d).
Proof.
  intros V W sh vs L d H. revert d. induction H as [|[k1 v] [k2 w] vs L (E & Hs) _ IH]; intros d k.
  - reflexivity.
  - cbn [fst snd] in E, Hs. subst k2. cbn [last_value put fold_left fst snd].
    specialize (IH (d_set leqb k1 w d) k). unfold put in IH.
    destruct (last_value k vs) as [v'|]; [exact IH|]. rewrite IH.
    destruct (list_eq_dec Z.eq_dec k k1) as [->|Hk].
    + exists w. split; [|exact Hs]. apply d_get_set_same. intros. apply leqb_eq.
    + apply d_get_set_other; [|exact Hk]. intros. apply leqb_eq.
Qed.

(** * Parameters *)

Lemma param_ne : forall name v l, Param name v l -> l <> [].
Proof.
  intros name v l H.
  destruct H as [i q l n Hi _ _ _|i s l Hi _|i s l Hi _|i n l Hi _|name k i s l _ Hi _
                |i n l Hi _|i n l Hi _|i s l Hi _|name t n l Ht _|name t s l Ht _|name t s l Ht _];
  try (destruct (integer_value_head _ _ Hi) as (b & r & -> & _); discriminate);
  destruct (token_text_head _ _ Ht) as (c & c' & r & -> & _); discriminate.
Qed.

Lemma sequence_length : forall V (P : list Z -> V -> list Z -> Prop) vs l,
  (forall name v l, P name v l -> l <> []) ->
  Sequence P vs l -> (length vs <= length l)%nat.
Proof.
  intros V P vs l HP H. induction H as [|name v l vs r H _ IH]; [cbn; lia|].
  rewrite app_length. cbn [length]. apply HP in H. destruct l; [congruence|cbn; lia].
Qed.

Lemma parameter_end : wp decode_parameter [] 0
  (fun r l p => r = Err StopIteration /\ l = [] /\ p = 0%nat).
Proof.
  unfold decode_parameter. apply wp_catch. unfold decode_typed_parameter, decode_well_known_parameter, decode_well_known_parameter_in.
  apply wp_bind, wp_bind. unfold decode_integer_value. apply wp_catch.
  unfold decode_short_integer. wsteps. auto.
Qed.

Lemma parameters_read : forall ps l, Sequence Read_param ps l ->
  exists L, pairs (fun _ => shows_param) ps L /\
  forall fuel d, (length ps < fuel)%nat ->
    wp (parameter_loop fuel d) l 0 (becomes (put L d) []).
Proof.
  intros ps l H. induction H as [|name v l ps r H _ (L & HL & IH)].
  - exists []. split; [constructor|]. intros fuel d Hf. destruct fuel as [|f]; [lia|].
    cbn [parameter_loop].
    eapply wp_then with (m := decode_parameter)
      (j := fun r => match r with
                     | Ok (h, v) => parameter_loop f (d_set leqb h v d)
                     | Err StopIteration => st_ret d
                     | Err e => st_err e
                     end);
      [intros it; destruct (decode_parameter it) as [[[h x]|x] it']; [|destruct x]; reflexivity|].
    eapply wp_mono; [apply parameter_end|]. intros r l p (-> & -> & ->). wsteps. apply becomes_intro.
  - destruct (param_read _ _ _ H) as (p & Hp & Hw). exists ((name, p) :: L).
    split; [constructor; auto|]. intros fuel d Hf. destruct fuel as [|f]; [cbn in Hf; lia|].
    cbn [parameter_loop].
    eapply wp_then with (m := decode_parameter)
      (j := fun r => match r with
                     | Ok (h, v) => parameter_loop f (d_set leqb h v d)
                     | Err StopIteration => st_ret d
                     | Err e => st_err e
                     end);
      [intros it; destruct (decode_parameter it) as [[[h x]|x] it']; [|destruct x]; reflexivity|].
    eapply wp_mono; [apply Hw|]. intros x l' p' (-> & -> & ->). apply IH. cbn in Hf. lia.
Qed.

Lemma content_type_read : forall media ps l, Read_type media ps l -> n_octets l <= maxint ->
  exists d, shows_params ps d /\
  forall rest, wp decode_content_type_value (l ++ rest) 0 (becomes (media, d) rest).
Proof.
  intros media ps l [H Hm] Hl. unfold decode_content_type_value.
  destruct H as [n media l Hn H|media l H|media ps ml pl n vl H Hp Hv En].
  - exists []. split; [intros k; reflexivity|]. intros rest. apply wp_becomes_catch.
    apply (wp_map_becomes _ _ _ (fun m => (m, @nil (list Z * pval)))).
    unfold decode_constrained_media.
    eapply wp_seq.
    + unfold decode_constrained_encoding. apply wp_becomes_catch. apply wp_map_becomes.
      apply short_integer_read. exact H.
    + apply content_type_at_read; auto.
  - exists []. split; [intros k; reflexivity|]. intros rest. apply wp_becomes_catch.
    apply (wp_map_becomes _ _ _ (fun m => (m, @nil (list Z * pval)))).
    unfold decode_constrained_media.
    destruct (extension_media_head _ _ H) as (b & r & E & Hb).
    eapply wp_seq.
    + unfold decode_constrained_encoding. apply wp_refused_catch.
      * rewrite E. cbn [app]. apply wp_bind.
        eapply wp_mono; [apply decode_short_integer_refuses; [reflexivity|lia]|].
        intros x l' p (-> & -> & ->). repeat split.
      * apply wp_map_becomes. apply extension_media_read. exact H.
    + wsteps. apply becomes_intro.
  - destruct (parameters_read _ _ Hp) as (L & HL & Hw). exists (put L []).
    split; [apply (put_shows _ _ _ _ _ [] HL)|]. intros rest.
    destruct (value_length_head _ _ Hv) as (b & r & E & Hb). apply wp_refused_catch.
    + rewrite E. cbn [app]. apply wp_bind.
      eapply wp_mono; [apply constrained_media_refuses; lia|].
      intros x l' p (-> & -> & ->). repeat split.
    + unfold decode_content_general_form. rewrite <- !app_assoc, app_assoc with (l := ml).
      eapply wp_seq; [apply value_length_read; exact Hv|].
      assert (En' : n = zlen (ml ++ pl)) by (rewrite zlen_app; exact En). rewrite En'.
      eapply wp_seq.
      { apply read_n_run. rewrite n_octets_zlen, zlen_app in Hl.
        pose proof (zlen_nonneg vl). lia. }
      apply wp_lift. unfold decode_media_and_params.
      match goal with |- becomes _ _ (fst (?f _)) _ _ =>
        destruct (wp_fst _ f (ml ++ pl) (becomes (media, put L []) [])) as (x & l' & p' & Ex & -> & _) end.
      * eapply wp_seq; [apply media_read; [exact H|exact Hm]|].
        eapply wp_seq; [|wsteps; apply becomes_intro].
        apply wp_fuelled. apply Hw.
        assert (length ps <= length pl)%nat; [|lia]. eapply sequence_length; [|exact Hp].
        intros ? ? ? [X _]. eapply param_ne. exact X.
      * rewrite Ex. apply becomes_intro.
Qed.

(** * Fields *)

Lemma field_at : forall c name t v vb rest,
  128 <= c < 256 -> d_get Z.eqb (c - 128) mms_field_names = Some (name, t) ->
  wp (decode_mms_value t) (vb ++ rest) 0 (becomes v rest) ->
  wp decode_header ((c :: vb) ++ rest) 0 (becomes (name, v) rest).
Proof.
  intros c name t v vb rest Hc D H. cbn [app].
  replace c with (128 + (c - 128)) at 1 by lia. eapply mms_header_run; [lia|exact D|exact H].
Qed.

Lemma application_read : forall name t s l rest, Token_text name t -> Text_string s l ->
  wp decode_header ((t ++ l) ++ rest) 0 (becomes (name, HStr s) rest).
Proof.
  intros name t s l rest Ht Hs. destruct (token_text_head _ _ Ht) as (c & c' & r & E & Hc & Hc').
  rewrite <- app_assoc. unfold decode_header. apply wp_catch. unfold decode_mms_header.
  rewrite E. cbn [app]. wsteps. unfold decode_short_integer_from_byte.
  rewrite land_128 by lia. replace (c <? 128) with true by lia. cbn [exn_eqb].
  unfold wsp_decode_header. apply wp_refused_catch.
  - unfold decode_well_known_header. apply wp_bind.
    eapply wp_mono; [apply short_integer_second; lia|].
    intros r' l' p' (-> & -> & ->). repeat split.
  - unfold decode_application_header.
    change (c :: c' :: r ++ l ++ rest) with ((c :: c' :: r) ++ l ++ rest). rewrite <- E.
    eapply wp_seq; [apply wp_becomes_catch; apply token_text_read; exact Ht|].
    eapply wp_seq; [apply text_string_read; exact Hs|]. wsteps. apply becomes_intro.
Qed.

Lemma date_read : forall t l rest, Long_integer t l -> t <= last_second ->
  wp decode_date_value (l ++ rest) 0 (becomes t rest).
Proof.
  intros t l rest H Ht. unfold decode_date_value.
  eapply wp_seq; [apply long_integer_read; exact H|].
  unfold last_second in Ht. replace (t <=? 253402300799) with true by lia.
  wsteps. apply becomes_intro.
Qed.

Ltac each H := cbn [In] in H; repeat destruct H as [H|H]; try contradiction;
  injection H; clear H; intros; subst.

(** The same, and without the other way to read a header. *)
Lemma field_at_both : forall c name t v vb rest,
  128 <= c < 256 -> d_get Z.eqb (c - 128) mms_field_names = Some (name, t) ->
  wp (decode_mms_value t) (vb ++ rest) 0 (becomes v rest) ->
  wp decode_header ((c :: vb) ++ rest) 0 (becomes (name, v) rest) /\
  (128 <= hd 0 (c :: vb) -> wp decode_mms_header ((c :: vb) ++ rest) 0 (becomes (name, v) rest)).
Proof.
  intros c name t v vb rest Hc D H. split; [eapply field_at; eassumption|]. intros _. cbn [app].
  unfold decode_mms_header. wsteps. unfold decode_short_integer_from_byte.
  rewrite land_128 by lia. replace (c <? 128) with false by lia.
  rewrite land_127. replace (c mod 128) with (c - 128) by (Z.div_mod_to_equations; lia). rewrite D.
  wsteps. eapply wp_mono; [apply runtime_run; exact H|].
  intros r l' p' (-> & -> & ->). wsteps. apply becomes_intro.
Qed.

Lemma field_runs : forall name v l, Read_field name v l ->
  exists h, shows name v h /\
  forall rest, wp decode_header (l ++ rest) 0 (becomes (name, h) rest) /\
    (128 <= hd 0 l -> wp decode_mms_header (l ++ rest) 0 (becomes (name, h) rest)).
Proof.
  intros name v l [H N].
  destruct H as [name c s l Hn Hs|name c s l Hn Hs|t l Hl|name c b Hn|name c t l n vl Hn Hl Hv _
    |name c k l n vl Hn Hl Hv _|s l n vl Hs Hv _|vl Hv|name c table b s Hn Hs|s l Hs|s l Hs
    |n l Hl|name s l t Ht _ Hs].
  - exists (HStr s). split; [reflexivity|]. intros rest.
    assert (Hl : l <> [0]).
    { intros ->. apply N. apply mf_empty. each Hn; cbn; tauto. }
    eapply field_at_both with (t := MEncodedString).
    + each Hn; lia.
    + each Hn; reflexivity.
    + cbn [decode_mms_value]. apply wp_map_becomes. apply encoded_string_read; assumption.
  - exists (HStr s). split; [reflexivity|]. intros rest.
    each Hn; eapply field_at_both; [lia|reflexivity| |lia|reflexivity| |lia|reflexivity|];
      cbn [decode_mms_value]; apply wp_map_becomes; apply text_string_read; exact Hs.
  - exists (HDate t). split; [reflexivity|]. intros rest.
    eapply field_at_both with (t := MDate); [lia|reflexivity|].
    cbn [decode_mms_value]. apply (wp_map_becomes _ _ _ HDate). apply date_read; [exact Hl|].
    destruct (Z.leb_spec t last_second) as [|X]; [assumption|].
    exfalso. apply N. apply mf_late; [exact X|vm_compute; discriminate].
  - exists (HBool b). split; [reflexivity|]. intros rest.
    eapply field_at_both with (t := MBoolean) (vb := [if b then 128 else 129]).
    + each Hn; lia.
    + each Hn; reflexivity.
    + cbn [decode_mms_value]. apply wp_map_becomes. unfold decode_boolean_value. cbn [app].
      destruct b; wsteps; cbn; wsteps; apply becomes_intro.
  - exists (if leqb name (str "Delivery-Time") then HTime (str "absolute") t else HDate t).
    split; [reflexivity|]. intros rest. each Hn.
    + eapply field_at_both with (t := MDeliveryTime); [lia|reflexivity|].
      cbn [decode_mms_value]. rewrite <- app_assoc. eapply wp_seq.
      * unfold decode_delivery_time_value.
        eapply wp_seq; [apply value_length_read; exact Hv|]. cbn [app]. wsteps.
        eapply wp_mono; [apply long_integer_read; exact Hl|].
        intros r l' p (-> & -> & ->). cbn [Z.eqb Pos.eqb]. wsteps. apply becomes_intro.
      * cbv beta iota. wsteps. apply becomes_intro.
    + eapply field_at_both with (t := MExpiry); [lia|reflexivity|].
      cbn [decode_mms_value]. rewrite <- app_assoc. apply (wp_map_becomes _ _ _ HP _ _ (PDate t)).
      unfold decode_expiry_value.
      eapply wp_seq; [apply value_length_read; exact Hv|]. cbn [app]. wsteps.
      cbn [Z.eqb Pos.eqb]. apply wp_map_becomes. apply date_read; [exact Hl|].
      destruct (Z.leb_spec t last_second) as [|X]; [assumption|].
      exfalso. apply N. apply mf_late; [exact X|vm_compute; discriminate].
  - exists (if leqb name (str "Delivery-Time") then HTime (str "relative") k else HInt k).
    split; [reflexivity|]. intros rest. each Hn.
    + destruct Hl as [k l Hl|k l Hl].
      { exfalso. apply N. destruct Hl as [k Hk]. apply mf_delivery with n; assumption. }
      eapply field_at_both with (t := MDeliveryTime); [lia|reflexivity|].
      cbn [decode_mms_value]. rewrite <- app_assoc. eapply wp_seq.
      * unfold decode_delivery_time_value.
        eapply wp_seq; [apply value_length_read; exact Hv|]. cbn [app]. wsteps.
        eapply wp_mono; [apply long_integer_read; exact Hl|].
        intros r l' p (-> & -> & ->). cbn [Z.eqb Pos.eqb]. wsteps. apply becomes_intro.
      * cbv beta iota. wsteps. apply becomes_intro.
    + eapply field_at_both with (t := MExpiry); [lia|reflexivity|].
      cbn [decode_mms_value]. rewrite <- app_assoc. apply (wp_map_becomes _ _ _ HP _ _ (PInt k)).
      unfold decode_expiry_value.
      eapply wp_seq; [apply value_length_read; exact Hv|]. cbn [app]. wsteps.
      cbn [Z.eqb Pos.eqb]. apply wp_map_becomes. apply integer_value_read. exact Hl.
  - exists (HStr s). split; [reflexivity|]. intros rest.
    eapply field_at_both with (t := MFrom); [lia|reflexivity|].
    cbn [decode_mms_value]. apply wp_map_becomes. rewrite <- app_assoc. unfold decode_from_value.
    eapply wp_seq; [apply value_length_read; exact Hv|]. cbn [app]. wsteps.
    cbn [Z.eqb Pos.eqb]. apply encoded_string_read; [exact Hs|].
    intros ->. apply N. apply mf_empty_from with n. exact Hv.
  - exists (HStr (str "<not inserted>")). split; [reflexivity|]. intros rest.
    eapply field_at_both with (t := MFrom); [lia|reflexivity|].
    cbn [decode_mms_value]. apply wp_map_becomes. rewrite <- app_assoc. unfold decode_from_value.
    eapply wp_seq; [apply value_length_read; exact Hv|]. cbn [app]. wsteps.
    cbn [Z.eqb Pos.eqb]. wsteps. apply becomes_intro.
  - exists (HStr s). split; [reflexivity|]. intros rest.
    cbn [In] in Hn. repeat destruct Hn as [Hn|Hn]; try contradiction;
      injection Hn; clear Hn; intros <- <- <-; each Hs;
      (eapply field_at_both with (vb := [_]); [lia|reflexivity|]);
      cbn [decode_mms_value app];
      unfold decode_message_class_value, decode_message_type_value, decode_priority_value,
        decode_response_status_value, decode_sender_visibility_value, decode_status_value;
      apply wp_bind; wsteps; cbn; wsteps; apply becomes_intro.
  - exists (HStr s). split; [reflexivity|]. intros rest.
    eapply field_at_both with (t := MMessageClass); [lia|reflexivity|].
    cbn [decode_mms_value]. apply wp_map_becomes. unfold decode_message_class_value.
    destruct (token_text_head _ _ Hs) as (c & c' & r & E & Hc & _). rewrite E. cbn [app]. wsteps.
    assert (D : d_get Z.eqb c class_identifiers = None).
    { apply d_get_None; [apply Z.eqb_eq|]. cbn [class_identifiers map fst In]. lia. }
    rewrite D. wsteps. change (c :: c' :: r ++ rest) with ((c :: c' :: r) ++ rest).
    rewrite <- E. apply token_text_read. exact Hs.
  - exists (HStr s). split; [reflexivity|]. intros rest.
    eapply field_at_both with (t := MVersion); [lia|reflexivity|].
    cbn [decode_mms_value]. apply wp_map_becomes. apply version_read; [exact Hs|].
    intros (M & HM & ->). apply N. apply mf_major. exact HM.
  - exists (HInt n). split; [reflexivity|]. intros rest.
    eapply field_at_both with (t := MLong); [lia|reflexivity|].
    cbn [decode_mms_value]. apply wp_map_becomes. apply long_integer_read. exact Hl.
  - exists (HStr s). split; [reflexivity|]. intros rest.
    split; [apply application_read; assumption|]. intros X. exfalso.
    destruct (token_text_head _ _ Ht) as (c & c' & r & E & Hc & _). rewrite E in X. cbn in X. lia.
Qed.

Lemma field_read : forall name v l, Read_field name v l ->
  exists h, shows name v h /\
  forall rest, wp decode_header (l ++ rest) 0 (becomes (name, h) rest).
Proof.
  intros name v l H. destruct (field_runs name v l H) as (h & Hh & Hw). exists h. split; [exact Hh|].
  intros rest. apply Hw.
Qed.

(** * What is misread *)

Definition fails {A} : res A -> list Z -> nat -> Prop := fun r _ _ => exists e, r = Err e.

Lemma decodes_result : forall A (m : ST piter A) l v Q,
  Decodes m l v -> wp m l 0 Q -> exists l' p', Q (Ok v) l' p'.
Proof.
  intros A m l v Q HD HW. destruct (HW (new_iter l)) as (r & it' & l' & p' & E & _ & HQ).
  - apply R_new.
  - destruct (HD [] (new_iter l)) as (it2 & E2 & _); [rewrite app_nil_r; reflexivity|reflexivity|].
    rewrite E in E2. injection E2; intros _ ->. eauto.
Qed.

Lemma runtime_fails : forall n name t vb,
  0 <= n < 128 -> d_get Z.eqb n mms_field_names = Some (name, t) ->
  wp (decode_mms_value t) vb 0 (fun r _ _ => exists e, r = Err e /\ e <> DecodeError) ->
  wp decode_header ((128 + n) :: vb) 0 fails.
Proof.
  intros n name t vb Hn D H. unfold decode_header. apply wp_catch. unfold decode_mms_header.
  wsteps. unfold decode_short_integer_from_byte.
  rewrite land_128 by lia. replace (128 + n <? 128) with false by lia.
  rewrite land_127. replace ((128 + n) mod 128) with n by (Z.div_mod_to_equations; lia). rewrite D.
  wsteps.
  eapply wp_then with (m := decode_mms_value t)
    (j := fun r => match r with
                   | Ok a => st_ret a
                   | Err DecodeError => st_err DecodeError
                   | Err OutOfFuel => st_err OutOfFuel
                   | Err _ => st_err RuntimeError
                   end).
  - intros it. unfold as_runtime_error. destruct (decode_mms_value t it) as [[a|e] it']; [reflexivity|].
    destruct e; reflexivity.
  - eapply wp_mono; [exact H|]. intros r l p (e & -> & He).
    destruct e; try congruence; wsteps; eexists; reflexivity.
Qed.

Lemma empty_encoded : wp decode_encoded_string_value [0] 0
  (fun r _ _ => exists e, r = Err e /\ e <> DecodeError).
Proof.
  unfold decode_encoded_string_value. apply wp_catch.
  eapply wp_seq; [apply (value_length_read 0 [0] []); constructor; lia|].
  unfold decode_well_known_charset. wsteps. eexists. split; [reflexivity|discriminate].
Qed.

Lemma wp_bind_fails : forall A B (m : ST piter A) (k : A -> ST piter B) l p,
  wp m l p (fun r _ _ => exists e, r = Err e /\ e <> DecodeError) ->
  wp (st_bind m k) l p (fun r _ _ => exists e, r = Err e /\ e <> DecodeError).
Proof.
  intros A B m k l p H. apply wp_bind. eapply wp_mono; [exact H|].
  intros r l' p' (e & -> & He). exists e. auto.
Qed.

Lemma late_date : forall t l, Long_integer t l -> last_second < t ->
  wp decode_date_value l 0 (fun r _ _ => exists e, r = Err e /\ e <> DecodeError).
Proof.
  intros t l H Ht. unfold decode_date_value. rewrite <- (app_nil_r l).
  eapply wp_seq; [apply long_integer_read; exact H|].
  unfold last_second in Ht. replace (t <=? 253402300799) with false by lia.
  wsteps. eexists. split; [reflexivity|discriminate].
Qed.

(** Nothing follows the number of a header. *)
Lemma header_without_value : forall b, 128 <= b < 256 -> wp wsp_decode_header [b] 0 fails.
Proof.
  intros b Hb. unfold wsp_decode_header. apply wp_catch. unfold decode_well_known_header.
  eapply wp_seq; [apply (decode_short_integer_run b []); exact Hb|].
  rewrite header_names_12. wsteps.
  destruct (nth_error (firstn 56 header_field_names) (Z.to_nat (b - 128))) as [name|].
  - apply wp_bind. destruct (header_field_encoding name).
    + apply wp_bind. unfold decode_accept_value. apply wp_catch.
      unfold decode_constrained_media, decode_constrained_encoding. apply wp_bind, wp_catch, wp_bind.
      unfold decode_short_integer. wsteps. eexists. reflexivity.
    + apply wp_bind. unfold decode_pragma_value. wsteps. eexists. reflexivity.
    + apply wp_bind. unfold decode_text_string. wsteps. eexists. reflexivity.
  - wsteps. unfold decode_application_header. apply wp_bind, wp_catch.
    unfold decode_token_text. wsteps. eexists. reflexivity.
Qed.

Lemma field_misread : forall name v l h, Field name v l -> misread_field name v l ->
  shows name v h -> ~ Decodes decode_header l (name, h).
Proof.
  intros name v l h HF HM Hs HD.
  destruct HM as [name v c Hc|name v n vl Hv|name v M HM|name t l Ht Hn|name v n vl k Hv Hk].
  - assert (W : wp decode_header [c; 0] 0 fails).
    { cbn [In] in Hc; repeat destruct Hc as [Hc|Hc]; try contradiction; subst c; [change 129 with (128 + 1)|change 130 with (128 + 2)|change 147 with (128 + 19)
               |change 150 with (128 + 22)|change 151 with (128 + 23)];
      (eapply runtime_fails; [lia|reflexivity|]);
      cbn [decode_mms_value]; apply wp_bind_fails; apply empty_encoded. }
    destruct (decodes_result _ _ _ _ _ HD W) as (? & ? & e & X). discriminate.
  - assert (W : wp decode_header (137 :: vl ++ [128; 0]) 0 fails).
    { change 137 with (128 + 9). eapply runtime_fails; [lia|reflexivity|].
      cbn [decode_mms_value]. apply wp_bind_fails. unfold decode_from_value.
      eapply wp_seq; [apply value_length_read; exact Hv|]. wsteps. cbn [Z.eqb Pos.eqb].
      apply empty_encoded. }
    destruct (decodes_result _ _ _ _ _ HD W) as (? & ? & e & X). discriminate.
  - assert (Hx : name = str "MMS-Version" /\ v = Text (small_dec M)).
    { remember [141; 128 + M * 16 + 15] as l eqn:El.
      destruct HF as [name c s l Hn _|name c s l Hn _|t l _|name c b Hn|name c t l n vl Hn _ _ _
        |name c k l n vl Hn _ _ _|s l n vl _ _ _|vl _|name c table b s Hn _|s l _|s l Hv
        |n l _|name s l t Ht _ _]; try discriminate El;
      try (exfalso; each Hn; discriminate El).
      - apply (f_equal (@tl Z)) in El. cbn [tl] in El. clear - El Hv HM.
        destruct Hv as [M' m HM' Hm|M' HM'|s l Hv].
        + apply (f_equal (hd 0)) in El. cbn [hd] in El. lia.
        + apply (f_equal (hd 0)) in El. cbn [hd] in El. assert (M' = M) by lia. subst M'. auto.
        + exfalso. destruct (text_string_head _ _ Hv) as (b & r & -> & Hb).
          apply (f_equal (hd 0)) in El. cbn [hd] in El. lia.
      - exfalso. destruct (token_text_head _ _ Ht) as (c & c' & r & -> & Hc & _).
        apply (f_equal (hd 0)) in El. cbn [hd app] in El. lia. }
    destruct Hx as (-> & ->). cbn [shows] in Hs. subst h.
    assert (W : wp decode_header ([141; 128 + M * 16 + 15] ++ []) 0
                  (becomes (str "MMS-Version", HStr (small_dec M ++ [46] ++ small_dec 15)) [])).
    { eapply field_at with (t := MVersion); [lia|reflexivity|].
      cbn [decode_mms_value app]. apply wp_map_becomes. apply version_octet; lia. }
    destruct (decodes_result _ _ _ _ _ HD W) as (? & ? & X & _).
    injection X as X. unfold small_dec in X at 1 2. replace (M <? 10) with true in X by lia. discriminate.
  - assert (W : wp decode_header l 0 fails).
    { remember (At t) as v eqn:Ev.
      destruct HF as [name c s l _ _|name c s l _ _|t' l Hl|name c b _|name c t' l n vl Hc Hl Hv _
        |name c k l n vl _ _ _ _|s l n vl _ _ _|vl _|name c table b s _ _|s l _|s l _
        |n l _|name s l t' _ _ _]; try discriminate Ev; injection Ev as ->.
      - change 133 with (128 + 5). eapply runtime_fails; [lia|reflexivity|].
        cbn [decode_mms_value]. apply wp_bind_fails. eapply late_date; eauto.
      - each Hc; [congruence|]. change 136 with (128 + 8). eapply runtime_fails; [lia|reflexivity|].
        cbn [decode_mms_value]. apply wp_bind_fails. unfold decode_expiry_value.
        eapply wp_seq; [apply value_length_read; exact Hv|]. wsteps. cbn [Z.eqb Pos.eqb].
        apply wp_bind_fails. eapply late_date; eauto. }
    destruct (decodes_result _ _ _ _ _ HD W) as (? & ? & e & X). discriminate.
  - assert (W : wp decode_header (135 :: vl ++ [129; 128 + k]) 0 fails).
    { unfold decode_header. apply wp_catch. unfold decode_mms_header. wsteps.
      change (decode_short_integer_from_byte 135) with (@Ok Z 7). wsteps.
      change (d_get Z.eqb 7 mms_field_names) with (Some (str "Delivery-Time", MDeliveryTime)).
      wsteps.
      eapply wp_then with (m := decode_mms_value MDeliveryTime)
        (j := fun r => match r with
                       | Ok a => st_ret a
                       | Err DecodeError => st_err DecodeError
                       | Err OutOfFuel => st_err OutOfFuel
                       | Err _ => st_err RuntimeError
                       end).
      - intros it. unfold as_runtime_error.
        destruct (decode_mms_value MDeliveryTime it) as [[a|e] it']; [reflexivity|].
        destruct e; reflexivity.
      - cbn [decode_mms_value]. apply wp_bind. unfold decode_delivery_time_value.
        eapply wp_seq; [apply value_length_read; exact Hv|]. wsteps.
        unfold decode_long_integer. apply wp_bind.
        eapply wp_mono; [apply decode_short_length_refuses; lia|].
        intros r l p (-> & -> & ->). wsteps. apply header_without_value. lia. }
    destruct (decodes_result _ _ _ _ _ HD W) as (? & ? & e & X). discriminate.
Qed.

(** * Headers in a row *)

Lemma field_ne : forall name v l, Field name v l -> l <> [].
Proof.
  intros name v l H. destruct H; try discriminate.
  match goal with T : Token_text _ _ |- _ =>
    destruct (token_text_head _ _ T) as (c & c' & r & -> & _) end. discriminate.
Qed.

Lemma field_name : forall name v l, Field name v l -> name <> str "Content-Type".
Proof.
  intros name v l H. destruct H as [name c s l Hn _|name c s l Hn _|t l _|name c b Hn
    |name c t l n vl Hn _ _ _|name c k l n vl Hn _ _ _|s l n vl _ _ _|vl _|name c table b s Hn _|s l _|s l Hv
    |n l _|name s l t Ht Hn _]; try exact Hn; try (vm_compute; discriminate);
    try (each Hn; vm_compute; discriminate).
Qed.

Definition after_header (f : nat) (d : list (list Z * hval)) (r : res (list Z * hval))
  : ST piter (list (list Z * hval)) :=
  match r with
  | Ok (h, v) => if leqb h (str "Content-Type") then st_ret (d_set leqb h v d)
                 else header_loop f (d_set leqb h v d)
  | Err StopIteration => st_ret d
  | Err e => st_err e
  end.

Lemma header_step : forall f d l p Q,
  wp decode_header l p (fun r l1 p1 => wp (after_header f d r) l1 p1 Q) ->
  wp (header_loop (S f) d) l p Q.
Proof.
  intros f d l p Q H. eapply wp_then with (j := after_header f d); [|exact H].
  intros it. cbn [header_loop]. destruct (decode_header it) as [[[h x]|x] it'].
  - cbn [fst snd after_header]. destruct (leqb h (str "Content-Type")); reflexivity.
  - destruct x; reflexivity.
Qed.

Lemma fields_read : forall fs l, Sequence Read_field fs l ->
  exists L, pairs shows fs L /\
  forall f d rest Q, wp (header_loop f (put L d)) rest 0 Q ->
    wp (header_loop (length fs + f) d) (l ++ rest) 0 Q.
Proof.
  intros fs l H. induction H as [|name v l fs r H _ (L & HL & IH)].
  - exists []. split; [constructor|]. intros f d rest Q HQ. exact HQ.
  - destruct (field_read _ _ _ H) as (h & Hh & Hw). exists ((name, h) :: L).
    split; [constructor; auto|]. intros f d rest Q HQ. cbn [length plus].
    apply header_step. rewrite <- app_assoc.
    eapply wp_mono; [apply Hw|]. intros x l' p' (-> & -> & ->).
    cbn [after_header]. destruct (leqb name (str "Content-Type")) eqn:E.
    + apply leqb_eq in E. destruct H as [H _]. apply field_name in H. contradiction.
    + apply IH. exact HQ.
Qed.

Lemma body_at_end : wp decode_message_body [] 0 (becomes [] []).
Proof.
  eapply wp_then with (m := decode_uint_var)
    (j := fun r => match r with
                   | Err StopIteration => st_ret []
                   | Err e => st_err e
                   | Ok n => _ <~ xrange_check n ;; fuelled (fun f => parts_loop f n)
                   end).
  - intros it. unfold decode_message_body.
    destruct (decode_uint_var it) as [[n|e] it']; [reflexivity|destruct e; reflexivity].
  - unfold decode_uint_var. wsteps. apply becomes_intro.
Qed.

Lemma bare_read : forall fs l, Sequence Read_field fs l ->
  exists m, decode_data l = Ok m /\ shows_message fs [] m.
Proof.
  intros fs l H. destruct (fields_read fs l H) as (L & HL & Hw).
  exists (Message (put L default_headers) [] [] 176 220). split.
  - unfold decode_data.
    match goal with |- fst (?m _) = _ =>
      destruct (wp_fst _ m l (becomes (Message (put L default_headers) [] [] 176 220) []))
        as (r & l' & p' & E & -> & _) end; [|exact E].
    eapply wp_seq with (v := put L default_headers) (rest := []).
    + unfold decode_message_header. apply wp_fuelled.
      assert (Hl : (length fs <= length l)%nat).
      { eapply sequence_length; [|exact H]. intros ? ? ? [X _]. eapply field_ne. exact X. }
      replace (S (length l)) with (length fs + S (length l - length fs))%nat by lia.
      rewrite <- (app_nil_r l) at 2. apply Hw.
      apply header_step.
      eapply wp_mono; [apply decode_header_end|]. intros r l' p (-> & -> & ->).
      cbn [after_header]. wsteps. apply becomes_intro.
    + eapply wp_seq; [apply body_at_end|]. wsteps. apply becomes_intro.
  - split; [|split; [constructor|reflexivity]]. exact (put_shows _ _ _ _ _ default_headers HL).
Qed.

(** * Parts *)

Lemma part_header_ne : forall name s l, Part_header name s l -> l <> [].
Proof.
  intros name v l H. destruct H; try discriminate.
  match goal with T : Token_text _ _ |- _ =>
    destruct (token_text_head _ _ T) as (c & c' & r & -> & _) end. discriminate.
Qed.

Lemma numbered_header_read : forall i name s l rest,
  25 <= i < 56 -> nth_error (firstn 56 header_field_names) (Z.to_nat i) = Some name ->
  header_field_encoding name = OtherValue -> Text_string s l ->
  wp decode_header (((128 + i) :: l) ++ rest) 0 (becomes (name, HStr s) rest).
Proof.
  intros i name s l rest Hi En He Hs. unfold decode_header. cbn [app]. apply wp_refused_catch.
  - unfold decode_mms_header. wsteps. unfold decode_short_integer_from_byte.
    rewrite land_128 by lia. replace (128 + i <? 128) with false by lia.
    rewrite land_127. replace ((128 + i) mod 128) with i by (Z.div_mod_to_equations; lia).
    assert (D : d_get Z.eqb i mms_field_names = None).
    { apply d_get_None; [apply Z.eqb_eq|]. cbn [mms_field_names map fst In]. lia. }
    rewrite D. wsteps. repeat split.
  - unfold wsp_decode_header. apply wp_becomes_catch. unfold decode_well_known_header.
    eapply wp_seq; [apply decode_short_integer_run; lia|].
    rewrite header_names_12. replace (128 + i - 128) with i by lia.
    wsteps. rewrite En, He. eapply wp_seq; [apply wp_map_becomes; apply text_string_read; exact Hs|].
    wsteps. apply becomes_intro.
Qed.

Lemma part_header_read : forall name s l rest, Read_part_header name s l ->
  wp decode_header (l ++ rest) 0 (becomes (name, HStr s) rest).
Proof.
  intros name s l rest [H N]. destruct H as [name c s l Hn Hs|s l Hs|name s l t Ht _ Hs].
  - each Hn; try (exfalso; apply N; cbn; lia);
    match goal with |- wp decode_header ((?c :: _) ++ _) _ _ =>
      change c with (128 + (c - 128)) end;
    (apply numbered_header_read; [lia|reflexivity|reflexivity|exact Hs]).
  - exfalso. apply N. cbn. lia.
  - apply application_read; assumption.
Qed.

Lemma part_headers_read : forall hs l, Sequence Read_part_header hs l ->
  forall fuel d, (length hs < fuel)%nat ->
    wp (part_header_loop fuel d) l 0
       (becomes (put (map (fun h => (fst h, HStr (snd h))) hs) d) []).
Proof.
  intros hs l H. induction H as [|name s l hs r H _ IH]; intros fuel d Hf;
    (destruct fuel as [|f]; [cbn in Hf; lia|]); cbn [part_header_loop];
    (eapply wp_then with (m := decode_header)
      (j := fun r => match r with
                     | Ok (h, v) => part_header_loop f (d_set leqb h v d)
                     | Err StopIteration => st_ret d
                     | Err e => st_err e
                     end);
     [intros it; destruct (decode_header it) as [[[h x]|x] it']; [|destruct x]; reflexivity|]).
  - eapply wp_mono; [apply decode_header_end|]. intros r l p (-> & -> & ->). wsteps.
    apply becomes_intro.
  - eapply wp_mono; [apply part_header_read; exact H|].
    intros x l' p' (-> & -> & ->). apply IH. cbn in Hf. lia.
Qed.

Lemma entry_read : forall e l, Multipart_entry Read_type Read_part_header e l ->
  n_octets l <= maxint ->
  l <> [] /\ exists p, shows_part e p /\
  forall rest, wp decode_part (l ++ rest) 0 (becomes p rest).
Proof.
  intros e l H Hl. destruct H as [media ps hs data ct hl n nl k kl Hc Hh _ Hn En Hk Ek].
  split.
  { apply uintvar_ne in Hn. destruct nl; [congruence|discriminate]. }
  rewrite n_octets_zlen, !zlen_app in Hl.
  pose proof (zlen_nonneg nl). pose proof (zlen_nonneg kl). pose proof (zlen_nonneg ct).
  pose proof (zlen_nonneg hl). pose proof (zlen_nonneg data).
  destruct (content_type_read _ _ _ Hc) as (d & Hd & Hw); [rewrite n_octets_zlen; lia|].
  pose (D := put (map (fun h => (fst h, HStr (snd h))) hs) [(str "Content-Type", HType media d)]).
  exists (Part D d None (Some data)). split.
  - split; [reflexivity|]. split; [reflexivity|]. split; [exact Hd|].
    cbn [e_media e_params e_headers dp_headers].
    assert (HP : pairs shows
      ((str "Content-Type", Media_type media ps) :: map (fun h => (fst h, Text (snd h))) hs)
      ((str "Content-Type", HType media d) :: map (fun h => (fst h, HStr (snd h))) hs)).
    { constructor.
      - split; [reflexivity|]. exists d. auto.
      - clear. induction hs as [|[a b] hs IH]; constructor; [|exact IH]. split; reflexivity. }
    exact (put_shows _ _ _ _ _ [] HP).
  - intros rest. unfold decode_part. rewrite <- !app_assoc.
    eapply wp_seq; [apply uintvar_read; exact Hn|].
    eapply wp_seq; [apply uintvar_read; exact Hk|].
    assert (En' : n = zlen (ct ++ hl)) by (rewrite zlen_app; exact En).
    rewrite En'. rewrite app_assoc with (l := ct).
    eapply wp_seq; [apply read_n_run; rewrite zlen_app; lia|].
    assert (X : decode_part_headers (ct ++ hl) = Ok (d, D)).
    { unfold decode_part_headers.
      match goal with |- fst (?m _) = _ =>
        destruct (wp_fst _ m (ct ++ hl) (becomes (d, D) [])) as (r & l & p & E & -> & _) end;
        [|exact E].
      eapply wp_seq; [apply Hw|]. cbv beta iota.
      eapply wp_seq; [|wsteps; apply becomes_intro].
      apply wp_fuelled. apply part_headers_read; [exact Hh|].
      assert (length hs <= length hl)%nat; [|lia]. eapply sequence_length; [|exact Hh].
      intros ? ? ? [Y _]. eapply part_header_ne. exact Y. }
    rewrite X. wsteps.
    assert (Ek' : k = zlen data) by exact Ek. rewrite Ek'.
    eapply wp_mono; [apply read_n_run; lia|].
    intros r l' p' (-> & -> & ->). wsteps. apply becomes_intro.
Qed.

Lemma entries_read : forall es l, Entries (Multipart_entry Read_type Read_part_header) es l ->
  n_octets l <= maxint ->
  (length es <= length l)%nat /\ exists ps, Forall2 shows_part es ps /\
  forall fuel rest, (length es <= fuel)%nat ->
    wp (parts_loop fuel (Z.of_nat (length es))) (l ++ rest) 0 (becomes ps rest).
Proof.
  intros es l H. induction H as [|e l es r H _ IH]; intros Hl.
  - split; [cbn; lia|]. exists []. split; [constructor|]. intros fuel rest _.
    cbn [length Z.of_nat]. destruct fuel; cbn; apply wp_ret; apply becomes_intro.
  - rewrite n_octets_zlen, zlen_app in Hl. pose proof (zlen_nonneg l). pose proof (zlen_nonneg r).
    destruct (entry_read e l H) as (Hne & p & Hp & Hw); [rewrite n_octets_zlen; lia|].
    destruct IH as (Hlen & ps & Hps & IH); [rewrite n_octets_zlen; lia|].
    split; [rewrite app_length; destruct l; [congruence|cbn; lia]|].
    exists (p :: ps). split; [constructor; assumption|]. intros fuel rest Hf.
    cbn [length] in Hf |- *. destruct fuel as [|f]; [lia|]. cbn [parts_loop].
    replace (0 <? Z.of_nat (S (length es))) with true by lia.
    replace (Z.of_nat (S (length es)) - 1) with (Z.of_nat (length es)) by lia.
    rewrite <- app_assoc. eapply wp_seq; [apply Hw|].
    eapply wp_seq; [apply IH; lia|]. wsteps. apply becomes_intro.
Qed.

(** The header of a message, whatever follows it. *)
Lemma head_runs : forall fs fl media ps ct, Sequence Read_field fs fl -> Read_type media ps ct ->
  n_octets ct <= maxint -> exists D,
  shows_dict shows (fun k => d_get leqb k default_headers)
    (fs ++ [(str "Content-Type", Media_type media ps)]) D /\
  forall rest, wp decode_message_header (fl ++ (132 :: ct) ++ rest) 0 (becomes D rest).
Proof.
  intros fs fl media ps ct Hf Hc Hl.
  destruct (fields_read fs fl Hf) as (L & HL & Hw).
  destruct (content_type_read _ _ _ Hc Hl) as (d & Hd & Hcw).
  pose (D := put (L ++ [(str "Content-Type", HType media d)]) default_headers).
  exists D. split.
  - assert (HP : pairs shows (fs ++ [(str "Content-Type", Media_type media ps)])
                             (L ++ [(str "Content-Type", HType media d)])).
    { apply Forall2_app; [exact HL|]. constructor; [|constructor]. split; [reflexivity|].
      exists d. auto. }
    exact (put_shows _ _ _ _ _ default_headers HP).
  - intros rest. unfold decode_message_header. apply wp_fuelled.
    assert (Hlf : (length fs <= length fl)%nat).
    { eapply sequence_length; [|exact Hf]. intros ? ? ? [X _]. eapply field_ne. exact X. }
    assert (Hw1 : exists g, S (length (fl ++ (132%Z :: ct) ++ rest)) = (length fs + S g)%nat).
    { exists (length (fl ++ (132%Z :: ct) ++ rest) - length fs)%nat. rewrite app_length. lia. }
    destruct Hw1 as (g & ->). apply Hw.
    apply header_step.
    eapply wp_mono.
    + eapply field_at with (c := 132) (t := MContentType) (v := HType media d);
        [lia|reflexivity|]. cbn [decode_mms_value]. eapply wp_seq; [apply Hcw|].
      cbv beta iota. wsteps. apply becomes_intro.
    + intros r l' p (-> & -> & ->). cbn [after_header]. rewrite leqb_refl. wsteps.
      unfold D, put. rewrite fold_left_app. apply becomes_intro.
Qed.

Lemma message_runs : forall fs es l, Read_message fs es l -> n_octets l <= maxint ->
  exists m, wp (d <~ decode_message_header ;; ps <~ decode_message_body ;;
                st_ret (Message d [] ps 176 220)) l 0 (becomes m []) /\ shows_message fs es m.
Proof.
  intros fs es l H Hl.
  destruct H as [fs fl media ps ct n nl es el Hf Hc Hn En He].
  rewrite n_octets_zlen, !zlen_app in Hl.
  pose proof (zlen_nonneg fl). pose proof (zlen_nonneg nl). pose proof (zlen_nonneg ct).
  pose proof (zlen_nonneg el). rewrite zlen_cons in Hl.
  destruct (head_runs fs fl media ps ct Hf Hc) as (D & HD & Hw); [rewrite n_octets_zlen; lia|].
  destruct (entries_read _ _ He) as (Hlen & parts & Hps & Hew); [rewrite n_octets_zlen; lia|].
  exists (Message D [] parts 176 220). split.
  - eapply wp_seq with (v := D) (rest := nl ++ el); [apply Hw|].
    eapply wp_seq; [|wsteps; apply becomes_intro].
    eapply wp_then with (m := decode_uint_var)
      (j := fun r => match r with
                     | Err StopIteration => st_ret []
                     | Err e => st_err e
                     | Ok n => _ <~ xrange_check n ;; fuelled (fun f => parts_loop f n)
                     end).
    { intros it. unfold decode_message_body.
      destruct (decode_uint_var it) as [[x|e] it']; [reflexivity|destruct e; reflexivity]. }
    eapply wp_mono; [apply uintvar_read; exact Hn|]. intros r l p (-> & -> & ->).
    assert (Hx : n <= maxint) by (unfold zlen in *; lia).
    unfold xrange_check. replace (maxint <? n) with false by lia. wsteps.
    rewrite En. rewrite <- (app_nil_r el) at 2. apply Hew. lia.
  - split; [exact HD|split; [exact Hps|reflexivity]].
Qed.

Lemma message_read : forall fs es l, Read_message fs es l -> n_octets l <= maxint ->
  exists m, decode_data l = Ok m /\ shows_message fs es m.
Proof.
  intros fs es l H Hl. destruct (message_runs fs es l H Hl) as (m & Hw & Hs). exists m. split; [|exact Hs].
  destruct (wp_fst _ _ l _ Hw) as (r & l' & p' & E & -> & _). exact E.
Qed.
