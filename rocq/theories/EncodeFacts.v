(** Facts about what the encoders write. *)
From Coq Require Import Lia ZifyBool ZifyNat.
From Verif Require Import Py Iter Tables WspDec WspEnc Message MmsEnc MmsDec
  SpecWsp SpecVersion WspClaims PropVersion MmsClaims SpecMms GrammarClaims EncodeClaims PyFacts IterFacts WspFacts
  MmsTotal ContentFacts HeaderFacts DeliverFacts MsgHeaderFacts BodyFacts.
Open Scope Z_scope.

(** * Primitive values *)

Lemma ascii_text_string : forall s, ascii_text s -> Text_string s (encode_text_string s).
Proof.
  intros s [Hs Ha]. apply ts_plain.
  - split; [exact Hs|]. destruct Ha as [->|Ha]; [left; reflexivity|right].
    destruct s; cbn in *; lia.
  - destruct Ha as [->|Ha]; [exact (fun H => H)|]. destruct s; cbn in *; lia.
Qed.

Lemma n_octets_zlen : forall l, n_octets l = zlen l.
Proof. reflexivity. Qed.

Lemma uint_var_grammar : forall n, 0 <= n -> Uintvar n (encode_uint_var n).
Proof.
  intros n H. destruct (encode_uint_var_spec n H) as (ds & d & -> & Hds & Hd & _ & <-).
  constructor; assumption.
Qed.

Lemma value_length_grammar : forall n, 0 <= n -> Value_length n (encode_value_length n).
Proof.
  intros n H. unfold encode_value_length, encode_short_length.
  destruct ((n <? 0) || (30 <? n)) eqn:E.
  - constructor. apply uint_var_grammar. exact H.
  - constructor. lia.
Qed.

Lemma uint_var_octets : forall n, 0 <= n -> Forall is_octet (encode_uint_var n).
Proof.
  intros n H. destruct (encode_uint_var_spec n H) as (ds & d & -> & Hds & Hd & _).
  unfold uintvar_octets, digit128 in *. apply Forall_app. split.
  - apply Forall_map. eapply Forall_impl; [|exact Hds]. unfold is_octet; cbv beta; lia.
  - constructor; [unfold is_octet; lia|constructor].
Qed.

Lemma token_token_string : forall s, token s -> token_string s.
Proof.
  intros s [Hn H]. split; [exact Hn|]. eapply Forall_impl; [|exact H].
  intros c (Hc & Hs). split; [lia|]. intros X. cbn in X.
  assert (In c rfc_separators \/ c = 11) as [Y|Y]; [|tauto|lia].
  cbn. destruct X as [X|X]; [right; congruence|left].
  repeat (destruct X as [X|X]; [subst c; tauto|]). destruct X.
Qed.

(** * Fields *)

(** [bytes] is what encoding the header gives, and it is a field that means the
    header. *)
Definition field_run (e : list Z * hval) (b : list Z) : Prop :=
  mms_encode_header (fst e) (snd e) = Ok (ints b) /\ Forall is_octet b /\
  leqb (fst e) (str "Content-Type") = false /\
  exists v, Field (fst e) v b /\ shows (fst e) v (snd e).

Lemma field_run_mms : forall n name t h vb v,
  0 <= n < 128 -> find_field name = Some (n, (name, t)) ->
  encode_mms_value t h = Ok (ints vb) -> Forall is_octet vb ->
  leqb name (str "Content-Type") = false ->
  Field name v ((128 + n) :: vb) -> shows name v h -> field_run (name, h) ((128 + n) :: vb).
Proof.
  intros n name t h vb v Hn F E Ho C HF HS. unfold field_run. cbn [fst snd].
  split; [|split; [|split; [exact C|exists v; auto]]].
  - unfold mms_encode_header. rewrite F, encode_short_integer_ok by lia. cbn [bind].
    rewrite E. reflexivity.
  - constructor; [unfold is_octet; lia|exact Ho].
Qed.

Lemma small_dec_py : forall n, 0 <= n <= 14 -> small_dec n = py_dec n.
Proof.
  intros n H.
  assert (X : forallb (fun k => leqb (small_dec (Z.of_nat k)) (py_dec (Z.of_nat k))) (seq 0 15) = true)
    by (vm_compute; reflexivity).
  rewrite forallb_forall in X. specialize (X (Z.to_nat n) ltac:(apply in_seq; lia)).
  rewrite Z2Nat.id in X by lia. apply leqb_eq in X. exact X.
Qed.

Lemma standard_run : forall name h, standard name h -> exists b, field_run (name, h) b.
Proof.
  intros name h H.
  destruct H as [name s Hn Hs|s Hs He|b s Hs|M m HM Hm|M HM|s HO Hs|b s Hs|ds Ho Hne Hm Hr Hx|name s Ht Hm Hs].
  - pose proof (ascii_text_string s Hs) as HT.
    pose proof (no_nul_octets s (proj1 Hs)) as Ho.
    cbn [In] in Hn. destruct Hn as [<-|[<-|[<-|[<-|[<-|[<-|[<-|[]]]]]]]];
      [set (n := 23)|set (n := 2)|set (n := 1)|set (n := 22)|set (n := 19)|set (n := 11)|set (n := 24)];
      exists ((128 + n) :: encode_text_string s);
      (eapply field_run_mms with (v := Text s);
       [unfold n; lia|vm_compute; reflexivity|reflexivity|exact Ho|vm_compute; reflexivity| |reflexivity]);
      first [apply f_encoded; [cbn; tauto|apply es_plain; exact HT]
            |apply f_text; [cbn; tauto|exact HT]].
  - pose proof (ascii_text_string s Hs) as HT.
    pose proof (no_nul_octets s (proj1 Hs)) as Ho.
    pose proof (zlen_nonneg (encode_text_string s)) as Hz.
    eexists. eapply field_run_mms with (n := 9) (t := MFrom) (v := Text s)
      (vb := encode_value_length (zlen (encode_text_string s) + 1) ++ 128 :: encode_text_string s);
      [lia|vm_compute; reflexivity| | |vm_compute; reflexivity| |reflexivity].
    + cbn [encode_mms_value encode_from_value HStr]. destruct s as [|c s]; [congruence|]. reflexivity.
    + apply Forall_app. split; [apply value_length_octets; lia|].
      constructor; [unfold is_octet; lia|exact Ho].
    + change (128 + 9) with 137.
      apply f_from with (n := zlen (encode_text_string s) + 1);
        [apply es_plain; exact HT|apply value_length_grammar; lia|unfold n_octets, zlen; lia].
  - assert (X : exists k, 128 <= k < 256 /\ In (k, s) message_type_names /\
                encode_message_type_value (HStr s) = Ok [k]).
    { exists b. cbn [In message_type_names] in Hs.
      repeat (destruct Hs as [Hs|Hs];
        [apply pair_equal_spec in Hs; destruct Hs as (<- & <-);
         split; [lia|split; [cbn [In message_type_names]; tauto|vm_compute; reflexivity]]|]).
      destruct Hs. }
    destruct X as (k & Hk & Hin & E). exists ((128 + 12) :: [k]).
    apply field_run_mms with (t := MMessageType) (v := Text s);
      [lia|vm_compute; reflexivity|cbn [encode_mms_value]; rewrite E; reflexivity
      |constructor; [unfold is_octet; lia|constructor]|vm_compute; reflexivity| |reflexivity].
    eapply f_code; [|exact Hin]. cbn. tauto.
  - exists ((128 + 13) :: [128 + M * 16 + m]).
    apply field_run_mms with (t := MVersion) (v := Text (small_dec M ++ [46] ++ small_dec m));
      [lia|vm_compute; reflexivity| |constructor; [unfold is_octet; lia|constructor]
      |vm_compute; reflexivity| |reflexivity].
    + cbn [encode_mms_value encode_version_value_h encode_version_value_p HStr].
      rewrite !small_dec_py by lia. change [46] with (str ".").
      rewrite (proj1 (version_case M m HM Hm)). reflexivity.
    + apply f_version. apply vv_minor; assumption.
  - exists ((128 + 13) :: [128 + M * 16 + 15]).
    apply field_run_mms with (t := MVersion) (v := Text (small_dec M));
      [lia|vm_compute; reflexivity| |constructor; [unfold is_octet; lia|constructor]
      |vm_compute; reflexivity| |reflexivity].
    + cbn [encode_mms_value encode_version_value_h encode_version_value_p HStr].
      replace (encode_version_value (small_dec M)) with [128 + M * 16 + 15]; [reflexivity|].
      symmetry. apply C47_exact. replace (128 + M * 16 + 15) with (128 + 16 * M + 15) by lia.
      apply sent_major. unfold small_dec. replace (M <? 10) with true by lia.
      split; [|split; [|exact HM]].
      * unfold dot_count. cbn [count_occ]. destruct (Z.eq_dec (48 + M) 46); [lia|reflexivity].
      * replace M with (48 + M - 48) at 1 by lia. apply plain_number. unfold digit. lia.
    + apply f_version. apply vv_major; assumption.
  - pose proof (ascii_text_string s Hs) as HT.
    pose proof (no_nul_octets s (proj1 Hs)) as Hoct.
    exists ((128 + 13) :: encode_text_string s).
    apply field_run_mms with (t := MVersion) (v := Text s);
      [lia|vm_compute; reflexivity| |exact Hoct|vm_compute; reflexivity| |reflexivity].
    + cbn [encode_mms_value encode_version_value_h encode_version_value_p HStr].
      replace (encode_version_value s) with (encode_text_string s); [reflexivity|].
      symmetry. apply C47_exact. apply sent_text. exact HO.
    + apply f_version. apply vv_text. exact HT.
  - assert (X : exists k, 128 <= k < 256 /\ In (k, s) status_names /\
                encode_status_value (HStr s) = Ok (ints [k])).
    { exists b. cbn [In status_names] in Hs.
      repeat (destruct Hs as [Hs|Hs];
        [apply pair_equal_spec in Hs; destruct Hs as (<- & <-);
         split; [lia|split; [cbn [In status_names]; tauto|vm_compute; reflexivity]]|]).
      destruct Hs. }
    destruct X as (k & Hk & Hin & E). exists ((128 + 21) :: [k]).
    apply field_run_mms with (t := MStatus) (v := Text s);
      [lia|vm_compute; reflexivity|cbn [encode_mms_value]; exact E
      |constructor; [unfold is_octet; lia|constructor]|vm_compute; reflexivity| |reflexivity].
    eapply f_code; [|exact Hin]. cbn. tauto.
  - pose proof (octets_short ds Ho Hm Hx) as Hl.
    assert (E : encode_long_integer (big_endian ds) = Ok (zlen ds :: ds)).
    { rewrite encode_long_integer_spec by auto. rewrite Hr. reflexivity. }
    exists ((128 + 14) :: zlen ds :: ds). pose proof (zlen_nonneg ds) as Hz.
    apply field_run_mms with (t := MLong) (v := Number (big_endian ds));
      [lia|vm_compute; reflexivity
      |cbn [encode_mms_value encode_long_integer_h HInt]; rewrite E; reflexivity
      |constructor; [unfold is_octet; lia|exact Ho]|vm_compute; reflexivity| |reflexivity].
    apply f_size. apply (long_integer ds); [exact Ho|]. destruct ds; [congruence|].
    unfold n_octets. unfold zlen in *. cbn [length] in *. lia.
  - pose proof (token_token_string name Ht) as Ht'.
    exists (encode_text_string name ++ encode_text_string s). unfold field_run. cbn [fst snd].
    split; [|split; [|split]].
    + unfold mms_encode_header. rewrite find_field_none by exact Hm.
      rewrite encode_token_text_spec, token_no_separator by apply (token_string_chars _ Ht').
      cbn [bind encode_text_string_h encode_text_string_p HStr]. unfold ints.
      rewrite (map_app EInt (encode_text_string name)). reflexivity.
    + apply Forall_app. split; [apply token_octets; exact Ht'|apply no_nul_octets; apply Hs].
    + destruct (leqb name (str "Content-Type")) eqn:E; [|reflexivity].
      apply leqb_eq in E. subst. exfalso. apply Hm. vm_compute. tauto.
    + exists (Text s). split; [|reflexivity]. apply f_application; [constructor; exact Ht| |].
      * intros ->. apply Hm. vm_compute. tauto.
      * apply ascii_text_string. exact Hs.
Qed.

(** * Content types *)

Definition media_agree : Prop :=
  forall i media, nth_error well_known_content_types i = Some media ->
    media <> str "multipart/byterantes" -> nth_error assigned_media i = Some media.

Lemma assigned_agree : media_agree.
Proof.
  intros i media H Hne.
  assert (Hi : (i < length well_known_content_types)%nat) by (apply nth_error_Some; congruence).
  assert (X : forallb (fun i => match nth_error well_known_content_types i, nth_error assigned_media i with
                       | Some a, Some b => leqb a b || leqb a (str "multipart/byterantes")
                       | _, _ => false end)
                (seq 0 (length well_known_content_types)) = true) by (vm_compute; reflexivity).
  rewrite forallb_forall in X. specialize (X i ltac:(apply in_seq; lia)).
  rewrite H in X. destruct (nth_error assigned_media i) as [b|]; [|discriminate].
  apply Bool.orb_true_iff in X. destruct X as [X|X]; apply leqb_eq in X; congruence.
Qed.

Lemma standard_media_run : forall media, standard_media media ->
  exists b, encode_content_type_value media [] = Ok (ints b) /\ Forall is_octet b /\
    Content_type media [] b.
Proof.
  intros media (Hs & Ha & Hb). unfold encode_content_type_value, encode_constrained_media.
  destruct (index_of media well_known_content_types) as [i|] eqn:E.
  - destruct (index_of_nth _ _ _ E) as [Hi En]. pose proof content_types_few as Hf.
    exists [128 + i]. unfold encode_constrained_encoding.
    replace (is_int i) with true by (unfold is_int, maxint; lia).
    rewrite encode_short_integer_ok by lia. split; [reflexivity|].
    split; [constructor; [unfold is_octet; lia|constructor]|].
    apply ct_number with (n := i); [|constructor; lia].
    split; [lia|]. apply assigned_agree; [|exact Hb]. rewrite <- En. apply nth_error_nth'.
    unfold zlen in Hi. lia.
  - exists (encode_text_string media). unfold encode_constrained_encoding, encode_extension_media.
    destruct media as [|c media]; [destruct Ha|]. cbn in Ha.
    replace ((c <? 32) || (c =? 127)) with false by lia. split; [reflexivity|].
    split; [apply no_nul_octets; exact Hs|]. apply ct_text. constructor; [exact Hs|exact Ha].
Qed.

(** * Message headers *)

Lemma encode_first_fields : forall ks m, is_dict (m_headers m) -> NoDup ks ->
  Forall (fun k => exists v b, h_get k (m_headers m) = Some v /\ field_run (k, v) b) ks ->
  exists L bss, map fst L = ks /\ Forall2 field_run L bss /\
    Forall (fun e => h_get (fst e) (m_headers m) = Some (snd e)) L /\
    encode_first ks m = (Ok (concat bss), with_headers (dels ks (m_headers m)) m).
Proof.
  induction ks as [|k ks IH]; intros m Hd Hn H.
  - exists [], []. repeat split; try constructor. destruct m; reflexivity.
  - destruct (Forall_inv H) as (v & b & E & Hr). apply Forall_inv_tail in H.
    pose (m1 := with_headers (d_del leqb k (m_headers m)) m).
    assert (Hk : ~ In k ks /\ NoDup ks) by (inversion Hn; auto). destruct Hk as (Hk & Hn').
    assert (G : forall k', In k' ks -> h_get k' (m_headers m1) = h_get k' (m_headers m)).
    { intros k' Hin. unfold m1. cbn [m_headers with_headers]. rewrite h_get_del by exact Hd.
      destruct (leqb k' k) eqn:E'; [|reflexivity]. apply leqb_eq in E'. subst. contradiction. }
    destruct (IH m1) as (L & bss & EL & HF & HL & EE).
    + apply is_dict_del. exact Hd.
    + exact Hn'.
    + apply Forall_forall. intros k' Hin. rewrite Forall_forall in H.
      destruct (H k' Hin) as (v' & b' & E' & Hr'). exists v', b'. rewrite G by exact Hin. auto.
    + exists ((k, v) :: L), (b :: bss). repeat split.
      * cbn. rewrite EL. reflexivity.
      * constructor; assumption.
      * constructor; [exact E|]. apply Forall_forall. intros e He. rewrite Forall_forall in HL.
        rewrite <- G by (rewrite <- EL; apply in_map; exact He). exact (HL e He).
      * cbn [encode_first]. unfold st_bind, st_get, st_lift, st_upd, st_ret.
        destruct Hr as (X & Ho & _). unfold encode_entry at 1. rewrite E. cbn [fst snd] in X.
        rewrite X. cbn [bind]. rewrite array_of_ints by exact Ho. fold m1. rewrite EE. reflexivity.
Qed.

Lemma encode_others_fields : forall w d,
  Forall (fun e => leqb (fst e) (str "Content-Type") = true \/ exists b, field_run e b)
         (w_order w d) ->
  exists bss, Forall2 field_run
      (filter (fun e => negb (leqb (fst e) (str "Content-Type"))) (w_order w d)) bss /\
    encode_others w d = Ok (concat bss).
Proof.
  intros w d. unfold encode_others. generalize (w_order w d) as l. clear d.
  induction l as [|e l IH]; intros H.
  - exists []. split; [constructor|reflexivity].
  - destruct (IH (Forall_inv_tail H)) as (bss & HF & E). cbn [mapM filter].
    destruct (mapM _ l) as [ls|] eqn:EM; [|discriminate]. cbn [bind] in E.
    assert (Ec : concat ls = concat bss) by congruence.
    destruct (Forall_inv H) as [C|(b & Hr)].
    + rewrite C. cbn [negb bind]. exists bss. split; [exact HF|]. cbn [concat app]. rewrite Ec. reflexivity.
    + pose proof Hr as (E1 & E2 & C & _). rewrite C. cbn [negb]. rewrite E1. cbn [bind].
      rewrite array_of_ints by exact E2. cbn [bind]. exists (b :: bss). split.
      * constructor; assumption.
      * cbn [concat]. rewrite Ec. reflexivity.
Qed.

(** Lists without repeated names. *)
Lemma last_value_In : forall V (fs : list (list Z * V)) k v, NoDup (map fst fs) ->
  (last_value k fs = Some v <-> In (k, v) fs).
Proof.
  intros V fs k v. induction fs as [|[k' v'] fs IH]; intros H.
  - cbn. split; [discriminate|tauto].
  - cbn [map fst] in H. apply NoDup_cons_iff in H. destruct H as [Hn H]. specialize (IH H).
    cbn [last_value In]. destruct (last_value k fs) as [x|] eqn:E.
    + split.
      * intros X. right. apply IH. exact X.
      * intros [X|X]; [|apply IH; exact X]. exfalso. apply Hn.
        apply (f_equal fst) in X. cbn in X. subst k'.
        clear - E. induction fs as [|[a b] fs IH]; [discriminate|]. cbn in *.
        destruct (last_value k fs); [right; apply IH; exact E|].
        destruct (list_eq_dec Z.eq_dec k a); [left; congruence|discriminate].
    + destruct (list_eq_dec Z.eq_dec k k') as [->|Hk].
      * split; [intros X; left; congruence|]. intros [X|X]; [congruence|].
        apply IH in X. discriminate.
      * split; [discriminate|]. intros [X|X]; [congruence|]. apply IH in X. discriminate.
Qed.

Lemma fields_are_list : forall fs L D, NoDup (map fst L) ->
  Forall2 (fun e f => fst f = fst e /\ shows (fst e) (snd f) (snd e)) L fs ->
  (forall e, In e L -> D (fst e) = Some (snd e)) ->
  (forall k h, D k = Some h -> In (k, h) L) -> fields_are fs D.
Proof.
  intros fs L D Hn HF H1 H2.
  assert (En : map fst fs = map fst L).
  { clear - HF. induction HF as [|e f L fs (E & _) _ IH]; [reflexivity|]. cbn. congruence. }
  split; [rewrite En; exact Hn|]. intros k. destruct (last_value k fs) as [v|] eqn:E.
  - apply last_value_In in E; [|rewrite En; exact Hn].
    assert (X : exists h, In (k, h) L /\ shows k v h).
    { clear - HF E. induction HF as [|e f L fs (Ef & Hs) _ IH]; [destruct E|].
      destruct E as [E|E].
      - subst f. cbn [fst snd] in *. subst k. exists (snd e). split; [left; destruct e; reflexivity|exact Hs].
      - destruct (IH E) as (h & Hi & Hh). exists h. split; [right; exact Hi|exact Hh]. }
    destruct X as (h & Hi & Hh). exists h. split; [exact (H1 _ Hi)|exact Hh].
  - destruct (D k) as [h|] eqn:Ed; [|reflexivity]. exfalso. apply H2 in Ed.
    apply (in_map fst) in Ed. cbn [fst] in Ed. rewrite <- En in Ed. apply in_map_iff in Ed.
    destruct Ed as ([k' v] & <- & Hi). apply (last_value_In _ fs _ v) in Hi; [|rewrite En; exact Hn].
    cbn [fst] in *. congruence.
Qed.

Lemma sequence_runs : forall L bss, Forall2 field_run L bss ->
  exists fs, Sequence Field fs (concat bss) /\
    Forall2 (fun e f => fst f = fst e /\ shows (fst e) (snd f) (snd e)) L fs.
Proof.
  intros L bss H. induction H as [|e b L bss (_ & _ & _ & v & Hf & Hs) _ (fs & IH1 & IH2)].
  - exists []. split; constructor.
  - exists ((fst e, v) :: fs). split; [constructor; assumption|]. constructor; [auto|exact IH2].
Qed.


Lemma message_headers_fields : forall w rand m,
  is_dict (m_headers m) -> any_order w -> standard_headers rand (m_headers m) ->
  exists hb d1 fs media ct fl,
    encode_message_header w rand m = (Ok hb, with_headers d1 m) /\
    hb = fl ++ 132 :: ct /\ Sequence Field fs fl /\ Content_type media [] ct /\
    fields_are (fs ++ [(str "Content-Type", Media_type media [])])
               (sent_headers rand (m_headers m)).
Proof.
  intros w rand m Hd Hw (Hct & Hs).
  pose (D := fix_rest rand (fix_message_type (renames (m_headers m)))).
  assert (HD : is_dict D) by (apply is_dict_rest, is_dict_type, is_dict_renames, Hd).
  assert (ED : forall k, h_get k D = sent_headers rand (m_headers m) k)
    by (intros k; apply sent_spec; exact Hd).
  assert (Hent : forall k v, h_get k D = Some v -> leqb k (str "Content-Type") = false ->
                 exists b, field_run (k, v) b).
  { intros k v E C. rewrite ED in E. specialize (Hs k v E). rewrite C in Hs.
    exact (standard_run k v Hs). }
  assert (HC : exists media, h_get (str "Content-Type") D = Some (HType media []) /\ standard_media media).
  { rewrite ED. destruct (sent_headers rand (m_headers m) (str "Content-Type")) as [v|] eqn:E.
    - specialize (Hs _ v E). rewrite leqb_refl in Hs. destruct Hs as (media & -> & Hm).
      exists media. auto.
    - exfalso. apply Hct. revert E. unfold sent_headers. keys. auto. }
  destruct HC as (media & EC & Hmedia).
  destruct (standard_media_run media Hmedia) as (ct & Ect & Hco & Hcg).
  assert (HF : forall k, In k sent_first -> exists v, h_get k D = Some v).
  { intros k Hk. rewrite ED. unfold sent_headers.
    destruct Hk as [<-|[<-|[<-|[]]]]; keys;
      repeat match goal with |- exists v, match ?x with _ => _ end = _ => destruct x end; eauto. }
  pose (m1 := with_headers D m).
  assert (NF : NoDup sent_first).
  { repeat constructor; cbn [In]; intros X;
      repeat destruct X as [X|X]; try discriminate X; try contradiction. }
  destruct (encode_first_fields sent_first m1) as (L1 & bs1 & EL1 & R1 & G1 & E1).
  { exact HD. }
  { exact NF. }
  { apply Forall_forall. intros k Hk. destruct (HF k Hk) as (v & Ev).
    destruct (Hent k v Ev) as (b & Hb);
      [destruct Hk as [<-|[<-|[<-|[]]]]; vm_compute; reflexivity|].
    exists v, b. split; [exact Ev|exact Hb]. }
  pose (D3 := dels sent_first D).
  assert (HD3 : is_dict D3) by (apply is_dict_dels; exact HD).
  assert (E3 : forall k, h_get k D3 = if existsb (leqb k) sent_first then None else h_get k D)
    by (intros k; apply h_get_dels; exact HD).
  destruct (encode_others_fields w D3) as (bs2 & R2 & E2).
  { apply Forall_forall. intros [k v] He.
    apply (Permutation_in _ (Hw D3)) in He. apply (h_get_In D3 k v HD3) in He.
    rewrite E3 in He. destruct (existsb (leqb k) sent_first); [discriminate|].
    destruct (leqb k (str "Content-Type")) eqn:C; [left; exact C|right].
    exact (Hent k v He C). }
  set (L2 := filter (fun e => negb (leqb (fst e) (str "Content-Type"))) (w_order w D3)) in *.
  assert (R12 : Forall2 field_run (L1 ++ L2) (bs1 ++ bs2)) by (apply Forall2_app; assumption).
  destruct (sequence_runs _ _ R12) as (fs & Hseq & HFs).
  assert (I1 : forall e, In e L1 -> h_get (fst e) D = Some (snd e) /\ In (fst e) sent_first).
  { intros e He. rewrite Forall_forall in G1. split; [exact (G1 e He)|].
    rewrite <- EL1. apply in_map. exact He. }
  assert (I2 : forall e, In e L2 <-> (h_get (fst e) D = Some (snd e) /\ ~ In (fst e) sent_first /\
                 leqb (fst e) (str "Content-Type") = false)).
  { intros e. unfold L2. rewrite (filter_In_perm _ D3) by apply Hw. destruct e as [k v]. cbn [fst snd].
    rewrite <- (h_get_In D3 k v HD3), E3.
    destruct (existsb (leqb k) sent_first) eqn:X.
    - split; [intros [Y _]; discriminate|]. intros (_ & Y & _). exfalso. apply Y.
      apply existsb_exists in X. destruct X as (k' & Hk & E). apply leqb_eq in E. subst. exact Hk.
    - assert (Nk : ~ In k sent_first).
      { intros Hk. assert (existsb (leqb k) sent_first = true); [|congruence].
        apply existsb_exists. exists k. split; [exact Hk|apply leqb_refl]. }
      destruct (leqb k (str "Content-Type")); cbn [negb]; intuition congruence. }
  assert (N2 : NoDup (map fst L2)).
  { assert (N : NoDup (map fst (w_order w D3))).
    { eapply Permutation_NoDup; [apply Permutation_map, Permutation_sym, Hw|exact HD3]. }
    unfold L2. clear - N. induction (w_order w D3) as [|e l IH]; [constructor|].
    cbn [map filter] in *. apply NoDup_cons_iff in N. destruct N as [N1 N2].
    destruct (negb (leqb (fst e) (str "Content-Type"))); [|exact (IH N2)].
    cbn [map]. constructor; [|exact (IH N2)]. intros X. apply N1.
    apply in_map_iff in X. destruct X as (e' & Ee & X). apply filter_In in X.
    rewrite <- Ee. apply in_map. apply X. }
  exists (concat (bs1 ++ bs2) ++ 132 :: ct), D3, fs, media, ct, (concat (bs1 ++ bs2)).
  split; [|split; [reflexivity|split; [exact Hseq|split; [exact Hcg|]]]].
  - assert (E4 : encode_last D3 = Ok (132 :: ct)).
    { unfold encode_last. rewrite E3.
      replace (existsb (leqb (str "Content-Type")) sent_first) with false by (vm_compute; reflexivity).
      rewrite EC. cbn [unpack_type bind].
      replace (encode_mms_field_name (str "Content-Type")) with (Ok [132]) by (vm_compute; reflexivity).
      cbn [bind]. rewrite Ect. cbn [bind]. rewrite flatten_list_ints, array_of_ints by exact Hco.
      reflexivity. }
    unfold encode_message_header. unfold st_bind at 1 2 3, st_upd at 1 2 3.
    cbn [with_headers m_headers]. fold D. rewrite !with_headers_twice. fold m1.
    unfold st_bind at 1. fold sent_first. rewrite E1. cbn [m_headers with_headers].
    change (m_headers m1) with D. fold D3. unfold st_bind, st_get, st_lift, st_ret.
    cbn [m_headers with_headers]. rewrite E2, E4, concat_app, <- app_assoc. reflexivity.
  - apply (fields_are_list _ ((L1 ++ L2) ++ [(str "Content-Type", HType media [])])).
    + rewrite !map_app, EL1. cbn [map fst].
      assert (C1 : ~ In (str "Content-Type") sent_first).
      { intros X. cbn [In sent_first] in X. repeat destruct X as [X|X]; discriminate || contradiction. }
      assert (C2 : ~ In (str "Content-Type") (map fst L2)).
      { intros X. apply in_map_iff in X. destruct X as (e & Ee & X). apply I2 in X.
        rewrite Ee, leqb_refl in X. destruct X as (_ & _ & X). discriminate. }
      assert (C3 : forall k, In k sent_first -> ~ In k (map fst L2)).
      { intros k Hk X. apply in_map_iff in X. destruct X as (e & <- & X). apply I2 in X. tauto. }
      clear - NF N2 C1 C2 C3.
      assert (G : forall a b : list (list Z), NoDup a -> NoDup b -> (forall k, In k a -> ~ In k b) ->
                  NoDup (a ++ b)).
      { clear. induction a as [|x a IH]; intros b Ha Hb H; [exact Hb|].
        apply NoDup_cons_iff in Ha. destruct Ha as [H1 H2]. cbn. constructor.
        - rewrite in_app_iff. intros [X|X]; [exact (H1 X)|]. apply (H x); [left; reflexivity|exact X].
        - apply IH; auto. intros k Hk. apply H. right. exact Hk. }
      apply G; [apply G; assumption|repeat constructor; intros []|].
      intros k Hk [<-|[]]. apply in_app_or in Hk. tauto.
    + apply Forall2_app; [exact HFs|]. constructor; [|constructor]. split; [reflexivity|].
      exists []. split; [reflexivity|]. intros k. reflexivity.
    + intros e He. rewrite <- ED. rewrite !in_app_iff in He. destruct He as [[He|He]|[<-|[]]].
      * apply I1. exact He.
      * apply I2. exact He.
      * exact EC.
    + intros k h E. rewrite <- ED in E. rewrite !in_app_iff.
      destruct (leqb k (str "Content-Type")) eqn:C.
      { apply leqb_eq in C. subst. right. left. congruence. }
      left. destruct (in_dec (list_eq_dec Z.eq_dec) k sent_first) as [Hk|Hk].
      * left. rewrite <- EL1 in Hk. apply in_map_iff in Hk. destruct Hk as ([k' v'] & Ek & Hk).
        cbn [fst] in Ek. subst k'. destruct (I1 _ Hk) as (X & _). cbn [fst snd] in X. congruence.
      * right. apply I2. cbn [fst snd]. auto.
Qed.

(** * Parts *)

Definition phdr_run (e : list Z * hval) (b : list Z) : Prop :=
  wsp_encode_header (fst e) (snd e) = Ok (ints b) /\ Forall is_octet b /\
  exists s, snd e = HStr s /\ Part_header (fst e) s b.

Lemma part_header_numbers : forall name, In name (map fst part_header_names) ->
  exists c, In (name, c) part_header_names /\ 128 <= c < 256 /\
    index_of name (firstn 56 header_field_names) = Some (c - 128) /\
    header_field_encoding name = OtherValue.
Proof.
  intros name H. apply in_map_iff in H. destruct H as ([n c] & <- & H). exists c. cbn [fst].
  split; [exact H|].
  assert (X : forallb (fun p => (128 <=? snd p) && (snd p <? 256) &&
      match index_of (fst p) (firstn 56 header_field_names) with
      | Some i => i =? snd p - 128 | None => false end &&
      match header_field_encoding (fst p) with OtherValue => true | _ => false end)
      part_header_names = true) by (vm_compute; reflexivity).
  rewrite forallb_forall in X. specialize (X (n, c) H). cbn [fst snd] in X.
  destruct (index_of n (firstn 56 header_field_names)) as [i|]; [|rewrite !Bool.andb_false_r in X; discriminate].
  destruct (header_field_encoding n); try (rewrite !Bool.andb_false_r in X; discriminate).
  split; [lia|]. split; [f_equal; lia|reflexivity].
Qed.

Lemma standard_part_header_run : forall name h, standard_part_header name h ->
  exists b, phdr_run (name, h) b.
Proof.
  intros name h H. destruct H as [name s Hn Hs|name s Ht Hn Hs]; unfold phdr_run; cbn [fst snd].
  - destruct (part_header_numbers name Hn) as (c & Hin & Hc & Ei & Ee).
    exists (c :: encode_text_string s). split; [|split].
    + unfold wsp_encode_header. rewrite header_names_12. cbn [bind]. rewrite Ei.
      rewrite encode_short_integer_ok by lia. cbn [bind]. rewrite Ee.
      replace (128 + (c - 128)) with c by lia. reflexivity.
    + constructor; [unfold is_octet; lia|]. apply no_nul_octets, Hs.
    + exists s. split; [reflexivity|]. apply ph_number; [exact Hin|apply ascii_text_string; exact Hs].
  - pose proof (token_token_string name Ht) as Ht'.
    exists (encode_text_string name ++ encode_text_string s). split; [|split].
    + unfold wsp_encode_header. rewrite header_names_12. cbn [bind].
      rewrite index_of_none by exact Hn.
      rewrite encode_token_text_spec, token_no_separator by apply (token_string_chars _ Ht').
      cbn [bind].
      assert (He : header_field_encoding name = OtherValue).
      { unfold header_field_encoding.
        destruct (leqb name (str "Accept")) eqn:E1.
        { apply leqb_eq in E1. subst. exfalso. apply Hn. vm_compute. auto. }
        destruct (leqb name (str "Pragma")) eqn:E2; [|reflexivity].
        apply leqb_eq in E2. subst. exfalso. apply Hn. vm_compute. auto 40. }
      rewrite He. cbn [encode_text_string_h encode_text_string_p HStr bind]. unfold ints.
      rewrite (map_app EInt (encode_text_string name)). reflexivity.
    + apply Forall_app. split; [apply token_octets; exact Ht'|apply no_nul_octets; apply Hs].
    + exists s. split; [reflexivity|]. apply SpecMms.ph_application;
        [constructor; exact Ht| |apply ascii_text_string; exact Hs].
      intros ->. apply Hn. vm_compute. auto 40.
Qed.

Lemma part_headers_grammar : forall l,
  Forall (fun e => leqb (fst e) (str "Content-Type") = true \/ exists b, phdr_run e b) l ->
  exists bss, Forall2 phdr_run
      (filter (fun e => negb (leqb (fst e) (str "Content-Type"))) l) bss /\
    exists hs, mapM (fun h => if leqb (fst h) (str "Content-Type") then Ok []
                    else wsp_encode_header (fst h) (snd h)) l = Ok hs /\
      concat hs = ints (concat bss).
Proof.
  induction l as [|e l IH]; intros H.
  - exists []. split; [constructor|]. exists []. split; reflexivity.
  - destruct (IH (Forall_inv_tail H)) as (bss & HF & hs & E & Ec). cbn [mapM filter].
    rewrite E. destruct (Forall_inv H) as [C|(b & Hr)].
    + rewrite C. cbn [negb bind]. exists bss. split; [exact HF|].
      exists ([] :: hs). split; [reflexivity|exact Ec].
    + destruct (leqb (fst e) (str "Content-Type")) eqn:C; cbn [negb bind].
      * exists bss. split; [exact HF|]. exists ([] :: hs). split; [reflexivity|exact Ec].
      * exists (b :: bss). split; [constructor; assumption|].
        rewrite (proj1 Hr). cbn [bind]. exists (ints b :: hs). split; [reflexivity|].
        cbn [concat]. rewrite Ec. unfold ints. symmetry. apply map_app.
Qed.

Lemma part_headers_sequence : forall L bss, Forall2 phdr_run L bss ->
  Forall is_octet (concat bss) /\
  exists hs, Sequence Part_header hs (concat bss) /\
    Forall2 (fun e f => fst f = fst e /\ shows (fst e) (snd f) (snd e)) L
            (map (fun h => (fst h, Text (snd h))) hs).
Proof.
  intros L bss H. induction H as [|e b L bss (_ & Ho & s & Es & Hp) _ (IHo & hs & IH1 & IH2)].
  - split; [constructor|]. exists []. split; constructor.
  - split; [cbn [concat]; apply Forall_app; auto|].
    exists ((fst e, s) :: hs). split; [constructor; assumption|]. cbn [map fst snd].
    constructor; [|exact IH2]. cbn [fst snd]. split; [reflexivity|exact Es].
Qed.

Lemma part_entry : forall w p, any_order w -> standard_part w p ->
  exists b p1 e, encode_part w p = (Ok b, p1) /\
    Multipart_entry Content_type Part_header e b /\ entry_is w p e.
Proof.
  intros w p Hw (Hd & (v & Ev & media & -> & Hm) & Hs & data & Hh & Hdata).
  destruct (standard_media_run media Hm) as (cb & Ect & Hco & Hcg).
  destruct (part_headers_grammar (w_order w (dp_headers p))) as (bss & HF & hs & Ehs & Ec).
  { apply Forall_forall. intros [k x] He. apply (Permutation_in _ (Hw (dp_headers p))) in He.
    apply (h_get_In _ k x Hd) in He. cbn [fst].
    destruct (leqb k (str "Content-Type")) eqn:C; [left; reflexivity|right].
    assert (Hk : k <> str "Content-Type") by (intros ->; rewrite leqb_refl in C; discriminate).
    exact (standard_part_header_run k x (Hs k x He Hk)). }
  destruct (holds_read w p data Hh) as (p1 & p2 & E1 & E2 & Hh2 & Eh2 & Ef2).
  set (L := filter (fun e => negb (leqb (fst e) (str "Content-Type"))) (w_order w (dp_headers p))) in *.
  destruct (part_headers_sequence _ _ HF) as (Ho & ps & Hseq & HFp).
  exists (encode_uint_var (zlen cb + zlen (concat bss)) ++ encode_uint_var (zlen data) ++
          cb ++ concat bss ++ data), p2, (Entry media [] ps data).
  assert (Hp : forall e, In e L <-> In e (dp_headers p) /\
                 negb (leqb (fst e) (str "Content-Type")) = true)
    by (intros e; apply filter_In_perm; apply Hw).
  split; [|split].
  - unfold encode_part. unfold st_bind at 1, st_get at 1. rewrite Ev.
    cbn [unpack_type]. unfold st_lift, st_bind, st_ret. rewrite Ect, Ehs, Ec, E1.
    rewrite !array_of_ints by assumption. rewrite E2.
    rewrite !zlen_ints. reflexivity.
  - eapply multipart_entry; [exact Hcg|exact Hseq|exact Hdata| |reflexivity| |reflexivity];
      apply uint_var_grammar; unfold n_octets, zlen; lia.
  - split; [exact Hh|]. cbn [e_media e_params e_headers].
    apply (fields_are_list _ ((str "Content-Type", HType media []) :: L)).
    + cbn [map fst]. constructor.
      * intros X. apply in_map_iff in X. destruct X as (e & Ee & X). apply Hp in X.
        rewrite Ee, leqb_refl in X. destruct X as (_ & X). discriminate.
      * assert (N : NoDup (map fst (w_order w (dp_headers p)))).
        { eapply Permutation_NoDup; [apply Permutation_map, Permutation_sym, Hw|exact Hd]. }
        unfold L. clear - N. induction (w_order w (dp_headers p)) as [|e l IH]; [constructor|].
        cbn [map filter] in *. apply NoDup_cons_iff in N. destruct N as [N1 N2].
        destruct (negb (leqb (fst e) (str "Content-Type"))); [|exact (IH N2)].
        cbn [map]. constructor; [|exact (IH N2)]. intros X. apply N1.
        apply in_map_iff in X. destruct X as (e' & Ee & X). apply filter_In in X.
        rewrite <- Ee. apply in_map. apply X.
    + constructor; [|exact HFp]. split; [reflexivity|].
      exists []. split; [reflexivity|]. intros k. reflexivity.
    + intros e [<-|He]; [exact Ev|]. apply Hp in He. destruct e as [k' x'].
      apply h_get_In; [exact Hd|apply He].
    + intros k' x' E. destruct (leqb k' (str "Content-Type")) eqn:C.
      * apply leqb_eq in C. subst. left. congruence.
      * right. apply Hp. split; [apply h_get_In in E; assumption|]. cbn [fst]. rewrite C. reflexivity.
Qed.

Lemma slot_entries : forall w s, any_order w -> Forall (standard_part w) (parts_of s) ->
  exists b s' es, encode_slot w s = (Ok b, s') /\
    Entries (Multipart_entry Content_type Part_header) es b /\
    Forall2 (entry_is w) (parts_of s) es.
Proof.
  intros w s Hw H. destruct s as [[[p tb] te]|].
  - destruct (part_entry w p Hw (Forall_inv H)) as (b & p1 & e & E & He & Hi).
    exists (b ++ []). eexists. exists [e]. split; [|split].
    + unfold encode_slot. rewrite E, app_nil_r. reflexivity.
    + constructor; [exact He|constructor].
    + constructor; [exact Hi|constructor].
  - exists [], None, []. split; [reflexivity|split; constructor].
Qed.

Lemma entries_app : forall E es l es' l', Entries E es l -> Entries E es' l' ->
  Entries E (es ++ es') (l ++ l').
Proof.
  intros E es l es' l' H H'. induction H as [|e l es r He _ IH]; [exact H'|].
  rewrite <- app_assoc. cbn [app]. constructor; assumption.
Qed.

Lemma page_entries : forall w g, any_order w -> Forall (standard_part w) (page_parts g) ->
  exists b g' es, encode_page w g = (Ok b, g') /\
    Entries (Multipart_entry Content_type Part_header) es b /\
    Forall2 (entry_is w) (page_parts g) es.
Proof.
  intros w [d i a t] Hw H. unfold page_parts in *. cbn [pg_image pg_audio pg_text] in *.
  rewrite !Forall_app in H. destruct H as (Hi & Ha & Ht).
  destruct (slot_entries w i Hw Hi) as (b1 & i' & e1 & E1 & G1 & F1).
  destruct (slot_entries w a Hw Ha) as (b2 & a' & e2 & E2 & G2 & F2).
  destruct (slot_entries w t Hw Ht) as (b3 & t' & e3 & E3 & G3 & F3).
  exists (b1 ++ b2 ++ b3). eexists. exists (e1 ++ e2 ++ e3). split; [|split].
  - unfold encode_page. cbn [pg_image pg_audio pg_text pg_duration]. rewrite E1, E2, E3.
    reflexivity.
  - repeat apply entries_app; assumption.
  - repeat apply Forall2_app; assumption.
Qed.

Lemma pages_entries : forall w gs, any_order w -> Forall (standard_part w) (flat_map page_parts gs) ->
  exists b gs' es, encode_pages w gs = (Ok b, gs') /\
    Entries (Multipart_entry Content_type Part_header) es b /\
    Forall2 (entry_is w) (flat_map page_parts gs) es.
Proof.
  intros w gs Hw. induction gs as [|g gs IH]; intros H.
  - exists [], [], []. split; [reflexivity|split; constructor].
  - cbn [flat_map] in H. rewrite Forall_app in H. destruct H as (Hg & Hgs).
    destruct (page_entries w g Hw Hg) as (b1 & g' & e1 & E1 & G1 & F1).
    destruct (IH Hgs) as (b2 & gs' & e2 & E2 & G2 & F2).
    exists (b1 ++ b2), (g' :: gs'), (e1 ++ e2). split; [|split].
    + cbn [encode_pages]. rewrite E1, E2. reflexivity.
    + apply entries_app; assumption.
    + cbn [flat_map]. apply Forall2_app; assumption.
Qed.

(** The SMIL part is standard. *)
Lemma smil_standard : forall w text, all_octets text -> standard_part w (smil_part text).
Proof.
  intros w text Ht. split; [|split; [|split]].
  - rewrite smil_part_headers. repeat constructor; cbn [In fst map]; intros Y;
      repeat destruct Y as [Y|Y]; try discriminate Y; try contradiction.
  - eexists. split; [reflexivity|]. eexists. split; [reflexivity|].
    let v := eval vm_compute in (str "application/smil") in
      change (str "application/smil") with v.
    split; [repeat constructor; lia|]. split; [cbn; lia|discriminate].
  - intros k v E Hk. rewrite smil_part_headers in E. unfold h_get in E. cbn [d_get] in E.
    destruct (leqb k (str "Content-Type")) eqn:C; [apply leqb_eq in C; congruence|].
    destruct (leqb k (str "Content-ID")) eqn:C2; [|discriminate].
    apply leqb_eq in C2. subst k. injection E as <-. apply sph_application.
    + split; [discriminate|]. vm_compute. repeat constructor; intuition discriminate.
    + intros H. vm_compute in H. intuition discriminate.
    + split; [repeat constructor; lia|]. right. cbn. lia.
  - exists text. split; [apply holds_string; reflexivity|exact Ht].
Qed.

Lemma message_grammar : forall render w rand m text,
  is_dict (m_headers m) -> any_order w -> standard_headers rand (m_headers m) ->
  Forall (standard_part w) (slide_parts m) -> m_parts m = [] ->
  smil render w m = Ok text -> all_octets text ->
  exists bytes m1 fs es, encode render w rand m = (Ok bytes, m1) /\
    Multipart_message fs es bytes /\ fields_are fs (sent_headers rand (m_headers m)) /\
    Forall2 (entry_is w) (smil_part text :: slide_parts m) es.
Proof.
  intros render w rand m text Hd Hw Hs Hp Hn Et Ht.
  destruct (message_headers_fields w rand m Hd Hw Hs) as
    (hb & d1 & fs & media & ct & fl & E1 & -> & Hseq & Hct & Hfs).
  destruct (part_entry w _ Hw (smil_standard w text Ht)) as (b0 & p0 & e0 & E0 & G0 & F0).
  rewrite slide_parts_pages in Hp. destruct (pages_entries w (m_pages m) Hw Hp) as
    (bb & gs' & es & E2 & G2 & F2). rewrite <- slide_parts_pages in F2.
  exists ((fl ++ 132 :: ct) ++ encode_uint_var (num_entries m) ++ b0 ++ bb). eexists.
  exists (fs ++ [(str "Content-Type", Media_type media [])]), (e0 :: es).
  split; [|split; [|split; [exact Hfs|constructor; assumption]]].
  - unfold encode, st_bind, st_ret. rewrite E1.
    unfold encode_message_body, st_bind, st_get, st_lift. rewrite smil_with_headers, Et, E0.
    cbn [fst m_pages with_headers]. rewrite E2. reflexivity.
  - rewrite <- app_assoc. apply multipart_message with (n := num_entries m).
    + exact Hseq.
    + exact Hct.
    + apply uint_var_grammar. rewrite entries_count.
      unfold zlen. lia.
    + rewrite entries_count, Hn. apply Forall2_same_length in F2. cbn [length].
      unfold zlen. cbn [length]. lia.
    + constructor; assumption.
Qed.
