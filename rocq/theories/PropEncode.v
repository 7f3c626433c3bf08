(** C79-C80: what the encoders write, against the grammar of SpecMms. *)
From Coq Require Import Permutation Lia ZifyBool ZifyNat.
From Verif Require Import Py Iter Tables WspDec WspEnc Message MmsEnc MmsDec Deliver Wap
  SpecWsp WspClaims MmsClaims SpecMms GrammarClaims EncodeClaims SpecSubmit SpecDeliver PyFacts IterFacts
  WspFacts ContentFacts HeaderFacts MmsTotal DeliverFacts BodyFacts GrammarFacts EncodeFacts PropWap PropGrammar MsgHeaderFacts.
Open Scope Z_scope.

(** * C79: header fields *)

(** C79: a standard header is written as a field of the standard that means it. *)
Theorem C79_field_partial : forall name h, standard name h ->
  exists l b v, mms_encode_header name h = Ok l /\ array_of l = Ok b /\
    Field name v b /\ shows name v h.
Proof.
  intros name h H. destruct (standard_run name h H) as (b & E & Ho & _ & v & HF & HS).
  exists (ints b), b, v. cbn [fst snd] in *. rewrite array_of_ints by exact Ho. auto.
Qed.
Print Assumptions C79_field_partial.
Example C79_case : standard (str "Subject") (HStr (str "Hi there")) /\
  mms_encode_header (str "Subject") (HStr (str "Hi there")) = Ok (ints (150 :: str "Hi there" ++ [0])) /\
  standard (str "X-Trace") (HStr [55; 228]) /\
  standard (str "MMS-Version") (HStr (str "1.2")).
Proof.
  split; [|split; [vm_compute; reflexivity|split]].
  - apply std_string; [cbn; tauto|]. split; [vm_compute; repeat constructor; discriminate|right; cbn; lia].
  - apply std_application.
    + split; [discriminate|]. vm_compute. repeat constructor; intuition discriminate.
    + intros X. vm_compute in X. intuition discriminate.
    + split; [repeat constructor; lia|right; cbn; lia].
  - apply (std_version 1 2); lia.
Qed.

(** C79 is false of the code for texts whose first character is not ASCII: the
    quote is missing, and what is written is no field with any text. *)
Lemma text_string_start : forall s l, Text_string s l ->
  starts_with (fun c => c < 128) l.
Proof.
  intros s l H. destruct H as [s [Hs H1] H2|s _ _].
  - destruct s as [|c s]; cbn in *; lia.
  - cbn. lia.
Qed.
Lemma encoded_string_start : forall s l, Encoded_string s l -> starts_with (fun c => c < 128) l.
Proof.
  intros s l H. destruct H as [s l H|s l charset cs n vl _ _ Hv _].
  - eapply text_string_start. exact H.
  - destruct Hv; cbn; lia.
Qed.

Theorem C79_text_refuted : forall name c s l b,
  In name [str "To"; str "Cc"; str "Bcc"; str "Subject"; str "Response-Text";
           str "Message-ID"; str "Transaction-Id"] ->
  128 <= c -> mms_encode_header name (HStr (c :: s)) = Ok l -> array_of l = Ok b ->
  forall v, ~ Field name v b.
Proof.
  intros name c s l b Hn Hc E A v HF.
  assert (X : exists k, 129 <= k <= 152 /\ b = k :: c :: s ++ [0]).
  { assert (Y : exists k, 129 <= k <= 152 /\ l = ints (k :: c :: s ++ [0])).
    { cbn [In] in Hn. destruct Hn as [<-|[<-|[<-|[<-|[<-|[<-|[<-|[]]]]]]]];
        [exists 151|exists 130|exists 129|exists 150|exists 147|exists 139|exists 152];
        (split; [lia|]); unfold mms_encode_header in E;
        match type of E with context [find_field ?x] =>
          let y := eval vm_compute in (find_field x) in change (find_field x) with y in E end;
        cbn in E; injection E as <-; unfold encode_text_string; reflexivity. }
    destruct Y as (k & Hk & ->). apply array_of_ints_inv in A. eauto. }
  destruct X as (k & Hk & Eb). clear E A.
  assert (Hm : In name [str "Bcc"; str "Cc"; str "Response-Text"; str "Subject"; str "To";
                        str "Message-ID"; str "Transaction-Id"]) by (cbn [In] in *; tauto).
  destruct HF as [name k' s' l' Hk' H|name k' s' l' Hk' H|t l' H|name k' y Hk'
    |name k' t l' n vl Hk' H Hv _|name k' t l' n vl Hk' H Hv _|s' l' n vl H Hv _|vl Hv
    |name k' table k2 s' Hk' H|s' l' H|s' l' H|n l' H|name s' l' t Ht Hne H].
  - apply encoded_string_start in H. apply (f_equal (@tl Z)) in Eb. cbn [tl] in Eb. subst l'.
    cbn in H. lia.
  - apply text_string_start in H. apply (f_equal (@tl Z)) in Eb. cbn [tl] in Eb. subst l'.
    cbn in H. lia.
  - vm_compute in Hm. intuition discriminate.
  - clear - Hm Hk'. cbn [In] in *. intuition (subst; discriminate || congruence).
  - clear - Hm Hk'. cbn [In] in *. intuition (subst; discriminate || congruence).
  - clear - Hm Hk'. cbn [In] in *. intuition (subst; discriminate || congruence).
  - vm_compute in Hm. intuition discriminate.
  - vm_compute in Hm. intuition discriminate.
  - apply (f_equal (@length Z)) in Eb. cbn in Eb. rewrite app_length in Eb. cbn in Eb. lia.
  - vm_compute in Hm. intuition discriminate.
  - vm_compute in Hm. intuition discriminate.
  - vm_compute in Hm. intuition discriminate.
  - destruct (token_text_head _ _ Ht) as (c' & c2 & r & -> & Hc' & _).
    apply (f_equal (hd 0)) in Eb. cbn [hd app] in Eb. lia.
Qed.
Print Assumptions C79_text_refuted.
(** A text, to tell what the refuted case looks like. *)
Example C79_text_case :
  mms_encode_header (str "Subject") (HStr [233; 116]) = Ok (ints [150; 233; 116; 0]) /\
  Field (str "Subject") (Text [233; 116]) [150; 127; 233; 116; 0].
Proof.
  split; [vm_compute; reflexivity|]. apply f_encoded; [cbn; tauto|]. apply es_plain.
  apply (ts_quoted [233; 116]); [split; [repeat constructor; lia|right; cbn; lia]|cbn; lia].
Qed.

(** C79 is false for sizes of more than one octet, unless the octets read the same
    backwards: what is written is a field, but of another size. *)
Lemma big_endian_inj : forall a b, Forall is_octet a -> Forall is_octet b ->
  length a = length b -> big_endian a = big_endian b -> a = b.
Proof.
  intros a. induction a as [|x a IH] using rev_ind; intros b Ha Hb Hl E.
  - destruct b; [reflexivity|discriminate].
  - destruct b as [|y b _] using rev_ind.
    + rewrite app_length in Hl. cbn in Hl. lia.
    + rewrite !app_length in Hl. cbn in Hl. rewrite !big_endian_snoc in E.
      apply Forall_app in Ha. apply Forall_app in Hb. destruct Ha as [Ha Hx]. destruct Hb as [Hb Hy].
      apply Forall_inv in Hx. apply Forall_inv in Hy. unfold is_octet in Hx, Hy.
      assert (x = y /\ big_endian a = big_endian b) as [-> Eab] by lia.
      f_equal. apply IH; auto. lia.
Qed.

Theorem C79_size_refuted : forall ds, Forall is_octet ds -> minimal128 ds -> ds <> [] ->
  big_endian ds <= maxint -> zlen ds <= 30 -> rev ds <> ds ->
  exists l b, mms_encode_header (str "Message-Size") (HInt (big_endian ds)) = Ok l /\
    array_of l = Ok b /\ Field (str "Message-Size") (Number (big_endian (rev ds))) b /\
    ~ Field (str "Message-Size") (Number (big_endian ds)) b.
Proof.
  intros ds Ho Hm Hne Hx Hl Hr.
  assert (Hor : Forall is_octet (rev ds)) by (apply Forall_rev; exact Ho).
  assert (Hlen : zlen ds = n_octets (rev ds)) by (unfold zlen, n_octets; rewrite rev_length; reflexivity).
  exists (ints (142 :: zlen ds :: rev ds)), (142 :: zlen ds :: rev ds).
  split; [|split; [|split]].
  - unfold mms_encode_header.
    replace (find_field (str "Message-Size")) with (Some (14, (str "Message-Size", MLong)))
      by (vm_compute; reflexivity).
    rewrite encode_short_integer_ok by lia. cbn [bind encode_mms_value encode_long_integer_h HInt].
    rewrite encode_long_integer_spec by auto. reflexivity.
  - apply array_of_ints. pose proof (zlen_nonneg ds).
    constructor; [unfold is_octet; lia|]. constructor; [unfold is_octet; lia|exact Hor].
  - apply f_size. rewrite Hlen. apply long_integer; [exact Hor|].
    rewrite <- Hlen. destruct ds; [congruence|]. rewrite zlen_cons in *. pose proof (zlen_nonneg ds). lia.
  - intros X. remember (Number (big_endian ds)) as v eqn:Ev.
    remember (142 :: zlen ds :: rev ds) as m eqn:Em.
    destruct X as [name k' s' l' Hk' H|name k' s' l' Hk' H|t l' H|name k' y Hk'
      |name k' t l' n vl Hk' H Hv _|name k' t l' n vl Hk' H Hv _|s' l' n vl H Hv _|vl Hv
      |name k' table k2 s' Hk' H|s' l' H|s' l' H|n l' H|name s' l' t Ht Hn H]; try discriminate Ev.
    assert (n = big_endian ds) by congruence. subst n.
    apply (f_equal (@tl Z)) in Em. cbn [tl] in Em. subst l'.
    remember (zlen ds :: rev ds) as m eqn:Em. remember (big_endian ds) as n eqn:En.
    destruct H as [l Hl' _]. apply (f_equal (@tl Z)) in Em. cbn [tl] in Em. subst l.
    apply Hr. apply big_endian_inj; auto. apply rev_length.
Qed.
Print Assumptions C79_size_refuted.
Example C79_size_case : big_endian [1; 44] = 300 /\ rev [1; 44] <> [1; 44] /\
  mms_encode_header (str "Message-Size") (HInt 300) = Ok (ints [142; 2; 44; 1]).
Proof. repeat split; discriminate. Qed.

(** * C80: content types and messages *)

(** C80: a message whose headers, slide parts and parts headers are standard is
    encoded to a multipart message of the standard.  Its fields are the headers
    sent, its entries the SMIL description and the parts on the slides, in order.
    Missing: content types with parameters, texts that need a quote, sizes whose
    octets do not read the same backwards, attached parts (all refuted, here, in C79
    and in C53). *)
Theorem C80_message_partial : forall render w rand m text,
  is_dict (m_headers m) -> any_order w -> standard_headers rand (m_headers m) ->
  Forall (standard_part w) (slide_parts m) -> m_parts m = [] ->
  smil render w m = Ok text -> all_octets text ->
  exists bytes m1 fs es, encode render w rand m = (Ok bytes, m1) /\
    Multipart_message fs es bytes /\ fields_are fs (sent_headers rand (m_headers m)) /\
    Forall2 (entry_is w) (smil_part text :: slide_parts m) es.
Proof. exact message_grammar. Qed.
Print Assumptions C80_message_partial.

(** A picture from a file, a text with a Content-Location, and headers. *)
Definition sample_world : world :=
  World (fun f => if leqb f (str "/tmp/a.jpg") then Some [255; 216; 0] else None)
        (fun _ => Some (str "image/jpeg")) (fun d => rev d).
Definition sample_page : page :=
  snd (add_text (str "Hello") 0 0 (snd (add_image sample_world (str "/tmp/a.jpg") 0 0 new_page))).
Definition sample_message : message :=
  snd (add_page sample_page
    (Message [(str "Content-Type", HType (str "application/vnd.wap.multipart.mixed") []);
              (str "To", HStr (str "+49170/TYPE=PLMN"));
              (str "Subject", HStr (str "Hi"));
              (str "Transaction-Id", HStr (str "T1"));
              (str "MMS-Version", HStr (str "1.0"));
              (str "Message-Type", HStr (str "m-send-req"))] [] [] 176 220)).

Lemma sample_ascii : forall s, forallb (fun c => (32 <=? c) && (c <? 127)) s = true -> ascii_text s.
Proof.
  intros s H. rewrite forallb_forall in H. split.
  - apply Forall_forall. intros c Hc. specialize (H c Hc). lia.
  - destruct s as [|c s]; [left; reflexivity|right]. specialize (H c (or_introl eq_refl)). cbn. lia.
Qed.
Lemma sample_media : forall s, s <> [] -> s <> str "multipart/byterantes" ->
  forallb (fun c => (32 <=? c) && (c <? 127)) s = true -> standard_media s.
Proof.
  intros s Hn Hb H. destruct (sample_ascii s H) as [H1 [H2|H2]]; [congruence|]. repeat split; assumption.
Qed.

Example C80_case :
  is_dict (m_headers sample_message) /\ any_order sample_world /\
  standard_headers 1234 (m_headers sample_message) /\
  Forall (standard_part sample_world) (slide_parts sample_message) /\
  length (slide_parts sample_message) = 2%nat /\ m_parts sample_message = [] /\
  exists b m1, encode (fun _ => str "<smil/>") sample_world 1234 sample_message = (Ok b, m1) /\
    firstn 8 b = [140; 128; 152; 84; 49; 0; 141; 144].
Proof.
  set (d := [(str "Content-Type", HType (str "application/vnd.wap.multipart.related") []);
              (str "To", HStr (str "+49170/TYPE=PLMN"));
              (str "Subject", HStr (str "Hi"));
              (str "Transaction-Id", HStr (str "T1"));
              (str "MMS-Version", HStr (str "1.0"));
              (str "Message-Type", HStr (str "m-send-req"))]).
  assert (Ed : m_headers sample_message = d) by (vm_compute; reflexivity).
  rewrite Ed.
  assert (Hd : is_dict d).
  { repeat constructor; cbn [In fst map]; intros Y;
      repeat destruct Y as [Y|Y]; try discriminate Y; try contradiction. }
  assert (Hu : forall k, sent_headers 1234 d k = h_get k d).
  { apply sent_unchanged.
    - intros k Hk. repeat destruct Hk as [<-|Hk]; try contradiction; discriminate.
    - intros k Hk X. apply X. repeat destruct Hk as [<-|Hk]; try contradiction; reflexivity.
    - right. left. discriminate. }
  split; [exact Hd|]. split; [intros x; apply Permutation_sym, Permutation_rev|].
  split; [|split; [|split; [|split]]].
  - split; [discriminate|]. intros k v X. rewrite Hu in X.
    apply (h_get_In d k v Hd) in X. cbn [d In] in X.
    destruct X as [X|[X|[X|[X|[X|[X|[]]]]]]]; apply pair_equal_spec in X; destruct X as (<- & <-).
    + eexists. split; [reflexivity|]. apply sample_media; [discriminate|discriminate|reflexivity].
    + apply std_string; [cbn; tauto|apply sample_ascii; reflexivity].
    + apply std_string; [cbn; tauto|apply sample_ascii; reflexivity].
    + apply std_string; [cbn; tauto|apply sample_ascii; reflexivity].
    + apply (std_version 1 0); lia.
    + apply (std_type 128). cbn. tauto.
  - assert (Es : slide_parts sample_message =
      [Part [(str "Content-Location", HStr (str "a.jpg")); (str "Content-Type", HType (str "image/jpeg") [])]
            [] (Some (str "/tmp/a.jpg")) None;
       Part [(str "Content-Type", HType (str "text/plain") [])] [] None (Some (str "Hello"))])
      by (vm_compute; reflexivity).
    rewrite Es. repeat constructor.
    + cbn [In fst map]. intros Y; repeat destruct Y as [Y|Y]; try discriminate Y; try contradiction.
    + intros Y. exact Y.
    + eexists. split; [reflexivity|]. eexists. split; [reflexivity|].
      apply sample_media; [discriminate|discriminate|reflexivity].
    + intros k v X Hk. apply h_get_In in X.
      2:{ repeat constructor; cbn [In fst map]; intros Y; repeat destruct Y as [Y|Y]; try discriminate Y; try contradiction. }
      destruct X as [X|[X|[]]]; apply pair_equal_spec in X; destruct X as (<- & <-); [|congruence].
      apply sph_number; [cbn; tauto|apply sample_ascii; reflexivity].
    + exists [255; 216; 0]. split; [|repeat constructor; unfold is_octet; lia].
      eapply holds_file; [reflexivity|reflexivity|left; reflexivity].
    + intros Y. exact Y.
    + eexists. split; [reflexivity|]. eexists. split; [reflexivity|].
      apply sample_media; [discriminate|discriminate|reflexivity].
    + intros k v X Hk. apply h_get_In in X.
      2:{ repeat constructor. intros Y. exact Y. }
      destruct X as [X|[]]; apply pair_equal_spec in X; destruct X as (<- & <-). congruence.
    + exists (str "Hello"). split; [|repeat constructor; unfold is_octet; lia].
      apply holds_string; reflexivity.
  - reflexivity.
  - reflexivity.
  - eexists. eexists. split; [vm_compute; reflexivity|]. reflexivity.
Qed.

(** The octets of a parameter: at least two, except for a level in more than two
    parts, of which only the number is written. *)
Lemma encode_parameter_octets : forall name v l, encode_parameter name v = Ok l ->
  1 <= zlen l /\ (name <> str "Level" -> 2 <= zlen l).
Proof.
  assert (Xt : forall s, 1 <= zlen (encode_text_string s)).
  { intros s. unfold encode_text_string. rewrite zlen_app. pose proof (zlen_nonneg s).
    change (zlen [0]) with 1. lia. }
  assert (Xs : forall n l, encode_short_integer n = Ok l -> zlen l = 1).
  { intros n l H. unfold encode_short_integer in H. destruct (_ || _); [discriminate|].
    injection H as <-. reflexivity. }
  assert (Xp : forall v l, encode_text_string_p v = Ok l -> 1 <= zlen l).
  { intros v l H. destruct v; try discriminate. injection H as <-. apply Xt. }
  assert (Xi : forall v l, encode_integer_value v = Ok l -> 1 <= zlen l).
  { intros v l H. destruct v as [s|n|a b|d]; try discriminate. unfold encode_integer_value in H.
    destruct (negb _); [discriminate|]. destruct (encode_short_integer n) as [k|e] eqn:E.
    - cbn in H. injection H as <-. rewrite (Xs _ _ E). lia.
    - destruct e; cbn in H; try discriminate. unfold encode_long_integer in H.
      destruct (negb _); [discriminate|]. destruct (30 <? _); [discriminate|].
      injection H as <-. unfold zlen. cbn [length]. lia. }
  assert (Xe : forall s l, encode_extension_media s = Ok l -> 1 <= zlen l).
  { intros s l H. destruct s as [|c s]; [discriminate|]. unfold encode_extension_media in H.
    destruct (_ || _); [discriminate|]. injection H as <-. apply Xt. }
  intros name v l H. unfold encode_parameter, encode_parameter_in in H.
  destruct (get_well_known_parameters (str "1.2")) as [d|] eqn:Ed; [|discriminate]. cbn [bind] in H.
  destruct (find_parameter name d) as [[n [nm t]]|] eqn:Ef.
  - destruct (encode_short_integer n) as [a|] eqn:Ea; [|discriminate]. cbn [bind] in H.
    destruct (encode_by_type t v) as [b|] eqn:Eb; [|discriminate]. cbn [bind] in H. injection H as <-.
    rewrite zlen_app, (Xs _ _ Ea). pose proof (zlen_nonneg b). split; [lia|]. intros Hn.
    enough (1 <= zlen b) by lia.
    assert (Ht : t <> TVersion).
    { intros ->. apply Hn. unfold find_parameter in Ef. apply find_some in Ef. destruct Ef as [Hin Hl].
      cbn [fst snd] in Hl. apply leqb_eq in Hl. subst nm. rewrite <- in_rev in Hin.
      assert (Y : forallb (fun p => match snd (snd p) with TVersion => leqb (fst (snd p)) (str "Level")
                                    | _ => true end) d = true)
        by (vm_compute in Ed; injection Ed as <-; vm_compute; reflexivity).
      rewrite forallb_forall in Y. specialize (Y _ Hin). cbn [fst snd] in Y. apply leqb_eq in Y. exact Y. }
    destruct t; cbn [encode_by_type] in Eb; try discriminate Eb; try congruence; eauto.
    + unfold encode_short_integer_p in Eb. destruct v as [s|m|p q|?]; try discriminate Eb.
      * rewrite (Xs _ _ Eb). lia.
      * destruct (_ || _); discriminate Eb.
    + unfold encode_constrained_encoding in Eb. destruct v as [s|m|p q|?]; try discriminate Eb; eauto.
      destruct (is_int m); [rewrite (Xs _ _ Eb); lia|eauto].
    + injection Eb as <-. cbn. lia.
  - unfold encode_token_text in H. destruct (existsb is_separator name); [discriminate|]. cbn [bind] in H.
    pose proof (Xt name).
    destruct (on_encode_error (encode_integer_value v) (encode_text_string_p v)) as [b|] eqn:Eb; [|discriminate].
    cbn [bind] in H. injection H as <-. rewrite zlen_app.
    enough (1 <= zlen b) by lia.
    destruct (encode_integer_value v) as [x|e] eqn:Ei.
    + cbn in Eb. injection Eb as <-. eauto.
    + destruct e; cbn in Eb; try discriminate Eb. eauto.
Qed.

Lemma value_length_unique : forall n n' l l' r r', Value_length n l -> Value_length n' l' ->
  l ++ r = l' ++ r' -> n = n' /\ r = r'.
Proof.
  intros n n' l l' r r' H H' E.
  pose proof (value_length_read n l r H) as X. pose proof (value_length_read n' l' r' H') as X'.
  rewrite E in X.
  destruct (X _ (R_new _)) as (a & it & l1 & p1 & E1 & R1 & -> & -> & ->).
  destruct (X' _ (R_new _)) as (a' & it' & l2 & p2 & E2 & R2 & -> & -> & ->).
  rewrite E1 in E2. injection E2 as <- <-.
  destruct R1 as [<- _], R2 as [<- _]. auto.
Qed.

(** C80 is false for content types with parameters: nothing that is written for
    one is a content type, of whatever media and parameters.  (A "Level" in
    three or more parts is written as its number only; C80_parameters_exact has it
    too.) *)
Theorem C80_parameters_refuted : forall media params l bytes,
  Exists (fun p => fst p <> str "Level") params ->
  encode_content_type_value media params = Ok l -> array_of (flatten_list l) = Ok bytes ->
  ~ exists media' params', Content_type media' params' bytes.
Proof.
  intros media params l bytes Hp H Hb (media' & params' & HC).
  assert (Y : exists more, bytes = encode_value_length (1 + zlen params) ++ more /\
                1 + zlen params < zlen more).
  { unfold encode_content_type_value in H.
    destruct params as [|q0 params0] eqn:Eq; [inversion Hp|]. rewrite <- Eq in *. clear Eq q0 params0.
    cbn [on_encode_error] in H.
    unfold encode_content_general_form in H. unfold encode_media_type in H.
    destruct (match index_of media well_known_content_types with
              | Some i => encode_short_integer i
              | None => Ok (encode_text_string media) end) as [v|] eqn:Ev; [|discriminate].
    cbn [bind] in H.
    destruct (mapM (fun p => encode_parameter (fst p) (snd p)) params) as [ps|] eqn:E;
      [|discriminate].
    cbn [bind] in H. cbv zeta in H.
    assert (X : forall (a b : list elt), Ok a = Ok b -> a = b) by (intros; congruence).
    apply X in H. subst l. clear X.
    assert (Hv : 1 <= zlen v).
    { destruct (index_of media well_known_content_types) as [i|].
      - unfold encode_short_integer in Ev. destruct (_ || _); [discriminate|].
        injection Ev as <-. cbn. lia.
      - injection Ev as <-. unfold encode_text_string. rewrite zlen_app.
        pose proof (zlen_nonneg media). change (zlen [0]) with 1. lia. }
    assert (Hps : zlen params < zlen (concat ps)).
    { clear - Hp E.
      assert (G : forall params ps, mapM (fun p => encode_parameter (fst p) (snd p)) params = Ok ps ->
                    zlen params <= zlen (concat ps) /\
                    (Exists (fun p => fst p <> str "Level") params -> zlen params < zlen (concat ps))).
      { clear. induction params as [|[k x] params IH]; intros ps E; cbn [mapM fst snd] in E.
        - injection E as <-. split; [cbn; lia|]. intros Y. inversion Y.
        - destruct (encode_parameter k x) as [a|] eqn:Ea; [|discriminate]. cbn [bind] in E.
          destruct (mapM _ params) as [b|] eqn:Eb; [|discriminate]. cbn [bind] in E. injection E as <-.
          destruct (IH _ eq_refl) as [I1 I2]. destruct (encode_parameter_octets _ _ _ Ea) as [A1 A2].
          cbn [concat]. rewrite zlen_app, zlen_cons. split; [lia|]. intros Y.
          apply Exists_cons in Y. destruct Y as [Y|Y]; [specialize (A2 Y); lia|specialize (I2 Y); lia]. }
      apply (G params ps E). exact Hp. }
    pose proof (mapM_length _ _ _ _ _ E) as El.
    replace (zlen [EList (ints v)] + zlen ps) with (1 + zlen params) in Hb
      by (unfold zlen; rewrite El; cbn [length]; lia).
    rewrite flatten_app, flatten_ints in Hb.
    apply array_of_app in Hb as (x & y & E1 & E2 & ->).
    apply array_of_ints_inv in E1. subst x. exists y. split; [reflexivity|].
    assert (F : flatten_list ([EList (ints v)] ++ map (fun p => EList (ints p)) ps) = ints (v ++ concat ps)).
    { unfold ints. rewrite map_app. unfold flatten_list. rewrite flat_map_app. cbn [flat_map flatten_elt app].
      rewrite app_nil_r. fold (flatten_list (map EInt v)). f_equal; [apply flatten_list_ints|].
      clear. induction ps as [|p ps IH]; [reflexivity|]. cbn [map flat_map concat flatten_elt].
      rewrite map_app. f_equal; [apply flatten_list_ints|exact IH]. }
    rewrite F in E2. apply array_of_ints_inv in E2. subst y. rewrite zlen_app. lia. }
  destruct Y as (more & -> & Hm).
  assert (Hk : 0 <= 1 + zlen params) by (pose proof (zlen_nonneg params); lia).
  pose proof (value_length_grammar _ Hk) as Hvl.
  destruct (value_length_head _ _ Hvl) as (b & r & Ehd & Hb').
  remember (encode_value_length (1 + zlen params) ++ more) as w eqn:Ew.
  destruct HC as [n md w Hn Hs|md w Hx|md ps ml pl n vl Hml Hpl Hv En].
  - destruct Hs as [n' Hn']. rewrite Ehd in Ew. apply (f_equal (hd 0)) in Ew. cbn [hd app] in Ew. lia.
  - destruct Hx as [s Hnn Hs]. rewrite Ehd in Ew. apply (f_equal (hd 0)) in Ew.
    destruct s as [|c s]; [contradiction|]. cbn [hd app starts_with] in Ew, Hs. lia.
  - destruct (value_length_unique _ _ _ _ _ _ Hv Hvl Ew) as [-> E'].
    rewrite <- E', zlen_app in Hm. unfold n_octets in En. unfold zlen in *. lia.
Qed.
Print Assumptions C80_parameters_refuted.
Example C80_parameters_case :
  encode_content_type_value (str "text/plain") [(str "Name", PStr (str "a"))] =
    Ok (ints [2] ++ [EList (ints [131]); EList (ints [133; 97; 0])]).
Proof. vm_compute. reflexivity. Qed.
