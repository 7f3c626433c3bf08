(** Decoding against the grammar of MMS messages (C73-C78). *)
From Coq Require Import Lia ZifyBool.
From Verif Require Import Py Iter Tables WspDec WspEnc Message MmsEnc MmsDec
  SpecWsp WspClaims SpecMms GrammarClaims PyFacts GrammarFacts.
Open Scope Z_scope.

(** * C73: header fields *)

(** A field of the grammar is decoded to what it means, exactly when it is none
    of the misread ones. *)
Theorem C73_field_exact : forall name v l, Field name v l ->
  ((exists h, shows name v h /\ Decodes decode_header l (name, h)) <->
   ~ misread_field name v l).
Proof.
  intros name v l H. split.
  - intros (h & Hs & HD) HM. exact (field_misread name v l h H HM Hs HD).
  - intros N. destruct (field_read name v l (conj H N)) as (h & Hs & Hw).
    exists h. split; [exact Hs|]. apply WspFacts.decodes_wp. exact Hw.
Qed.
Print Assumptions C73_field_exact.

(** Fields that are not decoded to what they mean: an empty subject, the version
    "1" and a delivery in 60 seconds. *)
Theorem C73_field_refuted :
  (exists l, Field (str "Subject") (Text []) l /\
     forall h, ~ Decodes decode_header l (str "Subject", h)) /\
  (exists l, Field (str "MMS-Version") (Text (str "1")) l /\
     Decodes decode_header l (str "MMS-Version", HStr (str "1.15"))) /\
  (exists l, Field (str "Delivery-Time") (After 60) l /\
     forall h, ~ Decodes decode_header l (str "Delivery-Time", h)).
Proof.
  split; [|split].
  - exists [150; 0].
    assert (F : Field (str "Subject") (Text []) [150; 0]).
    { apply f_encoded; [cbn; tauto|]. apply es_plain. apply (ts_plain []); [|intros []].
      split; [constructor|left; reflexivity]. }
    split; [exact F|]. intros h HD.
    destruct (decodes_result _ _ _ _ (fun r _ _ => exists e, r = Err e) HD) as (? & ? & e & X);
      [|discriminate].
    change 150 with (128 + 22). eapply runtime_fails; [lia|reflexivity|].
    cbn [decode_mms_value]. apply wp_bind_fails, empty_encoded.
  - exists [141; 159]. split.
    + apply f_version. change (str "1") with (small_dec 1). change 159 with (128 + 1 * 16 + 15).
      apply vv_major. lia.
    + apply WspFacts.decodes_wp. intros rest.
      eapply field_at with (t := MVersion); [lia|reflexivity|].
      cbn [decode_mms_value app]. apply HeaderFacts.wp_map_becomes.
      change 159 with (128 + 1 * 16 + 15). apply (version_octet 1 15); lia.
  - exists (135 :: [2] ++ [129; 128 + 60]).
    assert (F : Field (str "Delivery-Time") (After 60) (135 :: [2] ++ [129; 128 + 60])).
    { apply f_after with (n := 2); [cbn; tauto| | |reflexivity].
      - apply iv_short. apply (short_integer 60). lia.
      - constructor. lia. }
    split; [exact F|]. intros h HD.
    assert (X : (fst (decode_header (new_iter [135; 2; 129; 188]))) = Ok (str "Delivery-Time", h)).
    { destruct (HD [] (new_iter [135; 2; 129; 188])) as (it' & E & _); [reflexivity|reflexivity|].
      rewrite E. reflexivity. }
    vm_compute in X. discriminate.
Qed.
Print Assumptions C73_field_refuted.
(** A subject that is read. *)
Example C73_case : Field (str "Subject") (Text (str "Hi")) (150 :: str "Hi" ++ [0]) /\
  ~ misread_field (str "Subject") (Text (str "Hi")) (150 :: str "Hi" ++ [0]) /\
  fst (decode_header (new_iter (150 :: str "Hi" ++ [0]))) = Ok (str "Subject", HStr (str "Hi")).
Proof.
  split; [|split].
  - apply f_encoded; [cbn; tauto|]. apply es_plain. apply (ts_plain (str "Hi")); [|cbn; lia].
    split; [vm_compute; repeat constructor; discriminate|right; cbn; lia].
  - intros H. inversion H.
  - vm_compute. reflexivity.
Qed.

(** * C74: content types *)

(** A content type of the grammar is decoded to its media type and, under every
    name, the last parameter with that name.  Missing: any-charset, versions
    without minor number, quoted strings in untyped parameters, and
    multipart/byteranges, which are refuted below.  [maxint] is the longest
    list. *)
Theorem C74_content_type_partial : forall media ps l, Read_type media ps l ->
  n_octets l <= maxint ->
  exists d, shows_params ps d /\ Decodes decode_content_type_value l (media, d).
Proof.
  intros media ps l H Hl. destruct (content_type_read media ps l H Hl) as (d & Hd & Hw).
  exists d. split; [exact Hd|]. apply WspFacts.decodes_wp. exact Hw.
Qed.
Print Assumptions C74_content_type_partial.

(** The decoder applied to all the octets. *)
Definition content_type_of (l : list Z) := fst (decode_content_type_value (new_iter l)).

(** The assigned number 14 is shown with a misspelt name. *)
Theorem C74_byteranges_refuted : exists l,
  Content_type (str "multipart/byteranges") [] l /\
  content_type_of l = Ok (str "multipart/byterantes", []).
Proof.
  exists [142]. split; [|reflexivity].
  apply ct_number with (n := 14); [|apply (short_integer 14); lia].
  split; [lia|reflexivity].
Qed.
Print Assumptions C74_byteranges_refuted.

(** The quote of a quoted string stays in the value. *)
Theorem C74_quoted_refuted : exists l,
  Content_type (str "text/plain") [(str "title", Ptext (str "Holiday"))] l /\
  content_type_of l = Ok (str "text/plain", [(str "title", PStr (34 :: str "Holiday"))]).
Proof.
  exists ([16] ++ [131] ++ (str "title" ++ [0]) ++ 34 :: str "Holiday" ++ [0]). split; [|reflexivity].
  apply ct_general with (ml := [131]) (pl := ((str "title" ++ [0]) ++ 34 :: str "Holiday" ++ [0]) ++ [])
    (n := 16) (vl := [16]).
  - apply m_number with (n := 3); [split; [lia|reflexivity]|]. apply iv_short, (short_integer 3). lia.
  - apply seq_cons; [|constructor].
    apply p_untyped_quoted; constructor.
    + split; [discriminate|]. vm_compute. repeat constructor; intuition discriminate.
    + split; [|right; cbn; lia]. vm_compute. repeat constructor; intuition discriminate.
  - constructor. lia.
  - reflexivity.
Qed.
Print Assumptions C74_quoted_refuted.

(** Any-charset is shown as "0" instead of "*". *)
Theorem C74_any_charset_refuted : exists l,
  Content_type (str "text/plain") [(str "Charset", Ptext (str "*"))] l /\
  content_type_of l = Ok (str "text/plain", [(str "Charset", PStr (str "0"))]).
Proof.
  exists ([3] ++ [131] ++ ([129] ++ [128]) ++ []). split; [|reflexivity].
  apply ct_general with (n := 3).
  - apply m_number with (n := 3); [split; [lia|reflexivity]|]. apply iv_short, (short_integer 3). lia.
  - apply seq_cons; [|constructor]. apply p_charset; [apply iv_short, (short_integer 1); lia|constructor].
  - constructor. lia.
  - reflexivity.
Qed.
Print Assumptions C74_any_charset_refuted.

(** The level 2 is shown as "2.15". *)
Theorem C74_level_refuted : exists l,
  Content_type (str "text/plain") [(str "Level", Ptext (str "2"))] l /\
  content_type_of l = Ok (str "text/plain", [(str "Level", PStr (str "2.15"))]).
Proof.
  exists ([3] ++ [131] ++ ([130] ++ [128 + 2 * 16 + 15]) ++ []). split; [|reflexivity].
  apply ct_general with (n := 3).
  - apply m_number with (n := 3); [split; [lia|reflexivity]|]. apply iv_short, (short_integer 3). lia.
  - apply seq_cons; [|constructor]. apply p_level; [apply iv_short, (short_integer 2); lia|].
    change (str "2") with (small_dec 2). constructor. lia.
  - constructor. lia.
  - reflexivity.
Qed.
Print Assumptions C74_level_refuted.

(** * C75: messages *)

(** A message without content is decoded to its fields. *)
Theorem C75_bare_partial : forall fs l, Sequence Read_field fs l ->
  exists m, decode_data l = Ok m /\ shows_message fs [] m.
Proof. exact bare_read. Qed.
Print Assumptions C75_bare_partial.

(** A multipart message is decoded to its fields and its parts, in order, with
    their content types, headers and data.  Missing: what [Read_message] leaves
    out of [Multipart_message]. *)
Theorem C75_message_partial : forall fs es l, Read_message fs es l -> n_octets l <= maxint ->
  exists m, decode_data l = Ok m /\ shows_message fs es m.
Proof. exact message_read. Qed.
Print Assumptions C75_message_partial.

(** The restricted grammar is part of the full one. *)
Lemma sequence_weaken : forall V (P Q : list Z -> V -> list Z -> Prop) vs l,
  (forall k v l, P k v l -> Q k v l) -> Sequence P vs l -> Sequence Q vs l.
Proof. intros V P Q vs l HPQ H. induction H; constructor; auto. Qed.

Lemma read_type_full : forall media ps l, Read_type media ps l -> Content_type media ps l.
Proof.
  intros media ps l [H _]. destruct H as [n media l Hn H|media l H|media ps ml pl n vl H Hp Hv En].
  - eapply ct_number; eauto.
  - apply ct_text. exact H.
  - eapply ct_general; eauto. eapply sequence_weaken; [|exact Hp]. intros k v l [X _]. exact X.
Qed.

Theorem C75_restriction : forall fs es l, Read_message fs es l -> Multipart_message fs es l.
Proof.
  intros fs es l H. destruct H as [fs fl media ps ct n nl es el Hf Hc Hn En He].
  econstructor; eauto.
  - eapply sequence_weaken; [|exact Hf]. intros k v l [X _]. exact X.
  - apply read_type_full. exact Hc.
  - clear - He. induction He as [|e l es r H _ IH]; constructor; auto.
    destruct H as [media ps hs data ct hl n nl k kl Hc Hh Hd Hn En Hk Ek].
    econstructor; eauto; [apply read_type_full; exact Hc|].
    eapply sequence_weaken; [|exact Hh]. intros a b l [X _]. exact X.
Qed.
Print Assumptions C75_restriction.

(** A message with one text, one part header given. *)
Definition one_part (header : list Z) : list Z :=
  (140 :: [132]) ++ (132 :: [163]) ++ [1] ++
  ([n_octets header + 1] ++ [5] ++ [131] ++ header ++ str "Hello").

Lemma one_part_message : forall name s header, Part_header name s header ->
  n_octets header + 1 < 128 ->
  Multipart_message
    ([(str "Message-Type", Text (str "m-retrieve-conf"))] ++
     [(str "Content-Type", Media_type (str "application/vnd.wap.multipart.mixed") [])])
    [Entry (str "text/plain") [] [(name, s)] (str "Hello")] (one_part header).
Proof.
  intros name s header H Hn. unfold one_part.
  assert (U : forall n, 0 <= n < 128 -> Uintvar n [n]).
  { intros n Hb. replace n with (base128 ([] ++ [n])) at 1 by (unfold base128; cbn; lia).
    apply (uintvar [] n); [constructor|exact Hb]. }
  assert (H0 : 0 <= n_octets header) by (unfold n_octets; lia).
  eapply (multipart_message _ _ _ _ _ _ _ _ 1).
  - rewrite <- (app_nil_r (140 :: [132])). apply seq_cons; [|constructor].
    eapply f_code with (table := message_type_names); [cbn; tauto|cbn; tauto].
  - apply ct_number with (n := 35); [split; [lia|reflexivity]|apply (short_integer 35); lia].
  - apply U. lia.
  - reflexivity.
  - rewrite <- (app_nil_r ([n_octets header + 1] ++ _)). apply es_cons; [|constructor].
    eapply multipart_entry with (n := n_octets header + 1) (k := 5).
    + apply ct_number with (n := 3); [split; [lia|reflexivity]|apply (short_integer 3); lia].
    + rewrite <- (app_nil_r header). apply seq_cons; [exact H|constructor].
    + vm_compute. repeat constructor; discriminate.
    + apply U. lia.
    + unfold n_octets. cbn [length]. lia.
    + apply U. lia.
    + reflexivity.
Qed.

(** The header [name] of the one part of the message [l] is lost. *)
Definition part_header_lost (name l : list Z) : Prop :=
  exists m p, decode_data l = Ok m /\ m_parts m = [p] /\ h_get name (dp_headers p) = None.

(** The location of a part by its number is lost, and so is its Content-ID. *)
Theorem C75_part_header_refuted :
  (exists l, Part_header (str "Content-Location") (str "a.txt") l /\
     part_header_lost (str "Content-Location") (one_part l)) /\
  (exists l, Part_header (str "Content-ID") (str "<a>") l /\
     part_header_lost (str "Content-ID") (one_part l)).
Proof.
  split.
  - exists (142 :: str "a.txt" ++ [0]). split.
    + apply ph_number; [cbn; tauto|]. apply ts_plain.
      * split; [vm_compute; repeat constructor; discriminate|right; cbn; lia].
      * cbn. lia.
    + eexists. eexists. split; [vm_compute; reflexivity|]. split; [reflexivity|].
      vm_compute. reflexivity.
  - exists (192 :: 34 :: str "<a>" ++ [0]). split.
    + apply ph_content_id. constructor.
      split; [vm_compute; repeat constructor; discriminate|right; cbn; lia].
    + eexists. eexists. split; [vm_compute; reflexivity|]. split; [reflexivity|].
      vm_compute. reflexivity.
Qed.
Print Assumptions C75_part_header_refuted.

(** ** A notification and a message with two parts *)

Ltac chars := vm_compute; repeat constructor; first [discriminate|intuition discriminate].
Ltac all_are_octets := match goal with |- all_octets ?l =>
  let v := eval vm_compute in l in change (all_octets v) end;
  unfold all_octets; repeat (apply Forall_cons; [lia|]); apply Forall_nil.
Ltac plain := apply ts_plain; [split; [chars|first [left; reflexivity|right; cbn; lia]]|cbn; lia].

Lemma not_misread : forall name v c l,
  ~ In c [129; 130; 147; 150; 151; 137; 141; 135] -> (forall t, v <> At t) ->
  ~ misread_field name v (c :: l).
Proof.
  intros name v c l Hc Hv X. remember (c :: l) as m eqn:Em.
  destruct X as [name v c' Hc'|name v n vl _|name v M _|name t m _ _|name v n vl k _ _];
    try (apply (Hv t); reflexivity);
    apply (f_equal (hd 0)) in Em; cbn [hd] in Em; subst; apply Hc; cbn in *; tauto.
Qed.

Lemma not_misread_param : forall name v c l b, 128 <= c -> b <> 128 -> b mod 16 <> 15 ->
  ~ misread_param name v (c :: l ++ [b]).
Proof.
  intros name v c l b Hc H1 H2 X. remember (c :: l ++ [b]) as m eqn:Em.
  change (c :: l ++ [b]) with ((c :: l) ++ [b]) in Em.
  destruct X as [name v i Hi|name v i M HM Hi|name v t s Ht].
  - apply app_inj_tail in Em. destruct Em as [_ Em]. congruence.
  - apply app_inj_tail in Em. destruct Em as [_ Em]. subst b. apply H2.
    replace (128 + M * 16 + 15) with (15 + (M + 8) * 16) by lia. rewrite Z_mod_plus_full. reflexivity.
  - destruct (token_text_head _ _ Ht) as (c' & c2 & r & -> & Hc' & _).
    apply (f_equal (hd 0)) in Em. cbn [hd app] in Em. lia.
Qed.

Definition notification_fields : list (list Z * value) :=
  [(str "Message-Type", Text (str "m-notification-ind"));
   (str "Transaction-Id", Text (str "T1"));
   (str "MMS-Version", Text (str "1.0"));
   (str "From", Text (str "+49170/TYPE=PLMN"));
   (str "Subject", Text [228; 98]);
   (str "Message-Class", Text (str "Auto"));
   (str "Message-Size", Number 300);
   (str "Expiry", After 86400);
   (str "Content-Location", Text (str "http://mmsc/1"));
   (str "X-Trace", Text (str "7"))].

Definition notification_octets : list Z :=
  (140 :: [130]) ++ (152 :: str "T1" ++ [0]) ++ (141 :: [128 + 1 * 16 + 0]) ++
  (137 :: [18] ++ 128 :: str "+49170/TYPE=PLMN" ++ [0]) ++
  (150 :: [5] ++ [128 + 4] ++ 127 :: [228; 98] ++ [0]) ++
  (138 :: [131]) ++ (142 :: n_octets [1; 44] :: [1; 44]) ++
  (136 :: [5] ++ 129 :: n_octets [1; 81; 128] :: [1; 81; 128]) ++
  (131 :: str "http://mmsc/1" ++ [0]) ++
  ((str "X-Trace" ++ [0]) ++ (str "7" ++ [0])) ++ [].

Example C75_notification : Sequence Read_field notification_fields notification_octets.
Proof.
  unfold notification_fields, notification_octets.
  repeat apply seq_cons; [..|constructor].
  - split; [|apply not_misread; [cbn; lia|discriminate]].
    eapply f_code with (table := message_type_names); cbn; tauto.
  - split; [|apply not_misread; [cbn; lia|discriminate]].
    apply f_text; [cbn; tauto|]. plain.
  - split.
    + apply f_version. change (str "1.0") with (small_dec 1 ++ [46] ++ small_dec 0).
      apply vv_minor; lia.
    + intros X. remember (141 :: [128 + 1 * 16 + 0]) as l eqn:El.
      remember (Text (str "1.0")) as v eqn:Ev.
      destruct X as [name v c Hc|name v n vl Hv|name v M HM|name t l _ _|name v n vl k Hv Hk];
        try discriminate El; try discriminate Ev.
      apply (f_equal (fun l => nth 1 l 0)) in El. cbn [nth] in El. lia.
  - split.
    + apply f_from with (n := 18); [apply es_plain; plain|constructor; lia|reflexivity].
    + intros X. remember (Text _) as v eqn:Ev. remember (137 :: _) as l eqn:El.
      destruct X as [name v c Hc|name v n vl Hv|name v M HM|name t l _ _|name v n vl k Hv Hk];
        try discriminate El; try discriminate Ev.
      apply (f_equal (fun l => nth 1 (rev l) 0)) in El.
      change (137 :: vl ++ [128; 0]) with ([137] ++ vl ++ [128; 0]) in El.
      rewrite app_assoc, rev_app_distr in El. cbn in El. discriminate.
  - split.
    + apply f_encoded; [cbn; tauto|].
      apply es_charset with (charset := 4) (n := 5).
      * apply iv_short, short_integer. lia.
      * apply ts_quoted; [split; [repeat constructor; lia|right; cbn; lia]|cbn; lia].
      * constructor. lia.
      * reflexivity.
    + intros X. inversion X.
  - split; [|apply not_misread; [cbn; lia|discriminate]].
    eapply f_code with (table := message_class_names); cbn; tauto.
  - split; [|apply not_misread; [cbn; lia|discriminate]].
    apply f_size. change 300 with (big_endian [1; 44]). apply long_integer; [repeat constructor; lia|].
    vm_compute. split; discriminate.
  - split; [|apply not_misread; [cbn; lia|discriminate]].
    apply f_after with (n := 5); [cbn; tauto| |constructor; lia|reflexivity].
    apply iv_long. change 86400 with (big_endian [1; 81; 128]).
    apply long_integer; [repeat constructor; lia|]. vm_compute. split; discriminate.
  - split; [|apply not_misread; [cbn; lia|discriminate]].
    apply f_text; [cbn; tauto|]. plain.
  - split; [|apply not_misread; [cbn; lia|discriminate]].
    apply f_application; [constructor; split; [discriminate|chars]|vm_compute; discriminate|plain].
Qed.

Example C75_notification_decoded : exists m, decode_data notification_octets = Ok m /\
  h_get (str "Expiry") (m_headers m) = Some (HInt 86400) /\
  h_get (str "X-Trace") (m_headers m) = Some (HStr (str "7")).
Proof. eexists. split; [vm_compute; reflexivity|]. split; vm_compute; reflexivity. Qed.

Definition two_parts : list entry :=
  [Entry (str "text/plain") [(str "Charset", Ptext (str "utf-8")); (str "Name", Ptext (str "a.txt"))]
     [(str "Location", str "a.txt"); (str "X-Order", str "1")] (str "Hello");
   Entry (str "image/x-special") [] [] [0; 255; 7]].

Definition two_parts_octets : list Z :=
  ((140 :: [132]) ++ []) ++ (132 :: [163]) ++ [2] ++
  (([28] ++ [5] ++ ([10] ++ [131] ++ (([129] ++ [128 + 106]) ++ ([133] ++ str "a.txt" ++ [0]) ++ [])) ++
    ((156 :: str "a.txt" ++ [0]) ++ ((str "X-Order" ++ [0]) ++ (str "1" ++ [0])) ++ []) ++ str "Hello") ++
   ([16] ++ [3] ++ (str "image/x-special" ++ [0]) ++ [] ++ [0; 255; 7]) ++ []).

Example C75_two_parts : Read_message
  ([(str "Message-Type", Text (str "m-retrieve-conf"))] ++
   [(str "Content-Type", Media_type (str "application/vnd.wap.multipart.mixed") [])])
  two_parts two_parts_octets.
Proof.
  assert (U : forall n, 0 <= n < 128 -> Uintvar n [n]).
  { intros n Hb. replace n with (base128 ([] ++ [n])) at 1 by (unfold base128; cbn; lia).
    apply (uintvar [] n); [constructor|exact Hb]. }
  unfold two_parts, two_parts_octets.
  apply multipart_message with (n := 2); [| |apply U; lia|reflexivity|].
  - apply seq_cons; [|constructor].
    split; [|apply not_misread; [cbn; lia|discriminate]].
    eapply f_code with (table := message_type_names); cbn; tauto.
  - split; [|vm_compute; discriminate].
    apply ct_number with (n := 35); [split; [lia|reflexivity]|apply (short_integer 35); lia].
  - apply es_cons; [|apply es_cons; [|constructor]].
    + apply multipart_entry with (n := 28) (k := 5);
        [| |all_are_octets|apply U; lia|reflexivity|apply U; lia|reflexivity].
      * split; [|vm_compute; discriminate]. apply ct_general with (n := 10);
          [| |constructor; lia|reflexivity].
        -- apply m_number with (n := 3); [split; [lia|reflexivity]|]. apply iv_short, (short_integer 3). lia.
        -- repeat apply seq_cons; [..|constructor].
           ++ split.
              ** apply p_charset; [apply iv_short, (short_integer 1); lia|].
                 eapply cs_named with (n := 106); [cbn; tauto|]. apply iv_short, short_integer. lia.
              ** apply (not_misread_param _ _ 129 [] 234); lia.
           ++ split.
              ** apply (p_text (str "Name") 5 [133]); [cbn; tauto|apply iv_short, (short_integer 5); lia|plain].
              ** apply (not_misread_param _ _ 133 (str "a.txt") 0); lia.
      * repeat apply seq_cons; [..|constructor].
        -- split; [apply ph_number; [cbn; tauto|plain]|cbn; lia].
        -- split; [|cbn; lia].
           apply ph_application; [constructor; split; [discriminate|chars]|vm_compute; discriminate|plain].
    + apply multipart_entry with (n := 16) (k := 3);
        [|constructor|all_are_octets|apply U; lia|reflexivity|apply U; lia|reflexivity].
      split; [|vm_compute; discriminate]. apply ct_text. constructor; [chars|cbn; lia].
Qed.

Example C75_two_parts_decoded : exists m p1 p2, decode_data two_parts_octets = Ok m /\
  m_parts m = [p1; p2] /\
  dp_params p1 = [(str "Charset", PStr (str "utf-8")); (str "Name", PStr (str "a.txt"))] /\
  h_get (str "X-Order") (dp_headers p1) = Some (HStr (str "1")) /\
  dp_data p2 = Some [0; 255; 7].
Proof.
  eexists. eexists. eexists. split; [vm_compute; reflexivity|]. split; [reflexivity|].
  repeat split; vm_compute; reflexivity.
Qed.

(** * C76: several recipients *)

Definition recipients_message (s1 s2 : list Z) : list Z :=
  (151 :: s1 ++ [0]) ++ (151 :: s2 ++ [0]).

(** Whatever the two recipients are, the first one is in no header of the decoded
    message, unless it is a value that a new message has anyway. *)
Theorem C76_recipients_refuted : forall s1 s2 m,
  text s1 -> text s2 -> s1 <> [] -> s2 <> [] -> s1 <> s2 ->
  ~ starts_with (fun c => 128 <= c) s1 -> ~ starts_with (fun c => 128 <= c) s2 ->
  ~ In (HStr s1) (map snd (m_headers new_message)) ->
  decode_data (recipients_message s1 s2) = Ok m ->
  Bare_message [(str "To", Text s1); (str "To", Text s2)] (recipients_message s1 s2) /\
  forall k, h_get k (m_headers m) <> Some (HStr s1).
Proof.
  intros s1 s2 m H1 H2 N1 N2 Hne A1 A2 Hnew E.
  assert (F : forall s, text s -> ~ starts_with (fun c => 128 <= c) s ->
            Field (str "To") (Text s) (151 :: s ++ [0])).
  { intros s Hs Ha. apply f_encoded; [cbn; tauto|]. apply es_plain, ts_plain; assumption. }
  assert (G : forall s, text s -> s <> [] -> ~ starts_with (fun c => 128 <= c) s ->
            Read_field (str "To") (Text s) (151 :: s ++ [0])).
  { intros s Hs Hn Ha. split; [apply F; assumption|]. intros X.
    remember (151 :: s ++ [0]) as l eqn:El. remember (Text s) as v eqn:Ev.
    destruct X as [name v c Hc|name v n vl Hv|name v M HM|name t l Ht _|name v n vl k Hv Hk];
      try discriminate El; try discriminate Ev.
    injection El as _ El. destruct s as [|c0 s]; [congruence|]. destruct s; discriminate El. }
  split.
  - unfold recipients_message. rewrite <- (app_nil_r (151 :: s2 ++ [0])).
    apply seq_cons; [apply F; assumption|]. apply seq_cons; [apply F; assumption|constructor].
  - assert (X : Sequence Read_field [(str "To", Text s1); (str "To", Text s2)]
                  (recipients_message s1 s2)).
    { unfold recipients_message. rewrite <- (app_nil_r (151 :: s2 ++ [0])).
      apply seq_cons; [apply G; assumption|]. apply seq_cons; [apply G; assumption|constructor]. }
    destruct (bare_read _ _ X) as (m' & E' & Hd & _). rewrite E in E'. injection E' as <-.
    intros k Hk. specialize (Hd k). cbn [last_value] in Hd.
    destruct (list_eq_dec Z.eq_dec k (str "To")) as [->|Hto].
    + destruct Hd as (w & Ew & Hw). unfold h_get in Hk. rewrite Hk in Ew.
      injection Ew as <-. cbn [shows] in Hw. injection Hw as Hw. congruence.
    + apply Hnew. unfold h_get in Hk. rewrite Hk in Hd. symmetry in Hd.
      apply d_get_In in Hd; [|intros; apply leqb_eq|].
      * apply (in_map snd) in Hd. exact Hd.
      * apply (nodupb_NoDup leqb); [apply leqb_eq|vm_compute; reflexivity].
Qed.
Print Assumptions C76_recipients_refuted.

Example C76_case : exists m,
  decode_data (recipients_message (str "+1") (str "+2")) = Ok m /\
  h_get (str "To") (m_headers m) = Some (HStr (str "+2")).
Proof. eexists. split; vm_compute; reflexivity. Qed.

(** Fields with different names are all there. *)
Theorem C76_recipients_partial : forall fs l, Sequence Read_field fs l -> NoDup (map fst fs) ->
  exists m, decode_data l = Ok m /\
  forall k v, In (k, v) fs -> exists h, h_get k (m_headers m) = Some h /\ shows k v h.
Proof.
  intros fs l H Hn. destruct (bare_read fs l H) as (m & E & Hd & _).
  exists m. split; [exact E|]. intros k v Hi. specialize (Hd k).
  assert (L : last_value k fs = Some v).
  { clear - Hn Hi. induction fs as [|[k' v'] fs IH]; [destruct Hi|]. cbn [last_value].
    cbn [map fst] in Hn. apply NoDup_cons_iff in Hn. destruct Hn as [Hn1 Hn2].
    destruct Hi as [Hi|Hi].
    - injection Hi as -> ->.
      assert (L : last_value k fs = None).
      { clear - Hn1. induction fs as [|[k' v'] fs IH]; [reflexivity|]. cbn in *.
        rewrite IH by tauto. destruct (list_eq_dec Z.eq_dec k k') as [->|]; [tauto|reflexivity]. }
      rewrite L. destruct (list_eq_dec Z.eq_dec k k); [reflexivity|congruence].
    - rewrite (IH Hn2 Hi). reflexivity. }
  rewrite L in Hd. exact Hd.
Qed.
Print Assumptions C76_recipients_partial.

(** * C77: content that is not multipart *)

(** A message with the text "Hello" as its content, and one whose content is a
    NUL: the first is not decoded, the second is and has no part. *)
Theorem C77_single_refuted :
  (exists l, Single_message [(str "Content-Type", Media_type (str "text/plain") [])] (str "Hello") l /\
     forall m, decode_data l <> Ok m) /\
  (exists l m, Single_message [(str "Content-Type", Media_type (str "text/plain") [])] [0] l /\
     decode_data l = Ok m /\ m_parts m = []).
Proof.
  assert (S : forall data, all_octets data ->
    Single_message [(str "Content-Type", Media_type (str "text/plain") [])] data
      ([] ++ (132 :: [131]) ++ data)).
  { intros data Hd. apply (single_message [] []); [constructor| |exact Hd].
    apply ct_number with (n := 3); [split; [lia|reflexivity]|apply (short_integer 3); lia]. }
  split.
  - eexists. split; [apply S; vm_compute; repeat constructor; discriminate|].
    intros m E. vm_compute in E. discriminate.
  - eexists. eexists. split; [apply S; constructor; [lia|constructor]|].
    split; vm_compute; reflexivity.
Qed.
Print Assumptions C77_single_refuted.

(** * C78: character sets *)

(** The same octets in two character sets are different texts, and are decoded to
    the same value: the caller cannot tell. *)
Theorem C78_charset_refuted : forall s cs1 cs2 l1 l2 tl n1 n2 vl1 vl2,
  Text_string s tl ->
  Integer_value cs1 l1 -> Value_length n1 vl1 -> n1 = n_octets l1 + n_octets tl ->
  Integer_value cs2 l2 -> Value_length n2 vl2 -> n2 = n_octets l2 + n_octets tl ->
  Encoded_string s (vl1 ++ l1 ++ tl) /\ Encoded_string s (vl2 ++ l2 ++ tl) /\
  Decodes decode_header (150 :: vl1 ++ l1 ++ tl) (str "Subject", HStr s) /\
  Decodes decode_header (150 :: vl2 ++ l2 ++ tl) (str "Subject", HStr s).
Proof.
  intros s cs1 cs2 l1 l2 tl n1 n2 vl1 vl2 Ht H1 V1 E1 H2 V2 E2.
  assert (G : forall cs l n vl, Integer_value cs l -> Value_length n vl ->
    n = n_octets l + n_octets tl ->
    Encoded_string s (vl ++ l ++ tl) /\
    Decodes decode_header (150 :: vl ++ l ++ tl) (str "Subject", HStr s)).
  { intros cs l n vl H V E.
    assert (X : Encoded_string s (vl ++ l ++ tl)) by (eapply es_charset; eauto).
    split; [exact X|].
    assert (F : Field (str "Subject") (Text s) (150 :: vl ++ l ++ tl))
      by (apply f_encoded; [cbn; tauto|exact X]).
    apply WspFacts.decodes_wp. intros rest.
    eapply field_at with (t := MEncodedString); [lia|reflexivity|].
    cbn [decode_mms_value]. apply HeaderFacts.wp_map_becomes.
    apply encoded_string_read; [exact X|].
    intros Y. apply (f_equal (@length Z)) in Y. rewrite !app_length in Y. cbn [length] in Y.
    destruct (integer_value_head _ _ H) as (b & r & -> & _).
    destruct (text_string_head _ _ Ht) as (b' & r' & -> & _). cbn in Y. lia. }
  destruct (G cs1 l1 n1 vl1 H1 V1 E1) as (A1 & B1).
  destruct (G cs2 l2 n2 vl2 H2 V2 E2) as (A2 & B2). auto.
Qed.
Print Assumptions C78_charset_refuted.

(** The octets 195 169 are one character in UTF-8 (106) and two in ISO 8859-1
    (4). *)
Example C78_case :
  Decodes decode_header [150; 5; 128 + 106; 127; 195; 169; 0] (str "Subject", HStr [195; 169]) /\
  Decodes decode_header [150; 5; 128 + 4; 127; 195; 169; 0] (str "Subject", HStr [195; 169]).
Proof.
  destruct (C78_charset_refuted [195; 169] 106 4 [128 + 106] [128 + 4] (127 :: [195; 169] ++ [0])
              5 5 [5] [5]) as (_ & _ & A & B).
  - apply ts_quoted; [split; [repeat constructor; lia|right; cbn; lia]|cbn; lia].
  - apply iv_short, short_integer. lia.
  - constructor. lia.
  - reflexivity.
  - apply iv_short, short_integer. lia.
  - constructor. lia.
  - reflexivity.
  - split; [exact A|exact B].
Qed.
