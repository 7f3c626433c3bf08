(** Theorems about MMS headers: C50, C51, C54 and C55. *)
From Coq Require Import Lia ZifyBool ZifyNat.
From Verif Require Import Py Iter Tables WspDec WspEnc Message MmsEnc MmsDec
  SpecWsp WspClaims MmsClaims PyFacts IterFacts WspFacts ContentFacts HeaderFacts MsgHeaderFacts.
Open Scope Z_scope.

(** * C50 *)

(** C50 for the values listed in [supported]: address and subject strings that
    start with a printable character, identifiers, the known message types,
    versions and statuses, sizes of one octet, application headers. *)
Theorem C50_roundtrip_partial : forall name v, supported name v -> HeaderRoundTrip name v.
Proof. exact supported_roundtrip. Qed.
Print Assumptions C50_roundtrip_partial.
Example C50_case :
  supported (str "To") (HStr (str "+34611223344/TYPE=PLMN")) /\
  supported (str "X-Vendor") (HStr (str "some text")) /\
  mms_encode_header (str "To") (HStr (str "a@b")) = Ok (ints [151; 97; 64; 98; 0]).
Proof.
  split; [|split; [|vm_compute; reflexivity]].
  - apply sup_string; [vm_compute; auto|]. split; [|cbn; lia].
    unfold no_nul. let v := eval vm_compute in (str "+34611223344/TYPE=PLMN") in
      change (str "+34611223344/TYPE=PLMN") with v. repeat constructor; lia.
  - apply sup_application.
    + split; [|split].
      * split; [discriminate|]. let v := eval vm_compute in (str "X-Vendor") in
          change (str "X-Vendor") with v.
        repeat constructor; try lia; vm_compute; intuition discriminate.
      * cbn. repeat constructor; lia.
      * intros H. vm_compute in H. intuition discriminate.
    + split; [|cbn; lia].
      unfold no_nul. let v := eval vm_compute in (str "some text") in
      change (str "some text") with v. repeat constructor; lia.
Qed.

Lemma roundtrip_run : forall name v, HeaderRoundTrip name v ->
  match mms_encode_header name v with
  | Ok l => match array_of l with
            | Ok b => fst (decode_header (new_iter b)) = Ok (name, v)
            | Err _ => False
            end
  | Err _ => False
  end.
Proof.
  intros name v (l & b & -> & -> & H).
  destruct (H [] (new_iter b)) as (it' & E & _); [|reflexivity|rewrite E; reflexivity].
  rewrite app_nil_r. reflexivity.
Qed.

(** Strings outside [plain_string]: an empty string, or one that starts with a
    control character, is taken for a length when it is decoded. *)
Theorem C50_empty_refuted : forall name,
  In name [str "To"; str "Cc"; str "Bcc"; str "Subject"; str "Response-Text"] ->
  ~ HeaderRoundTrip name (HStr []) /\ ~ HeaderRoundTrip name (HStr [9; 97]).
Proof.
  intros name H. split; intros X; apply roundtrip_run in X;
    repeat destruct H as [<-|H]; try contradiction; vm_compute in X; discriminate X.
Qed.
Print Assumptions C50_empty_refuted.

(** An empty sender comes back as the text that stands for a missing one. *)
Theorem C50_from_refuted : exists l bytes, mms_encode_header (str "From") (HStr []) = Ok l /\
  array_of l = Ok bytes /\
  Decodes decode_header bytes (str "From", HStr (str "<not inserted>")).
Proof.
  exists (ints [137; 1; 129]), [137; 1; 129]. split; [vm_compute; reflexivity|].
  split; [vm_compute; reflexivity|]. apply decodes_wp. intros rest. cbn [app].
  change 137 with (128 + 9). eapply (mms_header_run 9 (str "From") MFrom _ [1; 129]);
    [lia|vm_compute; reflexivity|]. cbn [decode_mms_value app].
  apply wp_map_becomes. unfold decode_from_value.
  change (1 :: 129 :: rest) with (encode_value_length 1 ++ 129 :: rest).
  eapply wp_seq; [apply value_length_run; lia|]. wsteps. cbn [Z.eqb Pos.eqb]. wsteps.
  apply becomes_intro.
Qed.
Print Assumptions C50_from_refuted.

(** A status that is not one of the five cannot be encoded. *)
Theorem C50_status_refuted : forall s,
  ~ In s [str "Expired"; str "Retrieved"; str "Rejected"; str "Deferred";
          str "Unrecognised"] ->
  exists l, mms_encode_header (str "Status") (HStr s) = Ok l /\ array_of l = Err TypeError.
Proof.
  intros s H.
  assert (E : d_get leqb s status_values = None).
  { apply d_get_None; [apply leqb_eq|]. intros X. apply H. exact X. }
  exists [EInt 149; EStr (str "Unrecognised")]. split; [|vm_compute; reflexivity].
  unfold mms_encode_header.
  replace (find_field (str "Status")) with (Some (21, (str "Status", MStatus)))
    by (vm_compute; reflexivity).
  rewrite encode_short_integer_ok by lia. cbn [bind encode_mms_value encode_status_value HStr].
  unfold encode_status_value, HStr. rewrite E. reflexivity.
Qed.
Print Assumptions C50_status_refuted.

(** A size is sent with its octets in the wrong order: with [ds] its octets, the
    number with the octets [rev ds] arrives. *)
Theorem C50_size_refuted : forall ds, Forall is_octet ds -> minimal128 ds -> zlen ds <= 30 ->
  big_endian ds <= maxint ->
  exists bytes, mms_encode_header (str "Message-Size") (HInt (big_endian ds)) = Ok (ints bytes) /\
    Decodes decode_header bytes (str "Message-Size", HInt (big_endian (rev ds))).
Proof.
  intros ds Ho Hm Hl Hx. exists (142 :: zlen ds :: rev ds). split.
  - unfold mms_encode_header.
    replace (find_field (str "Message-Size")) with (Some (14, (str "Message-Size", MLong)))
      by (vm_compute; reflexivity).
    rewrite encode_short_integer_ok by lia. cbn [bind encode_mms_value encode_long_integer_h HInt].
    rewrite encode_long_integer_spec by auto. reflexivity.
  - apply decodes_wp. intros rest. cbn [app]. change 142 with (128 + 14).
    apply (mms_header_run 14 (str "Message-Size") MLong _ (zlen ds :: rev ds) rest);
      [lia|vm_compute; reflexivity|]. cbn [decode_mms_value app]. apply wp_map_becomes.
    assert (El : zlen (rev ds) = zlen ds) by (unfold zlen; rewrite rev_length; reflexivity).
    rewrite <- El. apply decode_long_integer_run; [apply Forall_rev; exact Ho|lia].
Qed.
Print Assumptions C50_size_refuted.
Example C50_size_case : big_endian [1; 0] = 256 /\ big_endian (rev [1; 0]) = 1 /\
  ~ HeaderRoundTrip (str "Message-Size") (HInt 256).
Proof.
  repeat split. intros X. apply roundtrip_run in X. vm_compute in X. discriminate X.
Qed.

(** The name of an application header whose second character is not ASCII loses
    its first character. *)
Theorem C50_name_refuted : exists name, token_string name /\
  ~ In name (map (fun p => fst (snd p)) mms_field_names) /\
  ~ HeaderRoundTrip name (HStr (str "text")).
Proof.
  exists [88; 200; 65]. split; [|split].
  - split; [discriminate|].
    repeat constructor; try lia; vm_compute; intuition discriminate.
  - intros H. vm_compute in H. intuition discriminate.
  - intros X. apply roundtrip_run in X. vm_compute in X. discriminate X.
Qed.
Print Assumptions C50_name_refuted.

(** * C51 *)

(** C51: the headers of a message are encoded and decoded, whatever the iteration
    order of the dictionary.  [sent_headers] says which values go out. *)
Theorem C51_headers : forall w rand m,
  is_dict (m_headers m) -> any_order w -> sendable rand (m_headers m) ->
  exists bytes m' d', encode_message_header w rand m = (Ok bytes, m') /\
    Decodes decode_message_header bytes d' /\
    forall k, h_get k d' = sent_headers rand (m_headers m) k.
Proof.
  intros w rand m Hd Hw Hs.
  destruct (message_headers_run w rand m Hd Hw Hs) as (bytes & d' & E & _ & H & G).
  exists bytes. eexists. exists d'. split; [exact E|]. split; [apply decodes_wp; exact H|exact G].
Qed.
Print Assumptions C51_headers.

(** When the four headers every message starts with are set, none under an X-Mms-
    name, and the message is no send request or has a recipient in To or Cc, what
    arrives is what was set. *)
Theorem C51_unchanged : forall w rand m,
  is_dict (m_headers m) -> any_order w ->
  (forall k, In k [str "Message-Type"; str "Transaction-Id"; str "MMS-Version";
                   str "Content-Type"] -> has k (m_headers m)) ->
  (forall k, In k [str "X-Mms-Message-Type"; str "X-Mms-Transaction-Id";
                   str "X-Mms-Version"] -> ~ has k (m_headers m)) ->
  (h_get (str "Message-Type") (m_headers m) <> Some (HStr (str "m-send-req")) \/
   has (str "To") (m_headers m) \/ has (str "Cc") (m_headers m)) ->
  (forall k v, h_get k (m_headers m) = Some v ->
     if leqb k (str "Content-Type") then plain_type v else supported k v) ->
  exists bytes m' d', encode_message_header w rand m = (Ok bytes, m') /\
    Decodes decode_message_header bytes d' /\
    forall k, h_get k d' = h_get k (m_headers m).
Proof.
  intros w rand m Hd Hw H4 Hx Hr Hs.
  pose proof (sent_unchanged rand (m_headers m) H4 Hx Hr) as E.
  destruct (C51_headers w rand m Hd Hw) as (bytes & m' & d' & E1 & E2 & E3).
  - split; [apply H4; cbn [In]; tauto|]. intros k v X. rewrite E in X. exact (Hs k v X).
  - exists bytes, m', d'. repeat split; auto. intros k. rewrite E3. apply E.
Qed.
Print Assumptions C51_unchanged.
Example C51_case :
  let m := with_headers (default_headers ++ [(str "To", HStr (str "a@b"));
             (str "Subject", HStr (str "Hi"))]) new_message in
  forall w, any_order w ->
  exists bytes m' d', encode_message_header w 1234 m = (Ok bytes, m') /\
    Decodes decode_message_header bytes d' /\
    h_get (str "Subject") d' = Some (HStr (str "Hi")).
Proof.
  intros m w Hw.
  destruct (C51_unchanged w 1234 m) as (bytes & m' & d' & E & D & G).
  - repeat constructor; cbn [In fst map]; intros Y;
      repeat destruct Y as [Y|Y]; try discriminate Y; try contradiction.
  - exact Hw.
  - intros k Hk. repeat destruct Hk as [<-|Hk]; try contradiction; discriminate.
  - intros k Hk X. apply X. repeat destruct Hk as [<-|Hk]; try contradiction; reflexivity.
  - right. left. discriminate.
  - intros k v E. unfold h_get in E. apply d_get_In in E; [|apply leqb_eq|repeat constructor;
      cbn [In fst map]; intros Y; repeat destruct Y as [Y|Y]; try discriminate Y; try contradiction].
    assert (S : forall s, In s [str "a@b"; str "Hi"] -> plain_string s).
    { intros s [<-|[<-|[]]]; (split; [repeat constructor; discriminate|cbn; lia]). }
    cbn [m with_headers m_headers default_headers app In] in E.
    destruct E as [X|[X|[X|[X|[X|[X|[]]]]]]]; apply pair_equal_spec in X; destruct X as (<- & <-).
    + apply sup_type. left. reflexivity.
    + apply sup_text; [right; left; reflexivity|].
      split; [repeat constructor; discriminate|cbn; lia].
    + apply (sup_numbers 1 0); lia.
    + eexists. split; [reflexivity|]. left. vm_compute. auto 50.
    + apply sup_string; [vm_compute; auto|apply S; cbn [In]; tauto].
    + apply sup_string; [vm_compute; auto 10|apply S; cbn [In]; tauto].
  - exists bytes, m', d'. rewrite G. repeat split; auto.
Qed.

(** * C54 *)

(** C54 is false of the code for every message: encoding removes the message type,
    the transaction identifier and the version from the message. *)
Theorem C54_headers_refuted : forall render w rand m bytes m', is_dict (m_headers m) ->
  encode render w rand m = (Ok bytes, m') ->
  ~ has (str "Message-Type") (m_headers m') /\
  ~ has (str "Transaction-Id") (m_headers m') /\
  ~ has (str "MMS-Version") (m_headers m').
Proof.
  intros render w rand m bytes m' Hd E.
  destruct (encode_inv _ _ _ _ _ _ E) as (h & b & m1 & E1 & _ & _ & Eh).
  destruct (message_header_inv _ _ _ _ _ Hd E1) as (-> & _).
  rewrite Eh. unfold has. cbn [m_headers with_headers].
  rewrite !sent_first_gone by (exact Hd || (cbn [sent_first In]; tauto)). auto.
Qed.
Print Assumptions C54_headers_refuted.

(** Encoding again sends m-retrieve-conf (0x8c 0x84), so the bytes of a send request
    with a recipient are never the same the second time. *)
Theorem C54_bytes_refuted : forall render w rand rand2 m bytes m1 bytes2 m2,
  is_dict (m_headers m) -> ~ has (str "X-Mms-Message-Type") (m_headers m) ->
  h_get (str "Message-Type") (m_headers m) = Some (HStr (str "m-send-req")) ->
  has (str "To") (m_headers m) \/ has (str "Cc") (m_headers m) ->
  encode render w rand m = (Ok bytes, m1) ->
  encode render w rand2 m1 = (Ok bytes2, m2) ->
  (exists more, bytes = 140 :: 128 :: more) /\ (exists more, bytes2 = 140 :: 132 :: more) /\
  bytes <> bytes2.
Proof.
  intros render w rand rand2 m bytes m1 bytes2 m2 Hd Hx Ht Hr E1 E2.
  assert (X1 : exists more, bytes = 140 :: 128 :: more).
  { destruct (encode_inv _ _ _ _ _ _ E1) as (h & b & m0 & F1 & _ & -> & _).
    destruct (message_header_inv _ _ _ _ _ Hd F1) as (_ & v & n & more & F2 & F3 & ->).
    rewrite (sent_type_recipient rand _ Hx Ht Hr) in F2.
    assert (v = HStr (str "m-send-req")) by congruence. subst v.
    change (Ok (A := list Z) [128] = Ok [n]) in F3. assert (n = 128) by congruence. subst n.
    eexists. reflexivity. }
  assert (X2 : exists more, bytes2 = 140 :: 132 :: more).
  { destruct (C54_headers_refuted _ _ _ _ _ _ Hd E1) as (G & _).
    assert (Hd1 : is_dict (m_headers m1)).
    { destruct (encode_inv _ _ _ _ _ _ E1) as (h & b & m0 & F1 & _ & _ & Eh).
      destruct (message_header_inv _ _ _ _ _ Hd F1) as (-> & _). rewrite Eh.
      apply is_dict_sent. exact Hd. }
    assert (Gx : ~ has (str "X-Mms-Message-Type") (m_headers m1)).
    { destruct (encode_inv _ _ _ _ _ _ E1) as (h & b & m0 & F1 & _ & _ & Eh).
      destruct (message_header_inv _ _ _ _ _ Hd F1) as (-> & _). rewrite Eh.
      unfold has. cbn [m_headers with_headers]. intros X. apply X.
      rewrite h_get_dels by (apply is_dict_rest, is_dict_type, is_dict_renames, Hd).
      rewrite sent_spec by exact Hd. reflexivity. }
    destruct (encode_inv _ _ _ _ _ _ E2) as (h & b & m0 & F1 & _ & -> & _).
    destruct (message_header_inv _ _ _ _ _ Hd1 F1) as (_ & v & n & more & F2 & F3 & ->).
    rewrite (sent_type_missing rand2 _ Gx G) in F2.
    assert (v = HStr (str "m-retrieve-conf")) by congruence. subst v.
    change (Ok (A := list Z) [132] = Ok [n]) in F3. assert (n = 132) by congruence. subst n.
    eexists. reflexivity. }
  split; [exact X1|]. split; [exact X2|].
  destruct X1 as (x & ->), X2 as (y & ->). congruence.
Qed.
Print Assumptions C54_bytes_refuted.
Example C54_case :
  let w := World (fun _ => None) (fun _ => None) (fun d => d) in
  let m := with_headers (default_headers ++ [(str "To", HStr (str "a@b"))]) new_message in
  match encode (fun _ => []) w 1111 m with
  | (Ok _, m1) => match fst (encode (fun _ => []) w 2222 m1) with
                  | Ok bytes2 => firstn 2 bytes2 = [140; 132]
                  | Err _ => False
                  end
  | _ => False
  end.
Proof. vm_compute. reflexivity. Qed.

(** * C55 *)

(** C55 for To and Cc: a send request goes out as m-send-req (0x8c 0x80). *)
Theorem C55_recipient_partial : forall render w rand m bytes m', is_dict (m_headers m) ->
  ~ has (str "X-Mms-Message-Type") (m_headers m) ->
  h_get (str "Message-Type") (m_headers m) = Some (HStr (str "m-send-req")) ->
  has (str "To") (m_headers m) \/ has (str "Cc") (m_headers m) ->
  encode render w rand m = (Ok bytes, m') ->
  exists more, bytes = 140 :: 128 :: more.
Proof.
  intros render w rand m bytes m' Hd Hx Ht Hr E.
  destruct (encode_inv _ _ _ _ _ _ E) as (h & b & m0 & F1 & _ & -> & _).
  destruct (message_header_inv _ _ _ _ _ Hd F1) as (_ & v & n & more & F2 & F3 & ->).
  rewrite (sent_type_recipient rand _ Hx Ht Hr) in F2.
  assert (v = HStr (str "m-send-req")) by congruence. subst v.
  change (Ok (A := list Z) [128] = Ok [n]) in F3. assert (n = 128) by congruence. subst n.
  eexists. reflexivity.
Qed.
Print Assumptions C55_recipient_partial.

(** Without a recipient it goes out as m-retrieve-conf (0x8c 0x84).  The header
    "Bc" counts as a recipient. *)
Theorem C55_no_recipient : forall render w rand m bytes m', is_dict (m_headers m) ->
  ~ has (str "X-Mms-Message-Type") (m_headers m) ->
  h_get (str "Message-Type") (m_headers m) = Some (HStr (str "m-send-req")) ->
  ~ has (str "To") (m_headers m) -> ~ has (str "Cc") (m_headers m) ->
  ~ has (str "Bc") (m_headers m) ->
  encode render w rand m = (Ok bytes, m') ->
  exists more, bytes = 140 :: 132 :: more.
Proof.
  intros render w rand m bytes m' Hd Hx Ht H1 H2 H3 E.
  destruct (encode_inv _ _ _ _ _ _ E) as (h & b & m0 & F1 & _ & -> & _).
  destruct (message_header_inv _ _ _ _ _ Hd F1) as (_ & v & n & more & F2 & F3 & ->).
  rewrite (sent_type_nobody rand _ Hx Ht H1 H2 H3) in F2.
  assert (v = HStr (str "m-retrieve-conf")) by congruence. subst v.
  change (Ok (A := list Z) [132] = Ok [n]) in F3. assert (n = 132) by congruence. subst n.
  eexists. reflexivity.
Qed.
Print Assumptions C55_no_recipient.

(** C55 is false of the code for Bcc: every send request whose only recipients are
    in Bcc goes out as m-retrieve-conf. *)
Theorem C55_bcc_refuted : forall render w rand m bytes m', is_dict (m_headers m) ->
  ~ has (str "X-Mms-Message-Type") (m_headers m) ->
  h_get (str "Message-Type") (m_headers m) = Some (HStr (str "m-send-req")) ->
  has (str "Bcc") (m_headers m) ->
  ~ has (str "To") (m_headers m) -> ~ has (str "Cc") (m_headers m) ->
  ~ has (str "Bc") (m_headers m) ->
  encode render w rand m = (Ok bytes, m') ->
  exists more, bytes = 140 :: 132 :: more.
Proof. intros. eapply C55_no_recipient; eauto. Qed.
Print Assumptions C55_bcc_refuted.
Example C55_case :
  let w := World (fun _ => None) (fun _ => None) (fun d => d) in
  let start name := match fst (encode (fun _ => []) w 1111
        (with_headers (default_headers ++ [(name, HStr (str "a@b"))]) new_message)) with
      | Ok bytes => firstn 2 bytes | Err _ => [] end in
  start (str "To") = [140; 128] /\ start (str "Cc") = [140; 128] /\
  start (str "Bcc") = [140; 132] /\ start (str "From") = [140; 132].
Proof. vm_compute. auto. Qed.
