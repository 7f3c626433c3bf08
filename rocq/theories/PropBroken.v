(** What is left of a multimedia message whose encoding failed (C109). *)
From Coq Require Import Lia ZifyBool ZifyNat.
From Verif Require Import Py Iter Tables WspDec WspEnc Message MmsEnc MmsDec
  SpecWsp SpecVersion WspClaims MmsClaims SpecSmil PyFacts IterFacts WspFacts ContentFacts HeaderFacts
  MsgHeaderFacts BodyFacts MessageFacts PropHeaders PropBody PropVersion PropRepeat.
Open Scope Z_scope.

(** The header [k] with the value [v] can be turned into octets on its own. *)
Definition sendable (k : list Z) (v : hval) : Prop :=
  exists l b, mms_encode_header k v = Ok l /\ array_of l = Ok b.

(** The message has the header [k], and it cannot. *)
Definition unsendable_in (d : list (list Z * hval)) (k : list Z) : Prop :=
  exists v, h_get k d = Some v /\ ~ sendable k v.

(** The three headers every message starts with, and their other names. *)
Definition leading : list (list Z) :=
  [str "Message-Type"; str "Transaction-Id"; str "MMS-Version"].
Definition leading_x : list (list Z) :=
  [str "X-Mms-Message-Type"; str "X-Mms-Transaction-Id"; str "X-Mms-Version"].

(** The headers after an encoding, successful or not. *)
Lemma header_left : forall w rand m r m', is_dict (m_headers m) ->
  let D := fix_rest rand (fix_message_type (renames (m_headers m))) in
  encode_message_header w rand m = (r, m') ->
  match encode_entry (str "Message-Type") D with
  | Err e => r = Err e /\ m' = with_headers D m
  | Ok _ =>
    match encode_entry (str "Transaction-Id") D with
    | Err e => r = Err e /\ m' = with_headers (d_del leqb (str "Message-Type") D) m
    | Ok _ =>
      match encode_entry (str "MMS-Version") D with
      | Err e => r = Err e /\
          m' = with_headers (d_del leqb (str "Transaction-Id") (d_del leqb (str "Message-Type") D)) m
      | Ok _ => m' = with_headers (dels sent_first D) m
      end
    end
  end.
Proof.
  intros w rand m r m' Hd D E.
  assert (HD : is_dict D) by (apply is_dict_rest, is_dict_type, is_dict_renames, Hd).
  unfold encode_message_header in E. unfold st_bind at 1 2 3, st_upd at 1 2 3 in E.
  cbn [with_headers m_headers] in E. fold D in E. rewrite !with_headers_twice in E.
  cbn [encode_first] in E. unfold st_bind, st_get, st_lift, st_upd, st_ret in E.
  cbn [with_headers m_headers] in E.
  rewrite !entry_del in E by (repeat apply is_dict_del; exact HD || reflexivity).
  destruct (encode_entry (str "Message-Type") D);
    [|apply pair_equal_spec in E; destruct E as (<- & <-); auto].
  destruct (encode_entry (str "Transaction-Id") D);
    [|apply pair_equal_spec in E; destruct E as (<- & <-); auto].
  destruct (encode_entry (str "MMS-Version") D);
    [|apply pair_equal_spec in E; destruct E as (<- & <-); auto].
  rewrite !with_headers_twice in E. cbn [with_headers m_headers] in E.
  change (d_del leqb (str "MMS-Version")
      (d_del leqb (str "Transaction-Id") (d_del leqb (str "Message-Type") D)))
    with (dels sent_first D) in E.
  destruct (encode_others w (dels sent_first D)); [|apply pair_equal_spec in E; symmetry; apply E].
  destruct (encode_last (dels sent_first D)); apply pair_equal_spec in E; symmetry; apply E.
Qed.

Lemma entry_sendable : forall k v d, h_get k d = Some v ->
  (sendable k v <-> exists b, encode_entry k d = Ok b).
Proof.
  intros k v d E. unfold sendable, encode_entry. rewrite E. split.
  - intros (l & b & -> & H). exists b. exact H.
  - intros (b & H). destruct (mms_encode_header k v) as [l|]; [|discriminate]. exists l, b. auto.
Qed.

Lemma type_default_sent : sendable (str "Message-Type") (HStr (str "m-retrieve-conf")).
Proof. eexists _, _. split; vm_compute; reflexivity. Qed.

Lemma version_default_sent : sendable (str "MMS-Version") (HStr (str "1.0")).
Proof. eexists _, _. split; vm_compute; reflexivity. Qed.

Lemma id_default_sent : forall rand, 0 <= rand -> sendable (str "Transaction-Id") (HStr (py_dec rand)).
Proof.
  intros rand Hr. unfold sendable, mms_encode_header.
  replace (find_field (str "Transaction-Id")) with (Some (24, (str "Transaction-Id", MTextString)))
    by (vm_compute; reflexivity).
  rewrite encode_short_integer_ok by lia. cbn [bind encode_mms_value].
  unfold HStr. cbn [encode_text_string_h encode_text_string_p bind]. rewrite ints_app.
  eexists _, _. split; [reflexivity|]. apply array_of_ints.
  destruct (py_dec_notation rand Hr) as (_ & P & _). cbn [app].
  constructor; [unfold is_octet; lia|].
  apply Forall_app. split; [|constructor; [unfold is_octet; lia|constructor]].
  eapply Forall_impl; [|exact P]. cbv beta. unfold is_octet. lia.
Qed.

(** The headers of the message after a failed encoding. *)
Lemma left_headers : forall render w rand m e m' k, is_dict (m_headers m) ->
  let D := fix_rest rand (fix_message_type (renames (m_headers m))) in
  encode render w rand m = (Err e, m') ->
  h_get k (m_headers m') =
  match encode_entry (str "Message-Type") D with
  | Err _ => sent_headers rand (m_headers m) k
  | Ok _ =>
    if leqb k (str "Message-Type") then None else
    match encode_entry (str "Transaction-Id") D with
    | Err _ => sent_headers rand (m_headers m) k
    | Ok _ =>
      if leqb k (str "Transaction-Id") then None else
      match encode_entry (str "MMS-Version") D with
      | Err _ => sent_headers rand (m_headers m) k
      | Ok _ => if leqb k (str "MMS-Version") then None else sent_headers rand (m_headers m) k
      end
    end
  end.
Proof.
  intros render w rand m e m' k Hd D E.
  assert (HD : is_dict D) by (apply is_dict_rest, is_dict_type, is_dict_renames, Hd).
  unfold encode, st_bind, st_ret in E.
  destruct (encode_message_header w rand m) as [r m1] eqn:E1.
  assert (F : m_headers m' = m_headers m1).
  { destruct r; [|congruence]. destruct (encode_message_body render w m1) as [[b|] m2] eqn:E2; [discriminate|].
    apply message_body_headers in E2. congruence. }
  rewrite F. clear E F. apply header_left in E1; [|exact Hd]. fold D in E1. cbv zeta in E1.
  pose proof (sent_spec rand (m_headers m) k Hd) as S. fold D in S. rewrite <- S. clear S.
  destruct (encode_entry (str "Message-Type") D).
  2:{ destruct E1 as (_ & ->). reflexivity. }
  destruct (encode_entry (str "Transaction-Id") D).
  2:{ destruct E1 as (_ & ->). cbn [with_headers m_headers]. rewrite h_get_del by exact HD. reflexivity. }
  destruct (encode_entry (str "MMS-Version") D).
  2:{ destruct E1 as (_ & ->). cbn [with_headers m_headers].
      rewrite !h_get_del by (repeat apply is_dict_del; exact HD).
      destruct (leqb k (str "Message-Type")), (leqb k (str "Transaction-Id")); reflexivity. }
  subst m1. cbn [with_headers m_headers]. rewrite h_get_dels by exact HD. cbn [existsb sent_first].
  destruct (leqb k (str "Message-Type")), (leqb k (str "Transaction-Id")), (leqb k (str "MMS-Version"));
    reflexivity.
Qed.

(** C109, settled: a failed encoding leaves the headers of the message as they
    were just when none of the three leading headers goes by its other name and
    either the message has none of the three, or the first of them that the
    message has is one that cannot be sent and it has all that follow. *)
Theorem C109_exact : forall render w rand m e m',
  is_dict (m_headers m) -> 1000 <= rand <= 9999 ->
  encode render w rand m = (Err e, m') ->
  let d := m_headers m in
  ((forall k, h_get k (m_headers m') = h_get k d) <->
   (forall k, In k leading_x -> ~ has k d) /\
   ((forall k, In k leading -> ~ has k d) \/
    (unsendable_in d (str "Message-Type") /\ has (str "Transaction-Id") d /\ has (str "MMS-Version") d) \/
    (~ has (str "Message-Type") d /\ unsendable_in d (str "Transaction-Id") /\ has (str "MMS-Version") d) \/
    (~ has (str "Message-Type") d /\ ~ has (str "Transaction-Id") d /\
     unsendable_in d (str "MMS-Version")))).
Proof.
  intros render w rand m e m' Hd Hr E d.
  pose (D := fix_rest rand (fix_message_type (renames d))).
  pose proof (fun k => left_headers _ _ _ _ _ _ k Hd E) as L. cbv zeta in L. fold d in L. fold D in L.
  pose proof (fun k => sent_spec rand d k Hd) as S. fold D in S.
  assert (XN : forall k, In k leading_x -> sent_headers rand d k = None).
  { intros k Hk. cbn [In leading_x] in Hk. repeat destruct Hk as [<-|Hk]; try contradiction; reflexivity. }
  assert (XL : forall k, In k leading_x -> h_get k (m_headers m') = None).
  { intros k Hk. rewrite L. specialize (XN k Hk). rewrite XN.
    repeat match goal with |- context [match ?x with Ok _ => _ | Err _ => _ end] => destruct x
                         | |- context [if ?x then _ else _] => destruct x end; reflexivity. }
  assert (SI : (~ has (str "X-Mms-Transaction-Id") d) -> sent_headers rand d (str "Transaction-Id") =
    match h_get (str "Transaction-Id") d with None => Some (HStr (py_dec rand)) | Some v => Some v end).
  { intros N. unfold sent_headers. keys. rewrite (not_has _ _ N). reflexivity. }
  assert (SV : (~ has (str "X-Mms-Version") d) -> sent_headers rand d (str "MMS-Version") =
    match h_get (str "MMS-Version") d with None => Some (HStr (str "1.0")) | Some v => Some v end).
  { intros N. unfold sent_headers. keys. rewrite (not_has _ _ N). reflexivity. }
  pose proof (sent_type rand d) as ST.
  assert (Err_un : forall k v e', h_get k d = Some v -> sent_headers rand d k = Some v ->
    encode_entry k D = Err e' -> unsendable_in d k).
  { intros k v e' G1 G2 G3. exists v. split; [exact G1|]. rewrite (entry_sendable k v D) by (rewrite S; exact G2).
    intros (b & G). congruence. }
  assert (Un_err : forall k v, sent_headers rand d k = Some v -> ~ sendable k v ->
    exists e', encode_entry k D = Err e').
  { intros k v G1 G2. destruct (encode_entry k D) as [b|e'] eqn:G; [|eauto]. destruct G2.
    apply (entry_sendable k v D); [rewrite S; exact G1|]. eauto. }
  assert (Sent_ok : forall k v, sent_headers rand d k = Some v -> sendable k v ->
    exists b, encode_entry k D = Ok b).
  { intros k v G1 G2. apply (entry_sendable k v D); [rewrite S; exact G1|exact G2]. }
  assert (Nh : forall k, h_get k d = None -> ~ has k d) by (intros k G X; exact (X G)).
  split.
  - intros K.
    assert (NX : forall k, In k leading_x -> ~ has k d).
    { intros k Hk. apply Nh. rewrite <- K. apply XL, Hk. }
    split; [exact NX|].
    specialize (ST (NX _ (or_introl eq_refl))).
    specialize (SI (NX _ (or_intror (or_introl eq_refl)))).
    specialize (SV (NX _ (or_intror (or_intror (or_introl eq_refl))))).
    pose proof (K (str "Message-Type")) as K1. rewrite L in K1.
    pose proof (K (str "Transaction-Id")) as K2. rewrite L in K2.
    pose proof (K (str "MMS-Version")) as K3. rewrite L in K3.
    revert K1 K2 K3. keys.
    destruct (encode_entry (str "Message-Type") D) as [a1|e1] eqn:A1.
    2:{ intros K1 K2 K3. right. left.
        destruct (h_get (str "Message-Type") d) as [v|] eqn:G; [|rewrite ST in K1; discriminate].
        split; [eapply Err_un; eauto; congruence|]. unfold has. rewrite <- K2, <- K3, SI, SV.
        split; [destruct (h_get (str "Transaction-Id") d)|destruct (h_get (str "MMS-Version") d)]; discriminate. }
    intros K1. symmetry in K1.
    destruct (encode_entry (str "Transaction-Id") D) as [a2|e2] eqn:A2.
    2:{ intros K2 K3. right. right. left. split; [apply Nh; exact K1|].
        destruct (h_get (str "Transaction-Id") d) as [v|] eqn:G; [|rewrite SI in K2; discriminate].
        split; [eapply Err_un; eauto; congruence|]. unfold has. rewrite <- K3, SV.
        destruct (h_get (str "MMS-Version") d); discriminate. }
    intros K2. symmetry in K2.
    destruct (encode_entry (str "MMS-Version") D) as [a3|e3] eqn:A3; intros K3.
    2:{ right. right. right. split; [apply Nh; exact K1|]. split; [apply Nh; exact K2|].
        destruct (h_get (str "MMS-Version") d) as [v|] eqn:G; [|rewrite SV in K3; discriminate].
        eapply Err_un; eauto; congruence. }
    symmetry in K3. left. intros k Hk. apply Nh. cbn [In leading] in Hk.
    repeat destruct Hk as [<-|Hk]; try contradiction; assumption.
  - intros (NX & C).
    specialize (ST (NX _ (or_introl eq_refl))).
    specialize (SI (NX _ (or_intror (or_introl eq_refl)))).
    specialize (SV (NX _ (or_intror (or_intror (or_introl eq_refl))))).
    assert (Other : forall k, ~ In k leading -> sent_headers rand d k = h_get k d).
    { intros k Hk. unfold sent_headers. repeat key_case;
        try (symmetry; apply not_has, NX; cbn [In leading_x]; tauto);
        try (destruct Hk; cbn [In leading]; tauto); reflexivity. }
    assert (Lead : forall k, In k leading \/ ~ In k leading).
    { intros k. destruct (existsb (leqb k) leading) eqn:X.
      - left. apply existsb_exists in X. destruct X as (x & I & X). apply leqb_eq in X. subst. exact I.
      - right. intros I. assert (Y : existsb (leqb k) leading = true)
          by (apply existsb_exists; exists k; split; [exact I|apply leqb_refl]). congruence. }
    assert (O : forall k, ~ In k leading -> h_get k (m_headers m') = h_get k d).
    { intros k Hk. rewrite L, (Other k Hk). pose proof Hk as Hk'. cbn [In leading] in Hk'.
      assert (Z : forall x, In x leading -> leqb k x = false).
      { intros x Hx. destruct (leqb k x) eqn:X; [|reflexivity]. apply leqb_eq in X. subst. contradiction. }
      rewrite !Z by (cbn [In leading]; tauto).
      destruct (encode_entry (str "Message-Type") D), (encode_entry (str "Transaction-Id") D),
        (encode_entry (str "MMS-Version") D); reflexivity. }
    assert (T : h_get (str "Message-Type") (m_headers m') = h_get (str "Message-Type") d /\
      h_get (str "Transaction-Id") (m_headers m') = h_get (str "Transaction-Id") d /\
      h_get (str "MMS-Version") (m_headers m') = h_get (str "MMS-Version") d).
    { rewrite !L. keys. destruct C as [N|[((v & G & U) & H2 & H3)|[(H1 & (v & G & U) & H3)|(H1 & H2 & (v & G & U))]]].
      - assert (N1 := not_has _ _ (N _ (or_introl eq_refl))).
        assert (N2 := not_has _ _ (N _ (or_intror (or_introl eq_refl)))).
        assert (N3 := not_has _ _ (N _ (or_intror (or_intror (or_introl eq_refl))))).
        rewrite N1 in ST. rewrite N2 in SI. rewrite N3 in SV.
        destruct (Sent_ok _ _ ST type_default_sent) as (a1 & ->).
        destruct (Sent_ok _ _ SI (id_default_sent rand ltac:(lia))) as (a2 & ->).
        destruct (Sent_ok _ _ SV version_default_sent) as (a3 & ->).
        rewrite N1, N2, N3. auto.
      - rewrite G in ST.
        assert (G' : sent_headers rand d (str "Message-Type") = Some v).
        { rewrite ST. destruct (is_hstr v (str "m-send-req")) eqn:I; [|reflexivity].
          destruct U. destruct v as [[s| | |]| | | |]; try discriminate I.
          cbn [is_hstr] in I. apply leqb_eq in I. subst s.
          eexists _, _. split; vm_compute; reflexivity. }
        destruct (Un_err _ _ G' U) as (e1 & ->). rewrite G', SI, SV, G. unfold has in H2, H3.
        split; [reflexivity|].
        split; [destruct (h_get (str "Transaction-Id") d)|destruct (h_get (str "MMS-Version") d)];
          congruence.
      - rewrite (not_has _ _ H1) in ST. rewrite G in SI.
        destruct (Sent_ok _ _ ST type_default_sent) as (a1 & ->).
        destruct (Un_err _ _ SI U) as (e2 & ->). rewrite SI, SV, G, (not_has _ _ H1). unfold has in H3.
        repeat split. destruct (h_get (str "MMS-Version") d); congruence.
      - rewrite (not_has _ _ H1) in ST. rewrite (not_has _ _ H2) in SI. rewrite G in SV.
        destruct (Sent_ok _ _ ST type_default_sent) as (a1 & ->).
        destruct (Sent_ok _ _ SI (id_default_sent rand ltac:(lia))) as (a2 & ->).
        destruct (Un_err _ _ SV U) as (e3 & ->). rewrite SV, G, (not_has _ _ H1), (not_has _ _ H2). auto. }
    intros k. destruct (Lead k) as [Hk|Hk]; [|apply O; exact Hk].
    cbn [In leading] in Hk. repeat destruct Hk as [<-|Hk]; try contradiction; apply T.
Qed.
Print Assumptions C109_exact.

(** A message without the three: nothing changes.  With those of every new
    message: they are gone.  With a type that cannot be sent and no identifier:
    one is added.  With an identifier that cannot be sent, a version and no type:
    nothing changes. *)
Example C109_exact_case :
  let w := World (fun _ => None) (fun _ => None) (fun d => d) in
  let bad := (str "Subject", HInt 5) in
  let run h := match encode (fun _ => []) w 1111 (with_headers h new_message) with
               | (Err _, m) => map fst (m_headers m) | (Ok _, _) => [] end in
  run [bad; (str "To", HStr (str "a@b"))] = [str "Subject"; str "To"] /\
  run (bad :: default_headers) = [str "Subject"; str "Content-Type"] /\
  run [(str "Message-Type", HType [] []); (str "MMS-Version", HStr (str "1.0"))] =
    [str "Message-Type"; str "MMS-Version"; str "Transaction-Id"] /\
  run [(str "Transaction-Id", HInt 7); (str "MMS-Version", HStr (str "1.0"))] =
    [str "Transaction-Id"; str "MMS-Version"].
Proof. vm_compute. auto. Qed.
Example C109_unsendable_case :
  unsendable_in [(str "Message-Type", HType [] [])] (str "Message-Type") /\
  unsendable_in [(str "Transaction-Id", HInt 7)] (str "Transaction-Id") /\
  sendable (str "Transaction-Id") (HStr (str "7")).
Proof.
  split; [|split].
  - exists (HType [] []). split; [reflexivity|]. intros (l & b & E & _). vm_compute in E. discriminate.
  - exists (HInt 7). split; [reflexivity|]. intros (l & b & E & _). vm_compute in E. discriminate.
  - eexists _, _. split; vm_compute; reflexivity.
Qed.

(** What is left alone by a failed encoding: every other header, the parts that
    are on no slide, the number of slides and the size of the screen. *)
Theorem C109_others_partial : forall render w rand m e m',
  is_dict (m_headers m) ->
  encode render w rand m = (Err e, m') ->
  (forall k, ~ In k (leading ++ leading_x) -> h_get k (m_headers m') = h_get k (m_headers m)) /\
  m_parts m' = m_parts m /\ length (m_pages m') = length (m_pages m) /\
  m_width m' = m_width m /\ m_height m' = m_height m.
Proof.
  intros render w rand m e m' Hd E. split.
  - intros k Hk. rewrite (left_headers _ _ _ _ _ _ k Hd E).
    assert (Z : forall x, In x (leading ++ leading_x) -> leqb k x = false).
    { intros x Hx. destruct (leqb k x) eqn:X; [|reflexivity]. apply leqb_eq in X. subst. contradiction. }
    assert (Other : sent_headers rand (m_headers m) k = h_get k (m_headers m)).
    { unfold sent_headers. rewrite !Z by (cbn [In leading leading_x app]; tauto). reflexivity. }
    rewrite !Z by (cbn [In leading leading_x app]; tauto). rewrite Other.
    repeat match goal with |- match ?x with Ok _ => _ | Err _ => _ end = _ => destruct x end; reflexivity.
  - assert (PL : forall gs r gs', encode_pages w gs = (r, gs') -> length gs' = length gs).
    { induction gs as [|g gs IH]; cbn [encode_pages]; intros r gs' P.
      - apply pair_equal_spec in P. destruct P as (_ & <-). reflexivity.
      - destruct (encode_page w g) as [[a|] g']; [|apply pair_equal_spec in P; destruct P as (_ & <-); reflexivity].
        destruct (encode_pages w gs) as [y r'] eqn:R. specialize (IH _ _ eq_refl).
        destruct y; apply pair_equal_spec in P; destruct P as (_ & <-); cbn [length]; lia. }
    unfold encode, st_bind, st_ret in E.
    destruct (encode_message_header w rand m) as [r m1] eqn:E1.
    assert (F : exists h, m1 = with_headers h m).
    { apply header_left in E1; [|exact Hd]. cbv zeta in E1.
      repeat match type of E1 with match ?x with Ok _ => _ | Err _ => _ end => destruct x end;
        try destruct E1 as (_ & E1); eexists; exact E1. }
    destruct F as (h & ->). destruct r as [b|].
    2:{ apply pair_equal_spec in E. destruct E as (_ & <-). auto. }
    unfold encode_message_body, st_bind, st_get, st_lift in E.
    destruct (smil render w (with_headers h m)) as [text|];
      [|apply pair_equal_spec in E; destruct E as (_ & <-); auto].
    destruct (fst (encode_part w (smil_part text)));
      [|apply pair_equal_spec in E; destruct E as (_ & <-); auto].
    destruct (encode_pages w (m_pages (with_headers h m))) as [[b'|] gs] eqn:P; [discriminate|].
    apply pair_equal_spec in E. destruct E as (_ & <-). apply PL in P. auto.
Qed.
Print Assumptions C109_others_partial.
Example C109_others_case :
  let w := World (fun _ => None) (fun _ => None) (fun d => d) in
  let h := default_headers ++ [(str "Subject", HInt 5); (str "To", HStr (str "a@b"))] in
  match encode (fun _ => []) w 1111 (with_headers h new_message) with
  | (Err _, m) => h_get (str "To") (m_headers m) = Some (HStr (str "a@b"))
  | (Ok _, _) => False
  end.
Proof. vm_compute. reflexivity. Qed.

(** A message whose three leading headers could be sent has lost them after the
    failure; whatever is done to its other headers and to its contents, it then
    goes out as a retrieve confirmation, also if it was a send request. *)
Theorem C109_retry : forall render w rand m e m1,
  is_dict (m_headers m) -> 1000 <= rand <= 9999 ->
  (forall k x v, In (k, x) (combine leading leading_x) ->
     h_get k (m_headers m) = Some v \/ h_get x (m_headers m) = Some v -> sendable k v) ->
  encode render w rand m = (Err e, m1) ->
  (forall k, In k (leading ++ leading_x) -> ~ has k (m_headers m1)) /\
  forall render2 w2 rand2 m2 bytes m3, is_dict (m_headers m2) ->
    (forall k, In k (leading ++ leading_x) -> h_get k (m_headers m2) = h_get k (m_headers m1)) ->
    encode render2 w2 rand2 m2 = (Ok bytes, m3) ->
    exists more, bytes = 140 :: 132 :: more.
Proof.
  intros render w rand m e m1 Hd Hr Hs E. set (d := m_headers m) in *.
  pose (D := fix_rest rand (fix_message_type (renames d))).
  assert (SD : forall k v, sent_headers rand d k = Some v -> sendable k v ->
    exists b, encode_entry k D = Ok b).
  { intros k v G1 G2. apply (entry_sendable k v D); [unfold D; rewrite sent_spec by exact Hd; exact G1|exact G2]. }
  assert (O1 : exists b, encode_entry (str "Message-Type") D = Ok b).
  { destruct (sent_headers rand d (str "Message-Type")) as [v|] eqn:G.
    - apply (SD _ v G). destruct (sent_given _ _ _ G) as [(Gv & _)|(-> & _)]; [|exact type_default_sent].
      apply (Hs _ (str "X-Mms-Message-Type") v (or_introl eq_refl)). destruct Gv as [Gv|(_ & Gv)]; auto.
    - exfalso. revert G. unfold sent_headers. keys.
      destruct (h_get (str "X-Mms-Message-Type") d), (h_get (str "Message-Type") d);
        repeat match goal with |- context [if ?c then _ else _] => destruct c end; discriminate. }
  assert (O2 : exists b, encode_entry (str "Transaction-Id") D = Ok b).
  { destruct (sent_headers rand d (str "Transaction-Id")) as [v|] eqn:G; revert G; unfold sent_headers; keys;
      destruct (h_get (str "X-Mms-Transaction-Id") d) as [u|] eqn:U;
      [|destruct (h_get (str "Transaction-Id") d) as [u|] eqn:U'| |destruct (h_get (str "Transaction-Id") d)];
      try discriminate.
    - intros G. assert (u = v) by congruence. subst u. apply (SD _ v).
      + unfold sent_headers. keys. rewrite U. reflexivity.
      + apply (Hs _ (str "X-Mms-Transaction-Id") v (or_intror (or_introl eq_refl))). auto.
    - intros G. assert (u = v) by congruence. subst u. apply (SD _ v).
      + unfold sent_headers. keys. rewrite U, U'. reflexivity.
      + apply (Hs _ (str "X-Mms-Transaction-Id") v (or_intror (or_introl eq_refl))). auto.
    - intros G. apply (SD _ (HStr (py_dec rand))); [|apply id_default_sent; lia].
      unfold sent_headers. keys. rewrite U, U'. reflexivity. }
  assert (O3 : exists b, encode_entry (str "MMS-Version") D = Ok b).
  { destruct (sent_headers rand d (str "MMS-Version")) as [v|] eqn:G; revert G; unfold sent_headers; keys;
      destruct (h_get (str "X-Mms-Version") d) as [u|] eqn:U;
      [|destruct (h_get (str "MMS-Version") d) as [u|] eqn:U'| |destruct (h_get (str "MMS-Version") d)];
      try discriminate.
    - intros G. assert (u = v) by congruence. subst u. apply (SD _ v).
      + unfold sent_headers. keys. rewrite U. reflexivity.
      + apply (Hs _ (str "X-Mms-Version") v (or_intror (or_intror (or_introl eq_refl)))). auto.
    - intros G. assert (u = v) by congruence. subst u. apply (SD _ v).
      + unfold sent_headers. keys. rewrite U, U'. reflexivity.
      + apply (Hs _ (str "X-Mms-Version") v (or_intror (or_intror (or_introl eq_refl)))). auto.
    - intros G. apply (SD _ (HStr (str "1.0"))); [|exact version_default_sent].
      unfold sent_headers. keys. rewrite U, U'. reflexivity. }
  destruct O1 as (b1 & O1). destruct O2 as (b2 & O2). destruct O3 as (b3 & O3).
  assert (N : forall k, In k (leading ++ leading_x) -> h_get k (m_headers m1) = None).
  { intros k Hk. rewrite (left_headers _ _ _ _ _ _ k Hd E). fold d. fold D. rewrite O1, O2, O3.
    cbn [In leading leading_x app] in Hk.
    repeat destruct Hk as [<-|Hk]; try contradiction; keys; reflexivity. }
  split; [intros k Hk X; exact (X (N k Hk))|].
  intros render2 w2 rand2 m2 bytes m3 Hd2 A E2.
  destruct (encode_inv _ _ _ _ _ _ E2) as (h & b & m0 & F1 & _ & -> & _).
  destruct (message_header_inv _ _ _ _ _ Hd2 F1) as (_ & v & n & more & F2 & F3 & ->).
  rewrite sent_type in F2 by (intros X; apply X; rewrite A by (cbn [In leading leading_x app]; tauto);
    apply N; cbn [In leading leading_x app]; tauto).
  rewrite A, N in F2 by (cbn [In leading leading_x app]; tauto).
  assert (v = HStr (str "m-retrieve-conf")) by congruence. subst v.
  assert (n = 132) by (vm_compute in F3; congruence). subst n. eexists. reflexivity.
Qed.
Print Assumptions C109_retry.

(** So what was wanted does not hold: a send request with a subject of the wrong
    type fails; with the subject corrected it goes out as a retrieve
    confirmation, under another identifier, while the same message built
    correctly at once is a send request. *)
Theorem C109_kept_refuted : exists render w m m1 bytes bytes' m2 m3,
  is_dict (m_headers m) /\
  h_get (str "Message-Type") (m_headers m) = Some (HStr (str "m-send-req")) /\
  has (str "To") (m_headers m) /\
  (exists e, encode render w 1111 m = (Err e, m1)) /\
  (let fix_subject x :=
     with_headers (d_set leqb (str "Subject") (HStr (str "five")) (m_headers x)) x in
   encode render w 2222 (fix_subject m1) = (Ok bytes, m2) /\
   encode render w 2222 (fix_subject m) = (Ok bytes', m3)) /\
  firstn 9 bytes = [140; 132; 152] ++ str "2222" ++ [0; 141] /\
  firstn 9 bytes' = [140; 128; 152] ++ str "1234" ++ [0; 141].
Proof.
  exists (fun _ => []), (World (fun _ => None) (fun _ => None) (fun d => d)).
  exists (with_headers (default_headers ++ [(str "To", HStr (str "a@b")); (str "Subject", HInt 5)]) new_message).
  do 5 eexists. split.
  { unfold is_dict. vm_compute. repeat constructor; cbn [In]; intros X;
      repeat destruct X as [X|X]; try discriminate X; contradiction. }
  split; [reflexivity|]. split; [vm_compute; discriminate|].
  split; [eexists; vm_compute; reflexivity|].
  split; [split; vm_compute; reflexivity|]. split; vm_compute; reflexivity.
Qed.
Print Assumptions C109_kept_refuted.
