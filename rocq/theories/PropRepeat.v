(** Which type a message is sent under (C55), and when encoding a message again
    gives the same bytes (C54), for all messages. *)
From Coq Require Import Lia ZifyBool ZifyNat.
From Verif Require Import Py Iter Tables WspDec WspEnc Message MmsEnc MmsDec
  SpecWsp SpecVersion WspClaims MmsClaims SpecSmil PyFacts IterFacts WspFacts ContentFacts HeaderFacts
  MsgHeaderFacts BodyFacts MessageFacts PropHeaders PropBody PropVersion.
Open Scope Z_scope.

(** The value a message was given under one name or another; the first counts. *)
Definition given (a b : list Z) (d : list (list Z * hval)) (v : hval) : Prop :=
  h_get a d = Some v \/ (~ has a d /\ h_get b d = Some v).

(** The names of the message types of the standard. *)
Definition type_names : list (list Z) :=
  [str "m-send-req"; str "m-send-conf"; str "m-notification-ind"; str "m-notifyresp-ind";
   str "m-retrieve-conf"; str "m-acknowledge-ind"; str "m-delivery-ind"].

(** * The type *)

Lemma type_code : forall v n, encode_message_type_value v = Ok [n] ->
  (n = 128 <-> v = HStr (str "m-send-req") \/ forall s, In s type_names -> v <> HStr s) /\
  (n = 132 <-> v = HStr (str "m-retrieve-conf")).
Proof.
  intros v n H.
  assert (Z : forall x : hval, (forall s, x <> HStr s) ->
    (128 = 128 <-> x = HStr (str "m-send-req") \/ forall s, In s type_names -> x <> HStr s) /\
    (128 = 132 <-> x = HStr (str "m-retrieve-conf"))).
  { intros x Hx. split; split; try (intros; lia).
    - intros _. right. intros s _. apply Hx.
    - intros Y. destruct (Hx _ Y). }
  destruct v as [[s| | |]| | | |]; cbn [encode_message_type_value] in H; try discriminate H;
    try (assert (n = 128) by congruence; subst n; apply Z; intros s; discriminate).
  assert (E : n = match d_get leqb s message_types with Some k => k | None => 128 end) by congruence.
  subst n. clear H.
  destruct (d_get leqb s message_types) as [k|] eqn:G.
  - apply d_get_In in G; [|apply leqb_eq|].
    2:{ repeat constructor; cbn [In fst map message_types]; intros Y;
        repeat destruct Y as [Y|Y]; try discriminate Y; try contradiction. }
    assert (D : forall t, HP (PStr s) = HStr t -> s = t) by (intros t Y; inversion Y; reflexivity).
    cbn [In message_types] in G.
    repeat destruct G as [G|G]; try contradiction; apply pair_equal_spec in G; destruct G as (<- & <-);
      (split; split; [intros Y|intros [Y|Y]|intros Y|intros Y]); try discriminate Y; try reflexivity;
      try (left; reflexivity);
      try (exfalso; apply D in Y; discriminate Y);
      exfalso; (eapply Y; [|reflexivity]); cbn [In type_names]; tauto.
  - apply d_get_None in G; [|apply leqb_eq].
    split; split; try lia.
    + intros _. right. intros t Ht X. apply G. inversion X; subst. exact Ht.
    + intros X. exfalso. apply G. inversion X; subst. cbn [In map fst message_types]. tauto.
Qed.

Lemma sent_given : forall rand d,
  forall v, sent_headers rand d (str "Message-Type") = Some v ->
  (given (str "X-Mms-Message-Type") (str "Message-Type") d v /\
   (v = HStr (str "m-send-req") -> has (str "To") d \/ has (str "Cc") d \/ has (str "Bc") d)) \/
  (v = HStr (str "m-retrieve-conf") /\
   (forall u, given (str "X-Mms-Message-Type") (str "Message-Type") d u ->
      u = HStr (str "m-send-req") /\ ~ has (str "To") d /\ ~ has (str "Cc") d /\ ~ has (str "Bc") d)).
Proof.
  intros rand d v. unfold sent_headers. keys. unfold given, has.
  destruct (h_get (str "X-Mms-Message-Type") d) as [x|] eqn:X.
  - destruct (is_hstr x (str "m-send-req") && negb (h_mem (str "To") d)
       && negb (h_mem (str "Cc") d) && negb (h_mem (str "Bc") d)) eqn:C; intros E.
    + right. split; [congruence|]. intros u [U|(U & _)]; [|destruct U; discriminate].
      assert (u = x) by congruence. subst u. rewrite !andb_true_iff, !negb_true_iff in C.
      destruct C as (((C1 & C2) & C3) & C4). unfold h_mem in *.
      split; [|destruct (h_get (str "To") d), (h_get (str "Cc") d), (h_get (str "Bc") d); try discriminate; auto].
      destruct x as [[s| | |]| | | |]; try discriminate C1. cbn [is_hstr] in C1. apply leqb_eq in C1.
      subst. reflexivity.
    + left. assert (v = x) by congruence. subst v. split; [left; reflexivity|]. intros ->.
      change (is_hstr (HStr (str "m-send-req")) (str "m-send-req")) with true in C. cbn [andb] in C.
      unfold h_mem in C.
      destruct (h_get (str "To") d), (h_get (str "Cc") d), (h_get (str "Bc") d); cbn [andb negb] in C;
        try discriminate C; intuition discriminate.
  - destruct (h_get (str "Message-Type") d) as [x|] eqn:Y.
    + destruct (is_hstr x (str "m-send-req") && negb (h_mem (str "To") d)
         && negb (h_mem (str "Cc") d) && negb (h_mem (str "Bc") d)) eqn:C; intros E.
      * right. split; [congruence|]. intros u [U|(_ & U)]; [discriminate|].
        assert (u = x) by congruence. subst u. rewrite !andb_true_iff, !negb_true_iff in C.
        destruct C as (((C1 & C2) & C3) & C4). unfold h_mem in *.
        split; [|destruct (h_get (str "To") d), (h_get (str "Cc") d), (h_get (str "Bc") d); try discriminate; auto].
        destruct x as [[s| | |]| | | |]; try discriminate C1. cbn [is_hstr] in C1. apply leqb_eq in C1.
        subst. reflexivity.
      * left. assert (v = x) by congruence. subst v. split; [right; auto|]. intros ->.
        change (is_hstr (HStr (str "m-send-req")) (str "m-send-req")) with true in C. cbn [andb] in C.
        unfold h_mem in C.
        destruct (h_get (str "To") d), (h_get (str "Cc") d), (h_get (str "Bc") d); cbn [andb negb] in C;
          try discriminate C; intuition discriminate.
    + intros E. right. split; [congruence|]. intros u [U|(_ & U)]; discriminate.
Qed.

Lemma given_unique : forall a b d u v, given a b d u -> given a b d v -> u = v.
Proof.
  unfold given, has. intros a b d u v [A|(A & A')] [B|(B & B')]; try congruence;
    exfalso; [apply B|apply A]; congruence.
Qed.

(** C55, settled: the message goes out as a send request (0x8c 0x80) just when its
    type is m-send-req and it has a header To, Cc or "Bc", or its type is none of
    the names of the standard; a message without a type goes out as
    m-retrieve-conf. *)
Theorem C55_exact : forall render w rand m bytes m', is_dict (m_headers m) ->
  encode render w rand m = (Ok bytes, m') ->
  ((exists more, bytes = 140 :: 128 :: more) <->
   exists v, given (str "X-Mms-Message-Type") (str "Message-Type") (m_headers m) v /\
     ((v = HStr (str "m-send-req") /\
       (has (str "To") (m_headers m) \/ has (str "Cc") (m_headers m) \/ has (str "Bc") (m_headers m))) \/
      forall s, In s type_names -> v <> HStr s)).
Proof.
  intros render w rand m bytes m' Hd E.
  destruct (encode_inv _ _ _ _ _ _ E) as (h & b & m0 & F1 & _ & -> & _).
  destruct (message_header_inv _ _ _ _ _ Hd F1) as (_ & v & n & more & F2 & F3 & ->).
  destruct (type_code v n F3) as (T & _).
  destruct (sent_given _ _ _ F2) as [(G & R)|(-> & N)].
  - split.
    + intros (y & Y). apply (f_equal (fun l => nth 1 l 0)) in Y. cbn [nth app] in Y.
      exists v. split; [exact G|]. apply T in Y. destruct Y as [Y|Y]; [left; auto|right; exact Y].
    + intros (u & G' & U). rewrite <- (given_unique _ _ _ _ _ G G') in U.
      assert (n = 128) by (apply T; destruct U as [(U & _)|U]; auto). subst n.
      eexists. reflexivity.
  - assert (n = 132) by (vm_compute in F3; congruence). subst n. split.
    + intros (y & Y). apply (f_equal (fun l => nth 1 l 0)) in Y. cbn [nth app] in Y. lia.
    + intros (u & G & U). exfalso. destruct (N u G) as (-> & A & B & C).
      destruct U as [(_ & U)|U]; [tauto|]. apply (U (str "m-send-req")); [left|]; reflexivity.
Qed.
Print Assumptions C55_exact.
Example C55_exact_case :
  let w := World (fun _ => None) (fun _ => None) (fun d => d) in
  let run h := match fst (encode (fun _ => []) w 1111 (with_headers h new_message)) with
               | Ok b => firstn 2 b | Err _ => [] end in
  run (default_headers ++ [(str "Cc", HStr (str "a@b"))]) = [140; 128] /\
  run (default_headers ++ [(str "Bcc", HStr (str "a@b"))]) = [140; 132] /\
  run (d_set leqb (str "Message-Type") (HStr (str "M-Send-Req")) default_headers) = [140; 128].
Proof. vm_compute. auto. Qed.

(** * Encoding again *)

Lemma entry_del : forall k k' d, is_dict d -> leqb k k' = false ->
  encode_entry k (d_del leqb k' d) = encode_entry k d.
Proof. intros k k' d Hd H. unfold encode_entry. rewrite h_get_del, H by exact Hd. reflexivity. Qed.

Lemma header_shape : forall w rand m bytes m', is_dict (m_headers m) ->
  let D := fix_rest rand (fix_message_type (renames (m_headers m))) in
  let H := dels sent_first D in
  encode_message_header w rand m = (Ok bytes, m') <->
  m' = with_headers H m /\ exists a1 a2 a3 b c,
    encode_entry (str "Message-Type") D = Ok a1 /\ encode_entry (str "Transaction-Id") D = Ok a2 /\
    encode_entry (str "MMS-Version") D = Ok a3 /\ encode_others w H = Ok b /\ encode_last H = Ok c /\
    bytes = (a1 ++ a2 ++ a3) ++ b ++ c.
Proof.
  intros w rand m bytes m' Hd D H.
  assert (HD : is_dict D) by (apply is_dict_rest, is_dict_type, is_dict_renames, Hd).
  assert (X : encode_message_header w rand m =
    match encode_entry (str "Message-Type") D with
    | Err e => (Err e, with_headers D m)
    | Ok a1 =>
      match encode_entry (str "Transaction-Id") D with
      | Err e => (Err e, with_headers (d_del leqb (str "Message-Type") D) m)
      | Ok a2 =>
        match encode_entry (str "MMS-Version") D with
        | Err e => (Err e, with_headers (d_del leqb (str "Transaction-Id") (d_del leqb (str "Message-Type") D)) m)
        | Ok a3 =>
          match encode_others w H with
          | Err e => (Err e, with_headers H m)
          | Ok b => match encode_last H with
                    | Err e => (Err e, with_headers H m)
                    | Ok c => (Ok ((a1 ++ a2 ++ a3) ++ b ++ c), with_headers H m)
                    end
          end
        end
      end
    end).
  { unfold encode_message_header. unfold st_bind at 1 2 3, st_upd at 1 2 3.
    cbn [with_headers m_headers]. fold D. rewrite !with_headers_twice.
    cbn [encode_first]. unfold st_bind, st_get, st_lift, st_upd, st_ret. cbn [with_headers m_headers].
    rewrite !entry_del by (repeat apply is_dict_del; exact HD || reflexivity).
    destruct (encode_entry (str "Message-Type") D); [|reflexivity].
    destruct (encode_entry (str "Transaction-Id") D); [|reflexivity].
    destruct (encode_entry (str "MMS-Version") D); [|reflexivity].
    rewrite app_nil_r. rewrite !with_headers_twice. cbn [with_headers m_headers].
    change (d_del leqb (str "MMS-Version")
      (d_del leqb (str "Transaction-Id") (d_del leqb (str "Message-Type") D))) with H.
    destruct (encode_others w H); [|reflexivity]. destruct (encode_last H); reflexivity. }
  rewrite X. clear X. split.
  - destruct (encode_entry (str "Message-Type") D) as [a1|]; [|discriminate].
    destruct (encode_entry (str "Transaction-Id") D) as [a2|]; [|discriminate].
    destruct (encode_entry (str "MMS-Version") D) as [a3|]; [|discriminate].
    destruct (encode_others w H) as [b|]; [|discriminate]. destruct (encode_last H) as [c|]; [|discriminate].
    intros E. split; [congruence|]. exists a1, a2, a3, b, c. repeat split. congruence.
  - intros (-> & a1 & a2 & a3 & b & c & -> & -> & -> & -> & -> & ->). reflexivity.
Qed.

(** The octets of the first three headers. *)
Lemma type_entry : forall v a, (l <- mms_encode_header (str "Message-Type") v ;; array_of l) = Ok a ->
  exists n, encode_message_type_value v = Ok [n] /\ a = [140; n].
Proof.
  intros v a E. unfold mms_encode_header in E.
  replace (find_field (str "Message-Type")) with (Some (12, (str "Message-Type", MMessageType)))
    in E by (vm_compute; reflexivity).
  rewrite encode_short_integer_ok in E by lia. cbn [bind encode_mms_value] in E.
  assert (S : forall x l, encode_message_type_value x = Ok l -> exists n, l = [n]).
  { intros x l. unfold encode_message_type_value. destruct x as [[]| | | |];
      intros X; inversion X; eauto. }
  destruct (encode_message_type_value v) as [l|] eqn:El; [|discriminate].
  destruct (S v l El) as (n & ->). cbn [bind] in E. exists n. split; [reflexivity|].
  revert E. cbn [ints map app]. unfold array_of. cbn [mapM array_item].
  change ((0 <=? 128 + 12) && (128 + 12 <? 256)) with true. cbn [bind].
  destruct ((0 <=? n) && (n <? 256)); [|discriminate]. cbn [bind]. intros X. injection X as <-. reflexivity.
Qed.

Lemma array_back : forall l a, array_of (ints l) = Ok a -> a = l.
Proof.
  unfold array_of, ints. induction l as [|x l IH]; cbn [map mapM array_item]; intros a E; [congruence|].
  destruct ((0 <=? x) && (x <? 256)); [|discriminate]. cbn [bind] in E.
  destruct (mapM array_item (map EInt l)) as [r|]; [|discriminate]. cbn [bind] in E.
  rewrite <- (IH r eq_refl). congruence.
Qed.

Lemma ints_app : forall a b, ints a ++ ints b = ints (a ++ b).
Proof. intros. unfold ints. symmetry. apply map_app. Qed.

Lemma id_entry : forall v a, (l <- mms_encode_header (str "Transaction-Id") v ;; array_of l) = Ok a ->
  exists s, (v = HStr s \/ length s = 2%nat /\ forall x, v <> HStr x) /\ a = 152 :: s ++ [0].
Proof.
  intros v a E. unfold mms_encode_header in E.
  replace (find_field (str "Transaction-Id")) with (Some (24, (str "Transaction-Id", MTextString)))
    in E by (vm_compute; reflexivity).
  rewrite encode_short_integer_ok in E by lia. cbn [bind encode_mms_value] in E.
  destruct v as [[s| | |]| | | |p q]; try discriminate E.
  - cbn [encode_text_string_h encode_text_string_p bind] in E. exists s. split; [left; reflexivity|].
    rewrite ints_app in E. apply array_back in E. exact E.
  - destruct p as [|c [|? ?]]; try discriminate E. destruct q as [[|d [|? ?]]| | |]; try discriminate E.
    cbn [encode_text_string_h bind] in E. exists [c; d].
    split; [right; split; [reflexivity|intros x X; discriminate X]|].
    rewrite ints_app in E. apply array_back in E. exact E.
Qed.

Lemma version_entry : forall v a, (l <- mms_encode_header (str "MMS-Version") v ;; array_of l) = Ok a ->
  exists s, v = HStr s /\ a = 141 :: encode_version_value s.
Proof.
  intros v a E. unfold mms_encode_header in E.
  replace (find_field (str "MMS-Version")) with (Some (13, (str "MMS-Version", MVersion)))
    in E by (vm_compute; reflexivity).
  rewrite encode_short_integer_ok in E by lia. cbn [bind encode_mms_value] in E.
  destruct v as [[s| | |]| | | |]; try discriminate E.
  cbn [encode_version_value_h encode_version_value_p bind] in E. exists s. split; [reflexivity|].
  rewrite ints_app in E. apply array_back in E. exact E.
Qed.

Lemma del_set : forall k (v : hval) d, ~ has k d -> d_del leqb k (d_set leqb k v d) = d.
Proof.
  intros k v d. unfold has, h_get. induction d as [|[a x] d IH]; cbn [d_get d_set]; intros H.
  - cbn [d_del]. rewrite leqb_refl. reflexivity.
  - destruct (leqb k a) eqn:C; [destruct H; discriminate|]. cbn [d_del]. rewrite C. f_equal. apply IH. exact H.
Qed.

Lemma del_set_other : forall k k' (v : hval) d, leqb k k' = false ->
  d_del leqb k (d_set leqb k' v d) = d_set leqb k' v (d_del leqb k d).
Proof.
  intros k k' v d Hk. induction d as [|[a x] d IH]; cbn [d_set d_del].
  - rewrite Hk. reflexivity.
  - destruct (leqb k' a) eqn:C'; destruct (leqb k a) eqn:C.
    + apply leqb_eq in C, C'. subst. rewrite leqb_refl in Hk. discriminate.
    + cbn [d_del d_set]. rewrite C, C'. reflexivity.
    + cbn [d_del]. rewrite C. reflexivity.
    + cbn [d_del d_set]. rewrite C, C'. f_equal. exact IH.
Qed.

Lemma rename_none : forall a b d, ~ has a d -> rename a b d = d.
Proof. intros a b d H. unfold rename. rewrite (not_has _ _ H). reflexivity. Qed.

(** The headers are the same after every further encoding. *)
Lemma fixed_again : forall rand2 H, is_dict H ->
  (forall k, In k [str "X-Mms-Message-Type"; str "X-Mms-Transaction-Id"; str "X-Mms-Version";
                   str "Message-Type"; str "Transaction-Id"; str "MMS-Version"] -> ~ has k H) ->
  let D := fix_rest rand2 (fix_message_type (renames H)) in
  dels sent_first D = H /\ h_get (str "Message-Type") D = Some (HStr (str "m-retrieve-conf")) /\
  h_get (str "Transaction-Id") D = Some (HStr (py_dec rand2)) /\
  h_get (str "MMS-Version") D = Some (HStr (str "1.0")).
Proof.
  intros rand2 H Hd Hn D.
  assert (N : forall k, In k [str "X-Mms-Message-Type"; str "X-Mms-Transaction-Id"; str "X-Mms-Version";
                   str "Message-Type"; str "Transaction-Id"; str "MMS-Version"] -> h_get k H = None).
  { intros k Hk. apply not_has, Hn, Hk. }
  split; [|split; [|split]].
  - assert (E1 : renames H = H).
    { unfold renames.
      rewrite (rename_none (str "X-Mms-Message-Type")) by (apply Hn; cbn [In]; tauto).
      rewrite (rename_none (str "X-Mms-Transaction-Id")) by (apply Hn; cbn [In]; tauto).
      apply rename_none. apply Hn. cbn [In]. tauto. }
    assert (E2 : fix_message_type H = d_set leqb (str "Message-Type") (HStr (str "m-retrieve-conf")) H).
    { unfold fix_message_type, h_mem. rewrite (N (str "Message-Type")) by (cbn [In]; tauto).
      rewrite h_get_set, leqb_refl.
      change (is_hstr (HStr (str "m-retrieve-conf")) (str "m-send-req")) with false. reflexivity. }
    unfold D. rewrite E1, E2. unfold fix_rest, h_mem. rewrite !h_get_set. keys.
    rewrite (N (str "Transaction-Id")) by (cbn [In]; tauto). rewrite !h_get_set. keys.
    rewrite (N (str "MMS-Version")) by (cbn [In]; tauto).
    unfold dels, sent_first. cbn [fold_left].
    rewrite !(del_set_other (str "Message-Type")) by reflexivity.
    rewrite del_set by (apply Hn; cbn [In]; tauto).
    rewrite (del_set_other (str "Transaction-Id")) by reflexivity.
    rewrite (del_set (str "Transaction-Id")) by (apply Hn; cbn [In]; tauto).
    apply del_set. apply Hn. cbn [In]. tauto.
  - unfold D. rewrite sent_spec by exact Hd. unfold sent_headers. keys.
    rewrite !N by (cbn [In]; tauto). reflexivity.
  - unfold D. rewrite sent_spec by exact Hd. unfold sent_headers. keys.
    rewrite !N by (cbn [In]; tauto). reflexivity.
  - unfold D. rewrite sent_spec by exact Hd. unfold sent_headers. keys.
    rewrite !N by (cbn [In]; tauto). reflexivity.
Qed.

Lemma version_code : forall s, encode_version_value s = [144] <-> Major_minor 1 0 s.
Proof.
  intros s. rewrite C47_exact. split.
  - intros H. remember [144] as l eqn:El. destruct H as [M m s P|M s P|s P|s P].
    + apply (f_equal (hd 0)) in El. cbn [hd] in El.
      destruct P as (a & b & P1 & P2 & P3 & P4 & P5 & P6).
      assert (M = 1) by lia. assert (m = 0) by lia. subst M m.
      exists a, b. auto 10.
    + apply (f_equal (hd 0)) in El. cbn [hd] in El. destruct P as (_ & _ & P). lia.
    + discriminate El.
    + exfalso. apply (f_equal (fun l => last l 0)) in El. rewrite last_last in El. discriminate El.
  - intros H. change [144] with [128 + 16 * 1 + 0]. constructor. exact H.
Qed.

Lemma same_start : forall n s ver d, (ver = [] \/ (exists k, ver = [k]) \/ exists t, ver = t ++ [0]) ->
  ([140; n] ++ (152 :: s ++ [0]) ++ 141 :: ver = [140; 132] ++ (152 :: d ++ [0]) ++ [141; 144] <->
   n = 132 /\ s = d /\ ver = [144]).
Proof.
  intros n s ver d Hv. split.
  - cbn [app]. intros E. assert (En : n = 132) by (apply (f_equal (fun l => nth 1 l 0)) in E; exact E).
    assert (E' : (s ++ [0]) ++ 141 :: ver = ((d ++ [0]) ++ [141]) ++ [144])
      by (rewrite <- (app_assoc (d ++ [0])); apply (f_equal (skipn 3)) in E; exact E).
    split; [exact En|]. destruct Hv as [->|[(k & ->)|(t & ->)]].
    + apply app_inj_tail in E'. destruct E' as (_ & E'). discriminate.
    + change (141 :: [k]) with ([141] ++ [k]) in E'. rewrite (app_assoc (s ++ [0])) in E'.
      apply app_inj_tail in E'. destruct E' as (E' & ->).
      apply app_inj_tail in E'. destruct E' as (E' & _).
      apply app_inj_tail in E'. destruct E' as (E' & _). auto.
    + change (141 :: t ++ [0]) with ((141 :: t) ++ [0]) in E'. rewrite (app_assoc (s ++ [0])) in E'.
      apply app_inj_tail in E'. destruct E' as (_ & E'). discriminate.
  - intros (-> & -> & ->). reflexivity.
Qed.

Lemma id_long rand2 : 1000 <= rand2 <= 9999 -> length (py_dec rand2) <> 2%nat.
Proof.
  intros H L. destruct (py_dec_notation rand2) as (_ & P & E & _); [lia|].
  destruct (py_dec rand2) as [|a [|b [|? ?]]]; try discriminate L.
  pose proof (Forall_inv P) as A. pose proof (Forall_inv (Forall_inv_tail P)) as B. cbv beta in A, B.
  unfold digits_value in E. cbn [fold_left] in E. lia.
Qed.

(** C54, settled: a message that was encoded can be encoded again, which leaves it
    as it then is; the bytes are the same just when the type of the message is
    m-retrieve-conf or was missing (or a send request to nobody), the transaction
    identifier is the number drawn the second time, and the version is 1.0. *)
Theorem C54_exact : forall render w rand rand2 m bytes m1,
  is_dict (m_headers m) -> 1000 <= rand2 <= 9999 ->
  encode render w rand m = (Ok bytes, m1) ->
  exists bytes2, encode render w rand2 m1 = (Ok bytes2, m1) /\
    (bytes2 = bytes <->
     sent_headers rand (m_headers m) (str "Message-Type") = Some (HStr (str "m-retrieve-conf")) /\
     sent_headers rand (m_headers m) (str "Transaction-Id") = Some (HStr (py_dec rand2)) /\
     exists s, sent_headers rand (m_headers m) (str "MMS-Version") = Some (HStr s) /\ Major_minor 1 0 s).
Proof.
  intros render w rand rand2 m bytes m1 Hd Hr E.
  destruct (encode_inv _ _ _ _ _ _ E) as (h & body & m0 & F1 & F2 & -> & F3).
  apply header_shape in F1; [|exact Hd]. cbv zeta in F1.
  destruct F1 as (Em & a1 & a2 & a3 & b & c & A1 & A2 & A3 & B & C & Eh).
  pose (H := dels sent_first (fix_rest rand (fix_message_type (renames (m_headers m))))).
  fold H in Em, B, C. rewrite Em in F3. cbn [with_headers m_headers] in F3.
  assert (HH : is_dict H) by (apply is_dict_sent; exact Hd).
  unfold encode_entry in A1, A2, A3. rewrite !sent_spec in A1, A2, A3 by exact Hd.
  destruct (sent_headers rand (m_headers m) (str "Message-Type")) as [v1|] eqn:S1; [|discriminate].
  destruct (sent_headers rand (m_headers m) (str "Transaction-Id")) as [v2|] eqn:S2; [|discriminate].
  destruct (sent_headers rand (m_headers m) (str "MMS-Version")) as [v3|] eqn:S3; [|discriminate].
  destruct (type_entry _ _ A1) as (n & T1 & ->). destruct (id_entry _ _ A2) as (s & Hid & ->).
  destruct (version_entry _ _ A3) as (ver & -> & ->).
  assert (HN : forall k, In k [str "X-Mms-Message-Type"; str "X-Mms-Transaction-Id"; str "X-Mms-Version";
                   str "Message-Type"; str "Transaction-Id"; str "MMS-Version"] -> ~ has k H).
  { intros k Hk X. apply X. unfold H. rewrite h_get_dels by (apply is_dict_rest, is_dict_type, is_dict_renames, Hd).
    rewrite sent_spec by exact Hd. cbn [In] in Hk.
    repeat destruct Hk as [<-|Hk]; try contradiction; reflexivity. }
  destruct (fixed_again rand2 H HH HN) as (D1 & D2 & D3 & D4).
  pose (new := [140; 132] ++ (152 :: py_dec rand2 ++ [0]) ++ [141; 144]).
  assert (G1 : encode_message_header w rand2 m1 = (Ok (new ++ b ++ c), m1)).
  { apply header_shape; rewrite F3; [exact HH|]. cbv zeta. split.
    - rewrite D1, <- F3. destruct m1; reflexivity.
    - exists [140; 132], (152 :: py_dec rand2 ++ [0]), [141; 144], b, c. rewrite D1.
      unfold encode_entry. rewrite D2, D3, D4.
      split; [vm_compute; reflexivity|]. split; [|split; [vm_compute; reflexivity|auto]].
      unfold mms_encode_header.
      replace (find_field (str "Transaction-Id")) with (Some (24, (str "Transaction-Id", MTextString)))
        by (vm_compute; reflexivity).
      rewrite encode_short_integer_ok by lia. cbn [bind encode_mms_value].
      unfold HStr. cbn [encode_text_string_h encode_text_string_p bind]. rewrite ints_app.
      rewrite array_of_ints; [reflexivity|].
      destruct (py_dec_notation rand2) as (_ & P & _); [lia|]. cbn [app]. constructor; [unfold is_octet; lia|].
      apply Forall_app. split; [|constructor; [unfold is_octet; lia|constructor]].
      eapply Forall_impl; [|exact P]. cbv beta. unfold is_octet. lia. }
  assert (G2 : encode_message_body render w m1 = (Ok body, m1)).
  { apply (C54_body_partial _ _ _ _ _ F2). }
  exists ((new ++ b ++ c) ++ body). split.
  { unfold encode, st_bind. rewrite G1, G2. reflexivity. }
  rewrite Eh.
  assert (Q : (new ++ b ++ c) ++ body = (([140; n] ++ (152 :: s ++ [0]) ++ 141 :: encode_version_value ver) ++ b ++ c) ++ body
    <-> [140; n] ++ (152 :: s ++ [0]) ++ 141 :: encode_version_value ver = new).
  { split; [|intros ->; reflexivity]. intros X. apply app_inv_tail in X. apply app_inv_tail in X. auto. }
  rewrite Q. unfold new. rewrite same_start.
  2:{ pose proof (version_sent ver) as V. inversion V; eauto. }
  rewrite version_code. destruct (type_code v1 n T1) as (_ & T2). rewrite T2.
  split.
  - intros (-> & -> & V). split; [reflexivity|]. split; [|exists ver; auto].
    destruct Hid as [->|(L & _)]; [reflexivity|exfalso]. exact (id_long rand2 Hr L).
  - intros (V1 & V2 & s' & V3 & V). split; [congruence|]. split.
    + destruct Hid as [->|(_ & N)]; [|exfalso; apply (N (py_dec rand2)); congruence].
      assert (V2' : HStr s = HStr (py_dec rand2)) by congruence. inversion V2'. reflexivity.
    + assert (V3' : HStr ver = HStr s') by congruence. inversion V3'. subst. exact V.
Qed.
Print Assumptions C54_exact.

(** A message whose bytes are the same the second time, and one whose are not. *)
Example C54_exact_case :
  let w := World (fun _ => None) (fun _ => None) (fun d => d) in
  let again id := let m := with_headers [(str "Transaction-Id", HStr id);
                      (str "Content-Type", HType (str "application/vnd.wap.multipart.mixed") [])] new_message in
    match encode (fun _ => []) w 1111 m with
    | (Ok a, m1) => match encode (fun _ => []) w 2222 m1 with
                    | (Ok b, _) => Some (leqb a b)
                    | _ => None end
    | _ => None end in
  again (str "2222") = Some true /\ again (str "1234") = Some false.
Proof. vm_compute. auto. Qed.
