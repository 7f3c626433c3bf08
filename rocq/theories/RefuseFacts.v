(** Proofs about what [MMSMessage.encode] refuses. *)
From Coq Require Import Lia ZifyBool ZifyNat Permutation.
From Verif Require Import Py Iter Tables WspDec WspEnc Message MmsEnc MmsDec
  SpecWsp SpecVersion WspClaims MmsClaims SpecSmil SpecRefuse PyFacts IterFacts WspFacts ContentFacts
  HeaderFacts MsgHeaderFacts BodyFacts MessageFacts PropVersion PropRepeat.
Open Scope Z_scope.

(** * Octets *)

Definition oct (l : list Z) : bool := forallb (fun n => (0 <=? n) && (n <? 256)) l.

Lemma oct_wide : forall l, oct l = false <-> wide l.
Proof.
  intros l. unfold oct, wide. induction l as [|c l IH]; cbn [forallb].
  - split; [discriminate|intros (c & [] & _)].
  - split.
    + intros H. destruct ((0 <=? c) && (c <? 256)) eqn:E; cbn [andb] in H.
      * apply IH in H. destruct H as (d & Hd & N). exists d. split; [right; exact Hd|exact N].
      * exists c. split; [left; reflexivity|lia].
    + intros (d & [->|Hd] & N).
      * replace ((0 <=? d) && (d <? 256)) with false by lia. reflexivity.
      * rewrite (proj2 IH) by eauto. apply Bool.andb_false_r.
Qed.

Lemma oct_narrow : forall l, oct l = true <-> ~ wide l.
Proof.
  intros l. rewrite <- oct_wide. destruct (oct l); split; congruence.
Qed.

Lemma oct_app : forall a b, oct (a ++ b) = oct a && oct b.
Proof. intros. apply forallb_app. Qed.

Lemma array_ints : forall l, array_of (ints l) = if oct l then Ok l else Err OverflowError.
Proof.
  induction l as [|c l IH]; [reflexivity|]. unfold array_of, ints in *.
  cbn [map mapM array_item oct forallb]. fold (oct l).
  destruct ((0 <=? c) && (c <? 256)); cbn [bind andb]; [|reflexivity].
  rewrite IH. destruct (oct l); reflexivity.
Qed.

Lemma array_join : forall a b, array_of (a ++ b) =
  (x <- array_of a ;; y <- array_of b ;; Ok (x ++ y)).
Proof.
  unfold array_of. induction a as [|c a IH]; intros b.
  - cbn [app mapM bind]. destruct (mapM array_item b); reflexivity.
  - cbn [app mapM]. destruct (array_item c); [|reflexivity]. cbn [bind]. rewrite IH.
    destruct (mapM array_item a); [|reflexivity]. cbn [bind].
    destruct (mapM array_item b); reflexivity.
Qed.

Lemma wide_app : forall a b, wide (a ++ b) <-> wide a \/ wide b.
Proof.
  intros a b. unfold wide. split.
  - intros (c & H & N). apply in_app_iff in H. destruct H; [left|right]; eauto.
  - intros [(c & H & N)|(c & H & N)]; exists c; (split; [apply in_app_iff; auto|exact N]).
Qed.

Lemma separated_iff : forall s, existsb is_separator s = true <-> separated s.
Proof.
  intros s. rewrite existsb_exists. unfold separated. split; intros (c & H & E); exists c;
    (split; [exact H|]); apply is_separator_iff; exact E.
Qed.

Lemma separated_not : forall s, existsb is_separator s = false <-> ~ separated s.
Proof. intros s. rewrite <- separated_iff. destruct (existsb is_separator s); split; congruence. Qed.

Lemma oct_text : forall s, oct (encode_text_string s) = oct s.
Proof. intros s. unfold encode_text_string. rewrite oct_app. cbn. apply Bool.andb_true_r. Qed.

Lemma oct_Forall : forall l, Forall is_octet l -> oct l = true.
Proof.
  intros l H. apply forallb_forall. intros c Hc. rewrite Forall_forall in H. specialize (H c Hc).
  unfold is_octet in H. lia.
Qed.

Lemma oct_length : forall n, 0 <= n -> oct (encode_value_length n) = true.
Proof. intros n H. apply oct_Forall, value_length_octets, H. Qed.

(** * Numbers *)

Lemma machine_iff : forall n, is_int n = true <-> machine n.
Proof. intros n. unfold is_int, machine, maxint. change (2 ^ 63) with 9223372036854775808. lia. Qed.

Lemma machine_not : forall n, is_int n = false <-> ~ machine n.
Proof. intros n. rewrite <- machine_iff. destruct (is_int n); split; congruence. Qed.

Lemma long_enc_oct : forall f n, oct (long_enc f n) = true.
Proof.
  induction f as [|f IH]; intros n; [reflexivity|]. cbn [long_enc].
  destruct (0 <? n) eqn:E; [|reflexivity]. cbn [oct forallb]. fold (oct (long_enc f (Z.shiftr n 8))).
  rewrite IH, Z.land_comm. change 255 with (Z.ones 8). rewrite Z.land_ones by lia.
  pose proof (Z.mod_pos_bound n (2 ^ 8)). change (2 ^ 8) with 256 in *. lia.
Qed.

Lemma long_enc_short : forall k f n, n < 256 ^ Z.of_nat k -> zlen (long_enc f n) <= Z.of_nat k.
Proof.
  induction k as [|k IH]; intros f n H.
  - destruct f; [cbn; lia|]. cbn [long_enc]. change (256 ^ Z.of_nat 0) with 1 in H.
    replace (0 <? n) with false by lia. cbn. lia.
  - destruct f; [cbn; lia|]. cbn [long_enc]. destruct (0 <? n) eqn:E; [|cbn; lia].
    rewrite zlen_cons. rewrite Nat2Z.inj_succ, Z.pow_succ_r in H by lia.
    assert (Z.shiftr n 8 < 256 ^ Z.of_nat k).
    { rewrite Z.shiftr_div_pow2 by lia. change (2 ^ 8) with 256. apply Z.div_lt_upper_bound; lia. }
    specialize (IH f _ H0). lia.
Qed.

Lemma long_integer_out : forall n, (machine n -> exists l, encode_long_integer n = Ok l /\ oct l = true) /\
  (~ machine n -> encode_long_integer n = Err EncodeError).
Proof.
  intros n. unfold encode_long_integer. split; intros H.
  - rewrite (proj2 (machine_iff n) H). cbn [negb]. pose proof (long_enc_oct (S (Z.to_nat (Z.log2 n))) n) as O.
    assert (L : zlen (long_enc (S (Z.to_nat (Z.log2 n))) n) <= 8).
    { apply (long_enc_short 8). unfold machine in H. change (256 ^ Z.of_nat 8) with (2 * 2 ^ 63). lia. }
    cbv zeta. set (l := long_enc _ n) in *. pose proof (zlen_nonneg l).
    replace (30 <? zlen l) with false by lia. eexists. split; [reflexivity|].
    cbn [oct forallb]. fold (oct l). rewrite O. lia.
  - rewrite (proj2 (machine_not n) H). reflexivity.
Qed.

Lemma short_integer_out : forall n, (0 <= n <= 127 -> exists b, encode_short_integer n = Ok [b] /\ oct [b] = true) /\
  (~ (0 <= n <= 127) -> encode_short_integer n = Err EncodeError).
Proof.
  intros n. split; intros H.
  - rewrite encode_short_integer_ok by lia. eexists. split; [reflexivity|]. cbn [oct forallb]. lia.
  - unfold encode_short_integer. replace ((n <? 0) || (127 <? n)) with true by lia. reflexivity.
Qed.

(** * Versions *)

Lemma number_narrow : forall n s, Number n s -> ~ wide s.
Proof.
  intros n s H. destruct H as [sign k before between ds after Hs Hb Hw Ha _ Hd].
  intros (c & Hc & N). apply N. clear N.
  assert (B : forall l, Forall blank l -> In c l -> 0 <= c < 256).
  { intros l F I. rewrite Forall_forall in F. specialize (F c I). unfold blank in F. lia. }
  rewrite !in_app_iff in Hc. destruct Hc as [Hc|[Hc|[Hc|[Hc|Hc]]]]; eauto.
  - cbn [In] in Hs. destruct Hs as [Hs|[Hs|[Hs|[]]]]; apply pair_equal_spec in Hs; destruct Hs as [<- _];
      cbn [In] in Hc; lia.
  - rewrite Forall_forall in Hd. specialize (Hd c Hc). unfold digit in Hd. lia.
Qed.

Lemma version_wide : forall s, oct (encode_version_value s) = false <-> wide s /\ (dot_count s <= 1)%nat.
Proof.
  intros s. pose proof (version_sent s) as S. remember (encode_version_value s) as x eqn:Ex. clear Ex.
  destruct S as [M m s H|M s H|s H|s H].
  - destruct H as (a & b & -> & Hd & Ha & Hb & HM & Hm). split.
    + cbn [oct forallb]. lia.
    + intros [W _]. exfalso. apply wide_app in W. destruct W as [W|W]; [exact (number_narrow _ _ Ha W)|].
      change ([46] ++ b) with ([46] ++ b) in W. apply wide_app in W.
      destruct W as [(c & [<-|[]] & N)|W]; [lia|exact (number_narrow _ _ Hb W)].
  - destruct H as (_ & Hn & HM). split.
    + cbn [oct forallb]. lia.
    + intros [W _]. exfalso. exact (number_narrow _ _ Hn W).
  - split; [discriminate|]. intros [_ X]. lia.
  - destruct H as (Hd & _).
    change (s ++ [0]) with (encode_text_string s). rewrite oct_text, oct_wide. tauto.
Qed.

(** * Headers of the message *)

Definition header_octets (name : list Z) (v : hval) : res (list Z) :=
  l <- mms_encode_header name v ;; array_of l.

Lemma text_out : forall v,
  (exists s, text_of v s /\ encode_text_string_h v = Ok (encode_text_string s)) \/
  ((forall s, ~ text_of v s) /\ encode_text_string_h v = Err TypeError).
Proof.
  intros v.
  destruct v as [[s|n|n d|t]| b|k n|m ps|p q].
  1: left; exists s; split; [left; reflexivity|reflexivity].
  1-6: right; split; [|reflexivity]; intros s [H|(a & b' & H & _)]; discriminate H.
  destruct p as [|a [|a' p]].
  1,3: right; split; [|reflexivity]; intros s [H|(x & y & H & _)]; discriminate H.
  destruct q as [[|b [|b' q]]|n|n d|t].
  2: left; exists [a; b]; split; [right; eauto|reflexivity].
  all: right; split; [|reflexivity]; intros s [H|(x & y & H & _)]; discriminate H.
Qed.

Lemma text_of_unique : forall v s t, text_of v s -> text_of v t -> s = t.
Proof.
  intros v s t [->|(a & b & -> & ->)] [H|(a' & b' & H & E)]; unfold HStr in *; congruence.
Qed.

Lemma listed : forall x l, existsb (leqb x) l = true -> In x l.
Proof.
  intros x l H. apply existsb_exists in H. destruct H as (y & Hy & E). apply leqb_eq in E. subst. exact Hy.
Qed.

Lemma unlisted : forall x l, existsb (leqb x) l = false -> ~ In x l.
Proof.
  intros x l H I. assert (X : existsb (leqb x) l = true) by (apply existsb_exists; exists x; split; [exact I|apply leqb_refl]).
  congruence.
Qed.

Lemma listed_in : forall x l l', In x l -> forallb (fun y => existsb (leqb y) l') l = true -> In x l'.
Proof. intros x l l' H F. rewrite forallb_forall in F. apply listed, F, H. Qed.

Lemma fields_known : forall name, In name (text_fields ++ read_only_fields ++ coded_fields) <->
  In name (map (fun p => fst (snd p)) mms_field_names).
Proof.
  intros name. split; intros H.
  - apply listed_in with (1 := H). vm_compute. reflexivity.
  - apply listed_in with (1 := H). vm_compute. reflexivity.
Qed.

(** Decide whether a name is on a list. *)
Ltac in_list :=
  match goal with
  | |- In _ _ => apply listed; vm_compute; reflexivity
  | |- ~ In _ _ => apply unlisted; vm_compute; reflexivity
  end.
Ltac not_this A :=
  first [ discriminate A
        | exfalso; match type of A with
          | In ?x ?l => revert A; change (~ In x l); in_list
          | ~ In ?x ?l => apply A; in_list
          end ].

Ltac known_field :=
  unfold header_octets, mms_encode_header;
  match goal with |- context [find_field ?x] =>
    let y := eval vm_compute in (find_field x) in
    replace (find_field x) with y by (vm_compute; reflexivity) end;
  rewrite encode_short_integer_ok by lia; cbn [bind encode_mms_value].

Lemma ints_joined : forall a b, ints a ++ ints b = ints (a ++ b).
Proof. intros. symmetry. apply map_app. Qed.

Lemma ints_array : forall A (f : res (list Z) -> A) n l,
  f (array_of (ints [n] ++ ints l)) = f (if oct (n :: l) then Ok (n :: l) else Err OverflowError).
Proof. intros A f n l. rewrite ints_joined, array_ints. reflexivity. Qed.

(** The octets of a numbered field. *)
Lemma numbered_out : forall n l, 0 <= n < 256 ->
  array_of (ints [n] ++ ints l) = if oct l then Ok (n :: l) else Err OverflowError.
Proof.
  intros n l H. rewrite ints_joined, array_ints. cbn [app oct forallb]. fold (oct l).
  replace ((0 <=? n) && (n <? 256)) with true by lia. reflexivity.
Qed.

(** The fields with text. *)
Lemma text_field_out : forall name v, In name text_fields ->
  (exists s b, text_of v s /\ header_octets name v = if oct s then Ok b else Err OverflowError) \/
  (forall s, ~ text_of v s) /\ header_octets name v = Err TypeError.
Proof.
  intros name v H. cbn [text_fields In] in H.
  assert (F : forall n, 0 <= n < 128 ->
    (exists s b, text_of v s /\
       (l <- (a <- encode_from_value v ;; Ok (ints [128 + n] ++ ints a)) ;; array_of l)
         = if oct s then Ok b else Err OverflowError) \/
    (forall s, ~ text_of v s) /\
       (l <- (a <- encode_from_value v ;; Ok (ints [128 + n] ++ ints a)) ;; array_of l) = Err TypeError).
  { intros n Hn. destruct (text_out v) as [(s & T & E)|(N & E)].
    - left.
      assert (G : exists x, encode_from_value v = Ok x /\ oct x = oct s).
      { destruct T as [->|(a & b & -> & ->)].
        - unfold HStr, encode_from_value. destruct s as [|c s].
          + eexists. split; [reflexivity|]. reflexivity.
          + eexists. split; [reflexivity|]. rewrite oct_app, oct_length.
            * cbn [andb app]. cbn [oct forallb]. apply (oct_text (c :: s)).
            * pose proof (zlen_nonneg (encode_text_string (c :: s))). lia.
        - cbn [encode_from_value]. rewrite E. cbn [bind]. eexists. split; [reflexivity|].
          rewrite oct_app, oct_length.
          + cbn [andb app]. cbn [oct forallb]. apply (oct_text [a; b]).
          + pose proof (zlen_nonneg (encode_text_string [a; b])). lia. }
      destruct G as (x & Ex & Ox). exists s. eexists. split; [exact T|]. rewrite Ex. cbn [bind].
      rewrite numbered_out by lia. rewrite Ox. reflexivity.
    - right. split; [exact N|].
      assert (G : encode_from_value v = Err TypeError).
      { destruct v as [[s| | |]| | | |p q]; try reflexivity.
        - exfalso. apply (N s). left. reflexivity.
        - cbn [encode_from_value]. rewrite E. reflexivity. }
      rewrite G. reflexivity. }
  assert (G : forall n, 0 <= n < 128 ->
    (exists s b, text_of v s /\
       (l <- (b <- (l <- encode_text_string_h v ;; Ok (ints l)) ;; Ok (ints [128 + n] ++ b)) ;; array_of l)
         = if oct s then Ok b else Err OverflowError) \/
    (forall s, ~ text_of v s) /\
       (l <- (b <- (l <- encode_text_string_h v ;; Ok (ints l)) ;; Ok (ints [128 + n] ++ b)) ;; array_of l)
         = Err TypeError).
  { intros n Hn. destruct (text_out v) as [(s & T & ->)|(N & ->)].
    - left. exists s. eexists. split; [exact T|]. cbn [bind]. rewrite numbered_out by lia.
      rewrite oct_text. reflexivity.
    - right. split; [exact N|reflexivity]. }
  destruct H as [<-|[<-|[<-|[<-|[<-|[<-|[<-|[<-|[]]]]]]]]]; known_field;
    unfold encode_encoded_string_value; try (apply G; lia).
  specialize (F 9 ltac:(lia)). destruct (encode_from_value v); exact F.
Qed.

Lemma read_only_out : forall name v, In name read_only_fields -> header_octets name v = Err AttributeError.
Proof.
  intros name v H. cbn [read_only_fields In] in H.
  repeat (destruct H as [<-|H]; [known_field; reflexivity|]). destruct H.
Qed.

Lemma d_get_keys : forall A s (d : list (list Z * A)), In s (map fst d) <-> d_get leqb s d <> None.
Proof.
  intros A s. induction d as [|[k v] d IH]; cbn [map fst d_get In].
  - split; [contradiction|congruence].
  - destruct (leqb s k) eqn:E.
    + apply leqb_eq in E. subst. split; [discriminate|auto].
    + rewrite <- IH. split; [intros [->|H]; [rewrite leqb_refl in E; discriminate|exact H]|auto].
Qed.

(** Each header is refused with the exceptions of the list, and with no others. *)
Lemma header_out : forall name v e, name <> str "Content-Type" ->
  (header_octets name v = Err e <-> header_refused name v e).
Proof.
  intros name v e Hct.
  destruct (in_dec (list_eq_dec Z.eq_dec) name (text_fields ++ read_only_fields ++ coded_fields)) as [Hi|Hi].
  2:{ assert (F : forall b, header_octets name v = b <->
        (if existsb is_separator name then Err EncodeError
         else match encode_text_string_h v with
              | Err x => Err x
              | Ok t => if oct name && oct t then Ok (encode_text_string name ++ t) else Err OverflowError
              end) = b).
      { intros b. unfold header_octets, mms_encode_header.
        rewrite find_field_none by (rewrite <- fields_known; exact Hi).
        unfold encode_token_text. destruct (existsb is_separator name); [reflexivity|]. cbn [bind].
        destruct (encode_text_string_h v) as [t|x]; [|reflexivity]. cbn [bind].
        rewrite ints_joined, array_ints, oct_app, oct_text. reflexivity. }
      rewrite F. clear F. split.
      - intros E. destruct (existsb is_separator name) eqn:S.
        + injection E as <-. apply hr_name; [exact Hi|apply separated_iff; exact S].
        + apply separated_not in S. destruct (text_out v) as [(s & T & Et)|(N & Et)]; rewrite Et in E.
          * rewrite oct_text in E. destruct (oct name) eqn:O1; cbn [andb] in E.
            -- destruct (oct s) eqn:O2; [discriminate|]. injection E as <-. apply oct_wide in O2.
               eapply hr_application_wide; eauto.
            -- injection E as <-. apply oct_wide in O1. eapply hr_application_wide; eauto.
          * injection E as <-. apply hr_application; auto.
      - intros R.
        assert (K : forall l, In name l -> (forall x, In x l -> In x (text_fields ++ read_only_fields ++ coded_fields)) -> False).
        { intros l A B. exact (Hi (B _ A)). }
        destruct R as [A B|s A B W|A|m ps A B|A B|s A B W D|A B D|A B|A S|A S N|s A S T W].
        1-8: exfalso; try (apply Hi; rewrite !in_app_iff; tauto); apply Hi; rewrite A; in_list.
        + rewrite (proj2 (separated_iff name) S). reflexivity.
        + rewrite (proj2 (separated_not name) S). destruct (text_out v) as [(s & T & Et)|(_ & Et)].
          * destruct (N _ T).
          * rewrite Et. reflexivity.
        + rewrite (proj2 (separated_not name) S). destruct (text_out v) as [(s' & T' & Et)|(N & Et)].
          * rewrite Et. rewrite (text_of_unique _ _ _ T' T), oct_text.
            destruct W as [W|W]; apply oct_wide in W; rewrite W; [reflexivity|].
            rewrite Bool.andb_false_r. reflexivity.
          * destruct (N _ T). }
  rewrite !in_app_iff in Hi. destruct Hi as [Hi|[Hi|Hi]].
  - (* text *)
    assert (X : ~ In name read_only_fields /\ ~ In name coded_fields).
    { clear - Hi. cbn [text_fields In] in Hi.
      repeat (destruct Hi as [<-|Hi]; [split; in_list|]). destruct Hi. }
    split.
    + intros E. destruct (text_field_out name v Hi) as [(s & b & T & H)|(N & H)]; rewrite H in E.
      * destruct (oct s) eqn:O; [discriminate|]. injection E as <-. apply oct_wide in O.
        eapply hr_text_wide; eauto.
      * injection E as <-. apply hr_text; auto.
    + intros R. destruct (text_field_out name v Hi) as [(s & b & T & H)|(N & H)]; rewrite H.
      * destruct R as [A B|s' A B W|A|m ps A B|A B|s' A B W D|A B D|A B|A S|A S N|s' A S T' W].
        1: destruct (B _ T).
        1: rewrite (text_of_unique _ _ _ T B), (proj2 (oct_wide _) W); reflexivity.
        all: exfalso; try (rewrite !in_app_iff in A; tauto); try tauto;
          apply (proj2 X); rewrite A; in_list.
      * destruct R as [A B|s' A B W|A|m ps A B|A B|s' A B W D|A B D|A B|A S|A S N'|s' A S T' W].
        1: reflexivity. 1: destruct (N _ B).
        all: exfalso; try (rewrite !in_app_iff in A; tauto); try tauto;
          apply (proj2 X); rewrite A; in_list.
  - (* no encoder *)
    rewrite read_only_out by exact Hi.
    assert (X : ~ In name text_fields /\ ~ In name coded_fields).
    { clear - Hi. cbn [read_only_fields In] in Hi.
      repeat (destruct Hi as [<-|Hi]; [split; in_list|]). destruct Hi. }
    split.
    + intros E. injection E as <-. apply hr_read_only, Hi.
    + intros R. destruct R as [A B|s' A B W|A|m ps A B|A B|s' A B W D|A B D|A B|A S|A S N'|s' A S T' W].
      3: reflexivity.
      all: exfalso; try (rewrite !in_app_iff in A; tauto); try tauto;
          apply (proj2 X); rewrite A; in_list.
  - cbn [coded_fields In] in Hi. destruct Hi as [<-|[<-|[<-|[<-|[<-|[]]]]]]; [congruence| | | |]; clear Hct.
    + (* Message-Type *)
      known_field.
      assert (F : (exists b, forall x, (l <- (b <- (l <- encode_message_type_value v ;; Ok (ints l)) ;; Ok (ints [128 + 12] ++ b)) ;; array_of l) = Err x -> b = true) -> True) by auto.
      clear F. split.
      * intros E. destruct v as [[s|n|n d|t]|b|k n|m ps|p q]; try (vm_compute in E; discriminate E).
        -- exfalso. cbn [encode_message_type_value bind] in E. rewrite numbered_out in E by lia.
           match type of E with (if oct [?x] then _ else _) = _ => assert (O : oct [x] = true) end.
           { destruct (d_get leqb s message_types) as [k|] eqn:G; [|reflexivity].
             unfold message_types in G. cbn [d_get] in G.
             repeat (match type of G with (if ?c then _ else _) = _ => destruct c end; [injection G as <-; reflexivity|]).
             discriminate G. }
           rewrite O in E. discriminate E.
        -- cbn [encode_message_type_value bind] in E. injection E as <-. eapply hr_type; reflexivity.
      * intros R. destruct R as [A B|s' A B W|A|m ps A B|A B|s' A B W D|A B D|A B|A S|A S N'|s' A S T' W];
          try not_this A.
        rewrite B. reflexivity.
    + (* MMS-Version *)
      known_field. split.
      * intros E. destruct v as [[s|n|n d|t]|b|k n|m ps|p q];
          try (cbn [encode_version_value_h encode_version_value_p bind] in E; injection E as <-; apply hr_version; [reflexivity|intros s; discriminate]).
        cbn [encode_version_value_h encode_version_value_p bind] in E. rewrite numbered_out in E by lia.
        destruct (oct (encode_version_value s)) eqn:O; [discriminate|]. injection E as <-.
        apply version_wide in O. destruct O as [W D]. eapply hr_version_wide; eauto; reflexivity.
      * intros R. destruct R as [A B|s' A B W|A|m ps A B|A B|s' A B W D|A B D|A B|A S|A S N'|s' A S T' W];
          try not_this A.
        -- destruct v as [[s|n|n d|t]|b|k n|m ps|p q]; try reflexivity. destruct (B s eq_refl).
        -- rewrite B. unfold HStr. cbn [encode_version_value_h encode_version_value_p bind].
           rewrite numbered_out by lia. rewrite (proj2 (version_wide s') (conj W D)). reflexivity.
    + (* Message-Size *)
      known_field. split.
      * intros E.
        assert (M : forall n, (l <- (b <- (l <- encode_long_integer n ;; Ok (ints l)) ;; Ok (ints [128 + 14] ++ b)) ;; array_of l) = Err e ->
                    e = EncodeError /\ ~ machine n).
        { intros n X. destruct (is_int n) eqn:I.
          - apply machine_iff in I. destruct (proj1 (long_integer_out n) I) as (l & El & Ol).
            rewrite El in X. cbn [bind] in X. rewrite numbered_out in X by lia. rewrite Ol in X. discriminate X.
          - apply machine_not in I. rewrite (proj2 (long_integer_out n) I) in X. injection X as <-. auto. }
        destruct v as [[s|n|n d|t]|b|k n|m ps|p q];
          cbn [encode_long_integer_h] in E;
          try (injection E as <-; apply hr_size; [reflexivity|discriminate|intros n'; discriminate]).
        -- apply M in E. destruct E as [-> N].
           apply hr_size; [reflexivity|discriminate|]. intros n' X. assert (n' = n) by (unfold HInt in X; congruence). subst n'. exact N.
        -- exfalso. apply M in E. destruct E as [_ N]. apply N.
           unfold machine. destruct b; lia.
      * intros R. destruct R as [A B|s' A B W|A|m ps A B|A B|s' A B W D|A B D|A B|A S|A S N'|s' A S T' W];
          try not_this A.
        destruct v as [[s|n|n d|t]|b|k n|m ps|p q]; try reflexivity.
        -- cbn [encode_long_integer_h]. rewrite (proj2 (long_integer_out n) (D n eq_refl)). reflexivity.
        -- destruct (B b eq_refl).
    + (* Status *)
      known_field.
      assert (G : forall s, In s statuses <-> d_get leqb s status_values <> None).
      { intros s. rewrite <- (d_get_keys _ s status_values).
        split; intros H; apply listed_in with (1 := H); vm_compute; reflexivity. }
      assert (V : forall s k, d_get leqb s status_values = Some k -> 128 <= k <= 132).
      { intros s k X. unfold status_values in X. cbn [d_get] in X.
        repeat (match type of X with (if ?c then _ else _) = _ => destruct c end; [injection X as <-; lia|]). discriminate X. }
      split.
      * intros E. destruct v as [[s|n|n d|t]|b|k n|m ps|p q];
          try (vm_compute in E; injection E as <-; apply hr_status; [reflexivity|intros s _; discriminate]).
        cbn [encode_status_value bind] in E. destruct (d_get leqb s status_values) as [k|] eqn:D.
        -- exfalso. specialize (V _ _ D). change [EInt k] with (ints [k]) in E. rewrite numbered_out in E by lia.
           replace (oct [k]) with true in E by (cbn [oct forallb]; lia). discriminate E.
        -- vm_compute in E. injection E as <-. apply hr_status; [reflexivity|]. intros t Ht X.
           assert (t = s) by (unfold HStr in X; congruence). subst t. apply G in Ht. congruence.
      * intros R. destruct R as [A B|s' A B W|A|m ps A B|A B|s' A B W D|A B D|A B|A S|A S N'|s' A S T' W];
          try not_this A.
        destruct v as [[s|n|n d|t]|b|k n|m ps|p q]; try reflexivity.
        cbn [encode_status_value bind]. destruct (d_get leqb s status_values) as [k|] eqn:D; [|reflexivity].
        exfalso. apply (B s); [|reflexivity]. apply G. congruence.
Qed.

(** * Parameters *)

Definition parameter_octets (name : list Z) (v : pval) : res (list Z) :=
  l <- encode_parameter name v ;; array_of (ints l).

Definition parameters_12 : list (Z * (list Z * vtype)) :=
  Eval vm_compute in match get_well_known_parameters (str "1.2") with Ok d => d | Err _ => [] end.

Lemma parameters_12_ok : get_well_known_parameters (str "1.2") = Ok parameters_12.
Proof. vm_compute. reflexivity. Qed.

Lemma parameters_known : forall name,
  In name (text_parameters ++ read_only_parameters ++ coded_parameters) <->
  In name (map (fun p => fst (snd p)) (rev parameters_12)).
Proof.
  intros name. split; intros H; apply listed_in with (1 := H); vm_compute; reflexivity.
Qed.

Lemma find_parameter_none : forall name d,
  ~ In name (map (fun p => fst (snd p)) (rev d)) -> find_parameter name d = None.
Proof.
  intros name d. unfold find_parameter. induction (rev d) as [|[n [s t]] l IH]; intros H; [reflexivity|].
  cbn [find fst snd map In] in *. destruct (leqb s name) eqn:E.
  - apply leqb_eq in E. exfalso. apply H. left. exact E.
  - apply IH. intros X. apply H. right. exact X.
Qed.

Ltac known_parameter :=
  unfold parameter_octets, encode_parameter, encode_parameter_in; rewrite parameters_12_ok; cbn [bind];
  match goal with |- context [find_parameter ?x ?d] =>
    let y := eval vm_compute in (find_parameter x d) in
    replace (find_parameter x d) with y by (vm_compute; reflexivity) end;
  rewrite encode_short_integer_ok by lia; cbn [bind encode_by_type].

Lemma numbered_octets : forall n l, 0 <= n < 256 ->
  array_of (ints ([n] ++ l)) = if oct l then Ok (n :: l) else Err OverflowError.
Proof. intros n l H. rewrite <- ints_joined. apply numbered_out. exact H. Qed.

Lemma control_out : forall s,
  (s = [] /\ encode_extension_media s = Err IndexError) \/
  (control s /\ encode_extension_media s = Err EncodeError) \/
  (s <> [] /\ ~ control s /\ encode_extension_media s = Ok (encode_text_string s)).
Proof.
  intros [|c s]; [left; auto|right]. cbn [encode_extension_media].
  destruct ((c <? 32) || (c =? 127)) eqn:E; [left|right].
  - split; [exists c, s; split; [reflexivity|lia]|reflexivity].
  - split; [discriminate|]. split; [|reflexivity]. intros (c' & r & X & H).
    assert (c' = c) by congruence. subst c'. lia.
Qed.

Lemma control_empty : ~ control [].
Proof. intros (c & r & X & _). discriminate X. Qed.

(** Texts of parameters. *)
Lemma text_parameter_out : forall name v e, In name text_parameters ->
  (parameter_octets name v = Err e <->
   (exists s, v = PStr s /\ wide s /\ e = OverflowError) \/ ((forall s, v <> PStr s) /\ e = TypeError)).
Proof.
  intros name v e H.
  assert (G : forall n, 0 <= n < 128 ->
     ((l <- (b <- encode_text_string_p v ;; Ok ([128 + n] ++ b)) ;; array_of (ints l)) = Err e <->
      (exists s, v = PStr s /\ wide s /\ e = OverflowError) \/ ((forall s, v <> PStr s) /\ e = TypeError))).
  { intros n Hn. destruct v as [s|k|k d|t]; cbn [encode_text_string_p bind].
    - rewrite numbered_octets, oct_text by lia. split.
      + intros E. destruct (oct s) eqn:O; [discriminate|]. injection E as <-. apply oct_wide in O. left. eauto.
      + intros [(s' & X & W & ->)|(N & _)]; [|destruct (N s eq_refl)].
        assert (s' = s) by congruence. subst s'. rewrite (proj2 (oct_wide s) W). reflexivity.
    - split; [intros X; injection X as <-; right; split; [discriminate|reflexivity]|].
      intros [(s' & X & _)|(_ & ->)]; [discriminate X|reflexivity].
    - split; [intros X; injection X as <-; right; split; [discriminate|reflexivity]|].
      intros [(s' & X & _)|(_ & ->)]; [discriminate X|reflexivity].
    - split; [intros X; injection X as <-; right; split; [discriminate|reflexivity]|].
      intros [(s' & X & _)|(_ & ->)]; [discriminate X|reflexivity]. }
  cbn [text_parameters In] in H.
  destruct H as [<-|[<-|[<-|[<-|[]]]]]; known_parameter; apply G; lia.
Qed.

Lemma read_only_parameter_out : forall name v, In name read_only_parameters ->
  parameter_octets name v = Err AttributeError.
Proof.
  intros name v H. cbn [read_only_parameters In] in H.
  destruct H as [<-|[<-|[<-|[]]]]; known_parameter; reflexivity.
Qed.

(** A long integer as [Type]: its decimal digits. *)
Lemma decimal_out : forall n, ~ machine n -> exists l,
  encode_extension_media ((if n <? 0 then [45] else []) ++ py_dec (Z.abs n)) = Ok l /\ oct l = true.
Proof.
  intros n _. destruct (py_dec_notation (Z.abs n)) as (Hne & Hd & _); [lia|].
  assert (O : oct (py_dec (Z.abs n)) = true).
  { apply oct_Forall. eapply Forall_impl; [|exact Hd]. cbv beta. unfold is_octet. lia. }
  destruct (n <? 0).
  - eexists. split; [reflexivity|]. rewrite oct_text. cbn [app oct forallb]. fold (oct (py_dec (Z.abs n))).
    rewrite O. reflexivity.
  - cbn [app]. destruct (py_dec (Z.abs n)) as [|c r]; [congruence|]. inversion Hd as [|? ? Hc _]. subst.
    cbn [encode_extension_media]. replace ((c <? 32) || (c =? 127)) with false by lia.
    eexists. split; [reflexivity|]. rewrite oct_text. exact O.
Qed.

Ltac par_cases R := destruct R as [A B|s' A B W|A|A B|s' A B W D|n' d' A B D|A B D|n' A B D N|A B
  |s' A B D|s' A B W D|A B D|A S|A S B D|A S B]; try not_this A.

Lemma parameter_out : forall name v e, parameter_octets name v = Err e <-> parameter_refused name v e.
Proof.
  intros name v e.
  destruct (in_dec (list_eq_dec Z.eq_dec) name (text_parameters ++ read_only_parameters ++ coded_parameters)) as [Hi|Hi].
  2:{ assert (F : parameter_octets name v =
        (if existsb is_separator name then Err EncodeError
         else l <- on_encode_error (encode_integer_value v) (encode_text_string_p v) ;;
              if oct name && oct l then Ok (encode_text_string name ++ l) else Err OverflowError)).
      { unfold parameter_octets, encode_parameter, encode_parameter_in. rewrite parameters_12_ok. cbn [bind].
        rewrite find_parameter_none by (rewrite <- parameters_known; exact Hi).
        unfold encode_token_text. destruct (existsb is_separator name); [reflexivity|]. cbn [bind].
        destruct (on_encode_error (encode_integer_value v) (encode_text_string_p v)) as [l|x]; [|reflexivity].
        cbn [bind]. rewrite array_ints, oct_app, oct_text. reflexivity. }
      rewrite F. clear F.
      assert (V : (exists n, v = PInt n /\ machine n /\ exists l,
                     on_encode_error (encode_integer_value v) (encode_text_string_p v) = Ok l /\ oct l = true) \/
                  (exists s, v = PStr s /\
                     on_encode_error (encode_integer_value v) (encode_text_string_p v) = Ok (encode_text_string s)) \/
                  ((forall n, v = PInt n -> ~ machine n) /\ (forall s, v <> PStr s) /\
                     on_encode_error (encode_integer_value v) (encode_text_string_p v) = Err TypeError)).
      { destruct v as [s|n|n d|t].
        - right. left. exists s. split; reflexivity.
        - destruct (is_int n) eqn:I.
          + left. exists n. split; [reflexivity|]. assert (M : machine n) by (apply machine_iff; exact I).
            split; [exact M|]. cbn [encode_integer_value]. rewrite I. cbn [negb].
            destruct (Z_le_dec 0 n) as [L|L]; [destruct (Z_le_dec n 127) as [L'|L']|].
            * destruct (proj1 (short_integer_out n)) as (b & -> & O); [lia|]. exists [b]. split; [reflexivity|exact O].
            * rewrite (proj2 (short_integer_out n)) by lia.
              destruct (proj1 (long_integer_out n) M) as (l & E & O).
              cbn [on_encode_error encode_text_string_p]. rewrite E. exists l. split; [reflexivity|exact O].
            * rewrite (proj2 (short_integer_out n)) by lia.
              destruct (proj1 (long_integer_out n) M) as (l & E & O).
              cbn [on_encode_error encode_text_string_p]. rewrite E. exists l. split; [reflexivity|exact O].
          + right. right. split; [|split; [discriminate|]].
            * intros n' X. assert (n' = n) by congruence. subst n'. apply machine_not. exact I.
            * cbn [encode_integer_value]. rewrite I. reflexivity.
        - right. right. split; [discriminate|split; [discriminate|reflexivity]].
        - right. right. split; [discriminate|split; [discriminate|reflexivity]]. }
      split.
      - intros E. destruct (existsb is_separator name) eqn:S.
        + injection E as <-. apply par_name; [exact Hi|apply separated_iff; exact S].
        + apply separated_not in S.
          destruct V as [(n & -> & M & l & Ev & O)|[(s & -> & Ev)|(N1 & N2 & Ev)]]; rewrite Ev in E; cbn [bind] in E.
          * rewrite O, Bool.andb_true_r in E. destruct (oct name) eqn:O1; [discriminate|].
            injection E as <-. apply oct_wide in O1. apply par_other_wide; eauto.
          * rewrite oct_text in E. destruct (oct name) eqn:O1; cbn [andb] in E.
            -- destruct (oct s) eqn:O2; [discriminate|]. injection E as <-. apply oct_wide in O2.
               apply par_other_wide; eauto.
            -- injection E as <-. apply oct_wide in O1. apply par_other_wide; eauto.
          * injection E as <-. apply par_other; assumption.
      - intros R. destruct R as [A B|s' A B W|A|A B|s' A B W D|n' d' A B D|A B D|n' A B D N|A B
          |s' A B D|s' A B W D|A B D|A S|A S B D|A S B].
        1-12: exfalso; try (apply Hi; rewrite !in_app_iff; tauto); apply Hi; rewrite A; in_list.
        + rewrite (proj2 (separated_iff name) S). reflexivity.
        + rewrite (proj2 (separated_not name) S).
          destruct V as [(n & -> & M & _)|[(s & -> & _)|(_ & _ & ->)]];
            [destruct (B n eq_refl M)|destruct (D s eq_refl)|reflexivity].
        + rewrite (proj2 (separated_not name) S).
          destruct V as [(n & -> & M & l & Ev & O)|[(s & -> & Ev)|(N1 & N2 & Ev)]].
          * rewrite Ev. cbn [bind]. destruct B as [(_ & W)|(s & X & _)]; [|discriminate X].
            rewrite (proj2 (oct_wide name) W). reflexivity.
          * rewrite Ev. cbn [bind]. rewrite oct_text.
            destruct B as [((n & X & _) & _)|(s' & X & W)]; [discriminate X|].
            assert (s' = s) by congruence. subst s'.
            destruct W as [W|W]; rewrite (proj2 (oct_wide _) W); [reflexivity|].
            rewrite Bool.andb_false_r. reflexivity.
          * exfalso. destruct B as [((n & X & M) & _)|(s' & X & W)]; [exact (N1 n X M)|exact (N2 s' X)]. }
  rewrite !in_app_iff in Hi. destruct Hi as [Hi|[Hi|Hi]].
  - assert (X : ~ In name read_only_parameters /\ ~ In name coded_parameters).
    { clear - Hi. cbn [text_parameters In] in Hi.
      repeat (destruct Hi as [<-|Hi]; [split; in_list|]). destruct Hi. }
    rewrite text_parameter_out by exact Hi. split.
    + intros [(s & Ev & W & ->)|(N & ->)]; [eapply par_text_wide; eauto|apply par_text; auto].
    + intros R. destruct R as [A B|s' A B W|A|A B|s' A B W D|n' d' A B D|A B D|n' A B D N|A B
          |s' A B D|s' A B W D|A B D|A S|A S B D|A S B].
      1: right; auto. 1: left; eauto.
      all: exfalso; try (rewrite !in_app_iff in A; tauto); try tauto;
        apply (proj2 X); rewrite A; in_list.
  - assert (X : ~ In name text_parameters /\ ~ In name coded_parameters).
    { clear - Hi. cbn [read_only_parameters In] in Hi.
      repeat (destruct Hi as [<-|Hi]; [split; in_list|]). destruct Hi. }
    rewrite read_only_parameter_out by exact Hi. split.
    + intros E. injection E as <-. apply par_read_only, Hi.
    + intros R. destruct R as [A B|s' A B W|A|A B|s' A B W D|n' d' A B D|A B D|n' A B D N|A B
          |s' A B D|s' A B W D|A B D|A S|A S B D|A S B].
      3: reflexivity.
      all: exfalso; try (rewrite !in_app_iff in A; tauto); try tauto;
        apply (proj2 X); rewrite A; in_list.
  - cbn [coded_parameters In] in Hi. destruct Hi as [<-|[<-|[<-|[]]]].
    + (* Level *)
      known_parameter. destruct v as [s|n|n d|t]; cbn [encode_version_value_p bind].
      * rewrite numbered_octets by lia. split.
        -- intros E. destruct (oct (encode_version_value s)) eqn:O; [discriminate|]. injection E as <-.
           apply version_wide in O. destruct O as [W D]. eapply par_level_wide; eauto; reflexivity.
        -- intros R. par_cases R; [destruct (B s eq_refl)|].
           assert (s' = s) by congruence. subst s'. rewrite (proj2 (version_wide s) (conj W D)). reflexivity.
      * split; [intros E; injection E as <-; apply par_level; [reflexivity|discriminate]|].
        intros R. par_cases R; [reflexivity|discriminate B].
      * split; [intros E; injection E as <-; apply par_level; [reflexivity|discriminate]|].
        intros R. par_cases R; [reflexivity|discriminate B].
      * split; [intros E; injection E as <-; apply par_level; [reflexivity|discriminate]|].
        intros R. par_cases R; [reflexivity|discriminate B].
    + (* Padding *)
      known_parameter. destruct v as [s|n|n d|t]; cbn [encode_short_integer_p bind].
      * split; [intros E; injection E as <-; apply par_padding_type; [reflexivity|discriminate|discriminate]|].
        intros R. par_cases R; [|reflexivity]. destruct B as [[B _]|B]; discriminate B.
      * destruct (Z_le_dec 0 n) as [L|L]; [destruct (Z_le_dec n 127) as [L'|L']|].
        -- destruct (proj1 (short_integer_out n)) as (b & -> & O); [lia|]. cbn [bind].
           rewrite numbered_octets, O by lia. split; [discriminate|].
           intros R. exfalso. par_cases R; [|destruct (B n eq_refl)].
           destruct B as [[B ->]|B]; [|discriminate B]. assert (n' = n) by congruence. lia.
        -- rewrite (proj2 (short_integer_out n)) by lia. split.
           ++ intros E. injection E as <-. apply (par_padding _ _ n 1); [reflexivity|auto|lia].
           ++ intros R. par_cases R; [reflexivity|destruct (B n eq_refl)].
        -- rewrite (proj2 (short_integer_out n)) by lia. split.
           ++ intros E. injection E as <-. apply (par_padding _ _ n 1); [reflexivity|auto|lia].
           ++ intros R. par_cases R; [reflexivity|destruct (B n eq_refl)].
      * destruct ((n <? 0) || (127 * d <? n)) eqn:O; cbn [bind].
        -- split.
           ++ intros E. injection E as <-. apply (par_padding _ _ n d); [reflexivity|auto|lia].
           ++ intros R. par_cases R; [reflexivity|]. specialize (D n d eq_refl). lia.
        -- split.
           ++ intros E. injection E as <-. apply par_padding_type; [reflexivity|discriminate|].
              intros n' d' X. assert (n' = n /\ d' = d) as [-> ->] by (split; congruence). lia.
           ++ intros R. par_cases R; [|reflexivity].
              destruct B as [[B _]|B]; [discriminate B|].
              assert (n' = n /\ d' = d) as [-> ->] by (split; congruence). lia.
      * split; [intros E; injection E as <-; apply par_padding_type; [reflexivity|discriminate|discriminate]|].
        intros R. par_cases R; [|reflexivity]. destruct B as [[B _]|B]; discriminate B.
    + (* Type *)
      known_parameter. destruct v as [s|n|n d|t]; cbn [encode_constrained_encoding bind].
      * destruct (control_out s) as [(-> & ->)|[(C & ->)|(Ne & C & ->)]]; cbn [bind].
        -- split; [intros E; injection E as <-; apply par_type_empty; reflexivity|].
           intros R. par_cases R; try reflexivity.
           ++ discriminate B.
           ++ assert (s' = []) by congruence. subst. destruct (control_empty D).
           ++ assert (s' = []) by congruence. subst. destruct W as (c & [] & _).
           ++ destruct (D [] eq_refl).
        -- split; [intros E; injection E as <-; eapply par_type_control; eauto; reflexivity|].
           intros R. par_cases R; try reflexivity.
           ++ assert (s = []) by congruence. subst. destruct (control_empty C).
           ++ assert (s' = s) by congruence. subst. contradiction.
           ++ destruct (D s eq_refl).
        -- rewrite numbered_octets, oct_text by lia. split.
           ++ intros E. destruct (oct s) eqn:O; [discriminate|]. injection E as <-. apply oct_wide in O.
              eapply par_type_wide; eauto; reflexivity.
           ++ intros R. par_cases R.
              ** discriminate B.
              ** congruence.
              ** assert (s' = s) by congruence. subst. contradiction.
              ** assert (s' = s) by congruence. subst. rewrite (proj2 (oct_wide s) W). reflexivity.
              ** destruct (D s eq_refl).
      * destruct (is_int n) eqn:I.
        -- apply machine_iff in I. destruct (Z_le_dec 0 n) as [L|L]; [destruct (Z_le_dec n 127) as [L'|L']|].
           ++ destruct (proj1 (short_integer_out n)) as (b & -> & O); [lia|]. cbn [bind].
              rewrite numbered_octets, O by lia. split; [discriminate|].
              intros R. exfalso. par_cases R; try discriminate B.
              ** assert (n' = n) by congruence. lia.
              ** destruct (B n eq_refl).
           ++ rewrite (proj2 (short_integer_out n)) by lia. split.
              ** intros E. injection E as <-. eapply par_type_number; [reflexivity|reflexivity|exact I|lia].
              ** intros R. par_cases R; try discriminate B; [reflexivity|destruct (B n eq_refl)].
           ++ rewrite (proj2 (short_integer_out n)) by lia. split.
              ** intros E. injection E as <-. eapply par_type_number; [reflexivity|reflexivity|exact I|lia].
              ** intros R. par_cases R; try discriminate B; [reflexivity|destruct (B n eq_refl)].
        -- apply machine_not in I. destruct (decimal_out n I) as (l & -> & O). cbn [bind].
           rewrite numbered_octets, O by lia. split; [discriminate|].
           intros R. exfalso. par_cases R; try discriminate B.
           ++ assert (n' = n) by congruence. subst. contradiction.
           ++ destruct (B n eq_refl).
      * split; [intros E; injection E as <-; apply par_type_other; [reflexivity|discriminate|discriminate]|].
        intros R. par_cases R; try discriminate B. reflexivity.
      * split; [intros E; injection E as <-; apply par_type_other; [reflexivity|discriminate|discriminate]|].
        intros R. par_cases R; try discriminate B. reflexivity.
Qed.

(** * Content types *)

Lemma mapM_refused : forall A B (f : A -> res B) l e, mapM f l = Err e -> exists x, In x l /\ f x = Err e.
Proof.
  intros A B f l e. induction l as [|a l IH]; intros H; [discriminate|]. cbn [mapM] in H.
  destruct (f a) as [b|e'] eqn:E; cbn [bind] in H.
  - destruct (mapM f l) as [bs|e'] eqn:El; cbn [bind] in H; [discriminate|].
    destruct (IH H) as (x & Hx & Ex). exists x. split; [right; exact Hx|exact Ex].
  - exists a. split; [left; reflexivity|congruence].
Qed.

Lemma mapM_passed : forall A B (f : A -> res B) l bs, mapM f l = Ok bs -> Forall2 (fun x b => f x = Ok b) l bs.
Proof.
  intros A B f l. induction l as [|a l IH]; intros bs H; cbn [mapM] in H.
  - injection H as <-. constructor.
  - destruct (f a) as [b|] eqn:E; [|discriminate]. cbn [bind] in H.
    destruct (mapM f l) as [r|]; [|discriminate]. cbn [bind] in H. injection H as <-.
    constructor; auto.
Qed.

Lemma Forall2_left : forall A B (P : A -> B -> Prop) l l' x, Forall2 P l l' -> In x l -> exists y, In y l' /\ P x y.
Proof.
  intros A B P l l' x H. induction H as [|a b l l' Hab _ IH]; intros I; [destruct I|].
  destruct I as [<-|I]; [exists b; split; [left; reflexivity|exact Hab]|].
  destruct (IH I) as (y & Hy & Py). exists y. split; [right; exact Hy|exact Py].
Qed.

Lemma Forall2_right : forall A B (P : A -> B -> Prop) l l' y, Forall2 P l l' -> In y l' -> exists x, In x l /\ P x y.
Proof.
  intros A B P l l' y H. induction H as [|a b l l' Hab _ IH]; intros I; [destruct I|].
  destruct I as [<-|I]; [exists a; split; [left; reflexivity|exact Hab]|].
  destruct (IH I) as (x & Hx & Px). exists x. split; [right; exact Hx|exact Px].
Qed.

(** The numbered media types are ordinary texts. *)
Lemma known_media : forall media i, index_of media well_known_content_types = Some i ->
  0 <= i <= 127 /\ media <> [] /\ ~ control media /\ oct media = true.
Proof.
  intros media i H. destruct (index_of_nth _ _ _ H) as (Hi & Hn). pose proof content_types_few.
  split; [lia|].
  assert (I : In media well_known_content_types).
  { rewrite <- Hn. apply nth_In. unfold zlen in Hi. lia. }
  assert (F : forallb (fun m => match m with c :: _ => negb ((c <? 32) || (c =? 127)) && oct m | [] => false end)
                well_known_content_types = true) by (vm_compute; reflexivity).
  rewrite forallb_forall in F. specialize (F media I). destruct media as [|c r]; [discriminate|].
  apply andb_prop in F. destruct F as [F O]. split; [discriminate|]. split; [|exact O].
  intros (c' & r' & X & Hc). assert (c' = c) by congruence. subst. lia.
Qed.

Lemma media_out : forall media, exists x, encode_media_type media = Ok [EList (ints x)] /\ oct x = oct media.
Proof.
  intros media. unfold encode_media_type.
  destruct (index_of media well_known_content_types) as [i|] eqn:E.
  - destruct (known_media _ _ E) as (Hi & _ & _ & O).
    destruct (proj1 (short_integer_out i) Hi) as (b & -> & Ob). cbn [bind]. exists [b]. split; [reflexivity|congruence].
  - cbn [bind]. eexists. split; [reflexivity|]. apply oct_text.
Qed.

Lemma constrained_out : forall media,
  (media = [] /\ encode_constrained_media media = Err IndexError) \/
  (control media /\ encode_constrained_media media = Err EncodeError) \/
  (media <> [] /\ ~ control media /\ exists x, encode_constrained_media media = Ok x /\ oct x = oct media).
Proof.
  intros media. unfold encode_constrained_media.
  destruct (index_of media well_known_content_types) as [i|] eqn:E.
  - right. right. destruct (known_media _ _ E) as (Hi & Hn & Hc & O). split; [exact Hn|]. split; [exact Hc|].
    cbn [encode_constrained_encoding]. rewrite (proj2 (machine_iff i)) by (unfold machine; lia).
    destruct (proj1 (short_integer_out i) Hi) as (b & -> & Ob). exists [b]. split; [reflexivity|congruence].
  - cbn [encode_constrained_encoding].
    destruct (control_out media) as [(-> & ->)|[(C & ->)|(N & C & ->)]]; auto.
    right. right. split; [exact N|]. split; [exact C|]. eexists. split; [reflexivity|]. apply oct_text.
Qed.

Lemma type_value_out : forall media ps,
  (exists e, encode_content_type_value media ps = Err e /\
     ((ps = [] /\ media = [] /\ e = IndexError) \/
      exists n v, In (n, v) ps /\ encode_parameter n v = Err e)) \/
  (ps = [] /\ media <> [] /\ ~ control media /\
   exists x, encode_content_type_value media ps = Ok (ints x) /\ oct x = oct media) \/
  ((ps <> [] \/ control media) /\ exists a x bs, oct a = true /\ oct x = oct media /\
   Forall2 (fun p b => encode_parameter (fst p) (snd p) = Ok b) ps bs /\
   encode_content_type_value media ps =
     Ok (ints a ++ EList (ints x) :: map (fun p => EList (ints p)) bs)).
Proof.
  intros media ps.
  assert (G : (exists e, encode_content_general_form media ps = Err e /\
                exists n v, In (n, v) ps /\ encode_parameter n v = Err e) \/
              exists a x bs, oct a = true /\ oct x = oct media /\
                Forall2 (fun p b => encode_parameter (fst p) (snd p) = Ok b) ps bs /\
                encode_content_general_form media ps =
                  Ok (ints a ++ EList (ints x) :: map (fun p => EList (ints p)) bs)).
  { unfold encode_content_general_form. destruct (media_out media) as (x & -> & O). cbn [bind].
    destruct (mapM (fun p => encode_parameter (fst p) (snd p)) ps) as [bs|e] eqn:E; cbn [bind].
    - right. eexists _, x, bs. split; [|split; [exact O|split; [apply mapM_passed; exact E|reflexivity]]].
      apply oct_length. pose proof (zlen_nonneg bs). rewrite zlen_cons. change (zlen (@nil elt)) with 0. lia.
    - left. exists e. split; [reflexivity|]. apply mapM_refused in E. destruct E as ([n v] & I & E).
      exists n, v. auto. }
  unfold encode_content_type_value. destruct ps as [|p ps].
  - destruct (constrained_out media) as [(-> & ->)|[(C & ->)|(N & C & x & -> & O)]]; cbn [bind on_encode_error].
    + left. exists IndexError. split; [reflexivity|]. left. auto.
    + destruct G as [(e & _ & n & v & [] & _)|G]. right. right. split; [right; exact C|exact G].
    + right. left. split; [reflexivity|]. split; [exact N|]. split; [exact C|]. exists x. auto.
  - cbn [on_encode_error]. destruct G as [(e & E & H)|G].
    + left. exists e. split; [exact E|]. right. exact H.
    + right. right. split; [left; discriminate|exact G].
Qed.

Lemma flatten_type : forall a x bs,
  flatten_list (ints a ++ EList (ints x) :: map (fun p => EList (ints p)) bs) = ints (a ++ x ++ concat bs).
Proof.
  assert (I : forall l, flat_map flatten_elt (ints l) = ints l).
  { intros l. unfold ints. induction l as [|c l IH]; [reflexivity|]. cbn [map flat_map flatten_elt app].
    f_equal. exact IH. }
  intros a x bs. unfold flatten_list. rewrite flat_map_app, I, <- ints_joined, <- ints_joined. f_equal.
  cbn [flat_map flatten_elt]. rewrite I. f_equal.
  induction bs as [|b bs IH]; [reflexivity|]. cbn [map flat_map flatten_elt concat].
  rewrite I, IH, <- ints_joined. reflexivity.
Qed.

Lemma concat_oct : forall bs, oct (concat bs) = false <-> exists b, In b bs /\ oct b = false.
Proof.
  induction bs as [|b bs IH]; cbn [concat].
  - split; [discriminate|intros (b & [] & _)].
  - rewrite oct_app. split.
    + intros H. destruct (oct b) eqn:O; cbn [andb] in H.
      * apply IH in H. destruct H as (x & I & Ox). exists x. split; [right; exact I|exact Ox].
      * exists b. split; [left; reflexivity|exact O].
    + intros (x & [->|I] & O); [rewrite O; reflexivity|].
      rewrite (proj2 IH) by eauto. apply Bool.andb_false_r.
Qed.

(** The Content-Type of the message. *)
Definition type_octets (v : hval) : res (list Z) :=
  '(m, ps) <- unpack_type v ;;
  a <- encode_mms_field_name (str "Content-Type") ;;
  ret <- encode_content_type_value m ps ;;
  b <- array_of (flatten_list ret) ;;
  Ok (a ++ b).

Lemma pair_same v m ps m' ps' : content_pair v m ps -> content_pair v m' ps' -> m = m' /\ ps = ps'.
Proof. intros [A|(A & ->)] [B|(B & ->)]; split; congruence. Qed.

Lemma pair_no_string v m ps s : content_pair v m ps -> v <> HStr s.
Proof. intros [->|(-> & _)]; discriminate. Qed.

Lemma unpack_out : forall v,
  (exists e, unpack_type v = Err e /\ forall e', type_refused v e' <-> e' = e) \/
  (exists m ps, content_pair v m ps /\ unpack_type v = Ok (m, ps)).
Proof.
  assert (T : forall v e, (forall m ps, ~ content_pair v m ps) ->
    (forall e', (exists s, v = HStr s /\ length s <> 2%nat /\ e' = ValueError) \/
                (exists a b, v = HStr [a; b] /\ e' = TypeError) \/
                ((forall s, v <> HStr s) /\ e' = TypeError) <-> e' = e) ->
    forall e', type_refused v e' <-> e' = e).
  { intros v e N H e'. rewrite <- H. clear H. split.
    - intros R. destruct R as [s A B|a b A|A B|A|m ps A B|m ps n x e' A B C];
        try (exact (False_ind _ (N _ _ A))); [left; eauto|right; left; eauto|auto].
    - intros [(s & A & B & ->)|[(a & b & A & ->)|(A & ->)]];
        [eapply ty_string; eauto|eapply ty_two; eauto|apply ty_other; auto]. }
  intros v.
  assert (U : forall e, (forall m ps, ~ content_pair v m ps) -> (forall s, v <> HStr s) -> e = TypeError ->
    forall e', type_refused v e' <-> e' = e).
  { intros e N1 N2 ->. apply T; [exact N1|]. intros e'. split.
    - intros [(s & A & _)|[(a & b & A & _)|(_ & A)]]; [destruct (N2 _ A)|destruct (N2 _ A)|exact A].
    - intros ->. auto. }
  destruct v as [[s|n|n d|t]|b|k n|m ps|p q].
  - left. destruct s as [|a [|b [|c s]]]; (eexists; split; [reflexivity|]; apply T; [intros m ps [A|(A & _)]; discriminate A|]; intros e').
    1,2,4: split; [intros [(s' & A & B & ->)|[(x & y & A & ->)|(A & ->)]];
        [reflexivity|discriminate A|exfalso; eapply A; reflexivity]
      |intros ->; left; eexists; split; [reflexivity|split; [discriminate|reflexivity]]].
    split; [intros [(s' & A & B & ->)|[(x & y & A & ->)|(A & ->)]]|intros ->; right; left; exists a, b; split; reflexivity].
    + exfalso. unfold HStr in A. assert (s' = [a; b]) by congruence. subst. apply B. reflexivity.
    + reflexivity.
    + reflexivity.
  - left. eexists. split; [reflexivity|]. apply U; (intros ? ? [X|(X & _)]; discriminate X) || discriminate || reflexivity.
  - left. eexists. split; [reflexivity|]. apply U; (intros ? ? [X|(X & _)]; discriminate X) || discriminate || reflexivity.
  - left. eexists. split; [reflexivity|]. apply U; (intros ? ? [X|(X & _)]; discriminate X) || discriminate || reflexivity.
  - left. eexists. split; [reflexivity|]. apply U; (intros ? ? [X|(X & _)]; discriminate X) || discriminate || reflexivity.
  - left. eexists. split; [reflexivity|]. apply U; (intros ? ? [X|(X & _)]; discriminate X) || discriminate || reflexivity.
  - right. exists m, ps. split; [left|]; reflexivity.
  - destruct q as [[|c q]|n|n d|t];
      [right; exists p, []; split; [right; split|]; reflexivity|..];
      (left; eexists; split; [reflexivity|];
       apply U; (intros ? ? [X|(X & _)]; discriminate X) || discriminate || reflexivity).
Qed.

Lemma parameter_error : forall n v e, encode_parameter n v = Err e -> parameter_refused n v e.
Proof. intros n v e H. apply parameter_out. unfold parameter_octets. rewrite H. reflexivity. Qed.

Lemma parameter_wide : forall n v b, encode_parameter n v = Ok b ->
  (forall e, parameter_refused n v e <-> oct b = false /\ e = OverflowError).
Proof.
  intros n v b H e. rewrite <- parameter_out. unfold parameter_octets. rewrite H. cbn [bind].
  rewrite array_ints. destruct (oct b); split; intros X; try discriminate X.
  - destruct X as [X _]. discriminate X.
  - split; congruence.
  - destruct X as [_ ->]. reflexivity.
Qed.

Lemma type_out : forall v,
  (forall e, type_octets v = Err e -> type_refused v e) /\
  (forall e, type_refused v e -> exists e', type_octets v = Err e').
Proof.
  intros v. unfold type_octets. destruct (unpack_out v) as [(e & -> & R)|(m & ps & V & ->)].
  - cbn [bind]. split; intros e' H; [apply R; congruence|eauto].
  - cbn [bind]. replace (encode_mms_field_name (str "Content-Type")) with (Ok [132] : res (list Z))
      by (vm_compute; reflexivity). cbn [bind].
    assert (TR : forall e, type_refused v e ->
       (m = [] /\ ps = []) \/ wide m \/ exists n x, In (n, x) ps /\ parameter_refused n x e).
    { intros e R. destruct R as [s A B|a b A|A B|A|m' ps' A B|m' ps' n x e A B C];
        try (exfalso; exact (pair_no_string _ _ _ _ V A)).
      - destruct (B _ _ V).
      - left. exact (pair_same _ _ _ _ _ V A).
      - right. left. destruct (pair_same _ _ _ _ _ V A) as [-> ->]. exact B.
      - right. right. destruct (pair_same _ _ _ _ _ V A) as [-> ->]. eauto. }
    destruct (type_value_out m ps) as [(e & -> & H)|[(-> & N & C & x & -> & O)|(K & a & x & bs & Oa & Ox & F & ->)]];
      cbn [bind].
    + split; [|eauto]. intros e' E. assert (e' = e) by congruence. subst e'.
      destruct H as [(-> & -> & ->)|(n & u & I & X)]; [apply ty_empty; exact V|].
      eapply ty_parameter; [exact V|exact I|]. apply parameter_error. exact X.
    + rewrite flatten_list_ints, array_ints, O. split.
      * intros e E. destruct (oct m) eqn:Om; [discriminate|]. injection E as <-.
        apply oct_wide in Om. eapply ty_wide; [exact V|exact Om].
      * intros e R. apply TR in R. destruct R as [(A & _)|[W|(n & y & [] & _)]]; [congruence|].
        rewrite (proj2 (oct_wide m) W). cbn [bind]. eauto.
    + rewrite flatten_type, array_ints, !oct_app, Oa, Ox. cbn [andb]. split.
      * intros e E. destruct (oct m) eqn:Om; cbn [andb] in E.
        -- destruct (oct (concat bs)) eqn:Ob; [discriminate|]. injection E as <-.
           apply concat_oct in Ob. destruct Ob as (b & I & Ob).
           destruct (Forall2_right _ _ _ _ _ _ F I) as ([n u] & In' & P).
           eapply ty_parameter; [exact V|exact In'|]. apply (parameter_wide _ _ _ P). auto.
        -- injection E as <-. apply oct_wide in Om. eapply ty_wide; [exact V|exact Om].
      * intros e R. apply TR in R. destruct R as [(A & B)|[W|(n & y & I & X)]].
        -- exfalso. subst. destruct K as [K|K]; [congruence|exact (control_empty K)].
        -- rewrite (proj2 (oct_wide m) W). cbn [andb bind]. eauto.
        -- destruct (Forall2_left _ _ _ _ _ _ F I) as (b & Ib & P). cbn [fst snd] in P.
           apply (parameter_wide _ _ _ P) in X. destruct X as [Ob _].
           rewrite (proj2 (concat_oct bs)) by eauto. rewrite Bool.andb_false_r. cbn [bind]. eauto.
Qed.

(** * Parts *)

Lemma known_headers : forall name i, index_of name (firstn 56 header_field_names) = Some i ->
  0 <= i <= 127 /\ ~ separated name /\ oct name = true.
Proof.
  intros name i H. destruct (index_of_nth _ _ _ H) as (Hi & Hn).
  assert (L : zlen (firstn 56 header_field_names) = 56) by (vm_compute; reflexivity).
  split; [lia|].
  assert (I : In name (firstn 56 header_field_names)).
  { rewrite <- Hn. apply nth_In. unfold zlen in Hi. lia. }
  assert (F : forallb (fun m => negb (existsb is_separator m) && oct m) (firstn 56 header_field_names) = true)
    by (vm_compute; reflexivity).
  rewrite forallb_forall in F. specialize (F name I). apply andb_prop in F. destruct F as [F O].
  split; [|exact O]. apply separated_not. destruct (existsb is_separator name); [discriminate F|reflexivity].
Qed.

(** The name and the value of a header of a part.  Every item of the list is an
    octet, a number that is none, or a list. *)
Lemma part_header_out : forall name v,
  (exists e, wsp_encode_header name v = Err e /\ part_header_refused name v e) \/
  (exists l, wsp_encode_header name v = Ok l /\
     (forall e, array_of l = Err e -> part_header_refused name v e) /\
     (forall e, part_header_refused name v e -> exists e', array_of l = Err e')).
Proof.
  intros name v. unfold wsp_encode_header. rewrite header_names_12. cbn [bind].
  assert (N : (separated name /\
       (match index_of name (firstn 56 header_field_names) with
        | Some i => encode_short_integer i | None => encode_token_text name end) = Err EncodeError) \/
     (~ separated name /\ exists a,
       (match index_of name (firstn 56 header_field_names) with
        | Some i => encode_short_integer i | None => encode_token_text name end) = Ok a /\ oct a = oct name)).
  { destruct (index_of name (firstn 56 header_field_names)) as [i|] eqn:E.
    - right. destruct (known_headers _ _ E) as (Hi & S & O). split; [exact S|].
      destruct (proj1 (short_integer_out i) Hi) as (b & -> & Ob). exists [b]. split; [reflexivity|congruence].
    - unfold encode_token_text. destruct (existsb is_separator name) eqn:S.
      + left. split; [apply separated_iff; exact S|reflexivity].
      + right. split; [apply separated_not; exact S|]. eexists. split; [reflexivity|]. apply oct_text. }
  destruct N as [(S & ->)|(S & a & -> & Oa)].
  { left. exists EncodeError. split; [reflexivity|apply ph_name; exact S]. }
  cbn [bind]. unfold header_field_encoding.
  destruct (leqb name (str "Accept")) eqn:EA; [|destruct (leqb name (str "Pragma")) eqn:EP].
  - apply leqb_eq in EA. subst name. replace (oct (str "Accept")) with true in Oa by (vm_compute; reflexivity).
    assert (Na : ~ wide (str "Accept")) by (apply oct_narrow; vm_compute; reflexivity).
    assert (R : forall e, part_header_refused (str "Accept") v e ->
       (forall s, v <> HStr s) \/ v = HStr [] \/ (exists s, v = HStr s /\ control s) \/ (exists s, v = HStr s /\ wide s)).
    { intros e X. destruct X as [A|A|A|A B C|s A B C W|A B|A B|s A B C|s A B W]; eauto 10; exfalso.
      all: first [exact (S A)|exact (Na A)|discriminate A|congruence]. }
    destruct v as [[s|n|n d|t]|b|k n|m ps|p q]; cbn [encode_accept_value];
      try (left; eexists; split; [reflexivity|]; apply ph_accept; [reflexivity|discriminate]).
    destruct (constrained_out s) as [(-> & ->)|[(C & ->)|(Ne & C & x & -> & Ox)]]; cbn [bind on_encode_error].
    + left. exists IndexError. split; [reflexivity|]. apply ph_accept_empty; reflexivity.
    + right. destruct (media_out s) as (x & -> & Ox). cbn [bind].
      eexists. split; [reflexivity|].
      assert (E : array_of (ints a ++ ints (encode_value_length (zlen [EList (ints x)])) ++ [EList (ints x)]) = Err TypeError).
      { rewrite array_join, array_ints, Oa. cbn [bind]. rewrite array_join, array_ints.
        rewrite oct_length by (rewrite zlen_cons; change (zlen (@nil elt)) with 0; lia). reflexivity. }
      rewrite E. split; [|eauto]. intros e X. assert (e = TypeError) by congruence. subst e.
      eapply ph_accept_control; eauto; reflexivity.
    + right. eexists. split; [reflexivity|]. rewrite ints_joined, array_ints, oct_app, Oa, Ox. cbn [andb]. split.
      * intros e X. destruct (oct s) eqn:O; [discriminate|]. assert (e = OverflowError) by congruence. subst e.
        apply oct_wide in O. eapply ph_accept_wide; eauto; reflexivity.
      * intros e X. apply R in X. destruct X as [X|[X|[(s' & X & D)|(s' & X & W)]]].
        -- destruct (X s eq_refl).
        -- exfalso. unfold HStr in X. congruence.
        -- exfalso. unfold HStr in X. assert (s' = s) by congruence. subst. contradiction.
        -- unfold HStr in X. assert (s' = s) by congruence. subst. rewrite (proj2 (oct_wide s) W). eauto.
  - left. apply leqb_eq in EP. exists AttributeError. split; [reflexivity|]. apply ph_pragma. exact EP.
  - assert (NA : name <> str "Accept") by (intros X; subst; rewrite leqb_refl in EA; discriminate).
    assert (NP : name <> str "Pragma") by (intros X; subst; rewrite leqb_refl in EP; discriminate).
    destruct (text_out v) as [(s & T & ->)|(N & ->)]; cbn [bind].
    + right. eexists. split; [reflexivity|]. rewrite ints_joined, array_ints, oct_app, Oa, oct_text. split.
      * intros e X. destruct (oct name) eqn:O; cbn [andb] in X.
        -- destruct (oct s) eqn:Os; [discriminate|]. assert (e = OverflowError) by congruence. subst e.
           apply oct_wide in Os. eapply ph_text_wide; eauto.
        -- assert (e = OverflowError) by congruence. subst e. apply oct_wide in O. apply ph_name_wide. exact O.
      * intros e X. destruct X as [A|A|A|A B C|s' A B C W|A B|A B|s' A B C|s' A B W]; try contradiction.
        -- rewrite (proj2 (oct_wide name) A). cbn [andb]. eauto.
        -- destruct (C _ T).
        -- rewrite (text_of_unique _ _ _ T C), (proj2 (oct_wide s') W), Bool.andb_false_r. eauto.
    + left. exists TypeError. split; [reflexivity|]. apply ph_text; assumption.
Qed.

(** The headers of a part, without the content type. *)
Definition other_headers (w : world) (p : part) : res (list (list elt)) :=
  mapM (fun h => if leqb (fst h) (str "Content-Type") then Ok []
                 else wsp_encode_header (fst h) (snd h)) (w_order w (dp_headers p)).

Lemma array_concat : forall ls,
  (forall e, array_of (concat ls) = Err e -> exists l, In l ls /\ array_of l = Err e) /\
  (forall l e, In l ls -> array_of l = Err e -> exists e', array_of (concat ls) = Err e').
Proof.
  induction ls as [|l ls (IH1 & IH2)]; cbn [concat]; rewrite ?array_join.
  - split; [discriminate|intros l e []].
  - split.
    + intros e E. destruct (array_of l) as [x|e'] eqn:El; cbn [bind] in E.
      * destruct (array_of (concat ls)) as [y|e'] eqn:Es; cbn [bind] in E; [discriminate|].
        destruct (IH1 e) as (l' & I & X); [congruence|]. exists l'. split; [right; exact I|exact X].
      * exists l. split; [left; reflexivity|]. congruence.
    + intros l' e [->|I] E.
      * rewrite E. cbn [bind]. eauto.
      * destruct (IH2 l' e I E) as (e' & ->). destruct (array_of l); cbn [bind]; eauto.
Qed.

Lemma other_headers_out : forall w p, any_order w ->
  let refused e := exists k v, In (k, v) (dp_headers p) /\ k <> str "Content-Type" /\ part_header_refused k v e in
  match other_headers w p with
  | Err e => refused e
  | Ok hs => (forall e, array_of (concat hs) = Err e -> refused e) /\
             (forall e, refused e -> exists e', array_of (concat hs) = Err e')
  end.
Proof.
  intros w p Hw refused. unfold other_headers.
  assert (P : forall x, In x (w_order w (dp_headers p)) <-> In x (dp_headers p)).
  { intros x. split; apply Permutation_in; [|apply Permutation_sym]; apply Hw. }
  destruct (mapM _ (w_order w (dp_headers p))) as [hs|e] eqn:E.
  - apply mapM_passed in E. destruct (array_concat hs) as (A1 & A2). split.
    + intros e X. apply A1 in X. destruct X as (l & I & X).
      destruct (Forall2_right _ _ _ _ _ _ E I) as ([k v] & Ik & Hk). cbn [fst snd] in Hk.
      destruct (leqb k (str "Content-Type")) eqn:C.
      { assert (l = []) by congruence. subst l. discriminate X. }
      exists k, v. split; [apply P; exact Ik|]. split; [intros ->; rewrite leqb_refl in C; discriminate|].
      destruct (part_header_out k v) as [(e' & Y & _)|(l' & Y & B & _)]; [congruence|].
      assert (l' = l) by congruence. subst. apply B. exact X.
    + intros e (k & v & I & N & R). apply P in I.
      destruct (Forall2_left _ _ _ _ _ _ E I) as (l & Il & Hk). cbn [fst snd] in Hk.
      destruct (leqb k (str "Content-Type")) eqn:C; [apply leqb_eq in C; contradiction|].
      destruct (part_header_out k v) as [(e' & Y & _)|(l' & Y & _ & B)]; [congruence|].
      assert (l' = l) by congruence. subst. destruct (B e R) as (e' & X). exact (A2 l e' Il X).
  - apply mapM_refused in E. destruct E as ([k v] & I & X). cbn [fst snd] in X.
    destruct (leqb k (str "Content-Type")) eqn:C; [discriminate|].
    exists k, v. split; [apply P; exact I|]. split; [intros ->; rewrite leqb_refl in C; discriminate|].
    destruct (part_header_out k v) as [(e' & Y & R)|(l' & Y & _)]; [|congruence].
    assert (e' = e) by congruence. subst. exact R.
Qed.

(** The content type of a part, which is not flattened. *)
Definition part_type_refused (v : hval) (e : exn) : Prop :=
  type_refused v e \/ (e = TypeError /\ exists m ps, content_pair v m ps /\ (ps <> [] \/ control m)).

Lemma part_type_out : forall v,
  (exists e, unpack_type v = Err e /\ part_type_refused v e) \/
  exists m ps, unpack_type v = Ok (m, ps) /\
    ((exists e, encode_content_type_value m ps = Err e /\ part_type_refused v e) \/
     (exists l, encode_content_type_value m ps = Ok l /\
        (forall e, array_of l = Err e -> part_type_refused v e) /\
        (forall e, part_type_refused v e -> exists e', array_of l = Err e'))).
Proof.
  intros v. destruct (unpack_out v) as [(e & U & R)|(m & ps & V & U)].
  { left. exists e. split; [exact U|]. left. apply R. reflexivity. }
  right. exists m, ps. split; [exact U|].
  destruct (type_value_out m ps) as [(e & E & H)|[(-> & N & C & x & E & O)|(K & a & x & bs & Oa & Ox & F & E)]].
  - left. exists e. split; [exact E|]. left.
    destruct H as [(-> & -> & ->)|(n & u & I & X)]; [apply ty_empty; exact V|].
    eapply ty_parameter; [exact V|exact I|]. apply parameter_error. exact X.
  - right. exists (ints x). split; [exact E|]. rewrite array_ints, O. split.
    + intros e X. destruct (oct m) eqn:Om; [discriminate|]. assert (e = OverflowError) by congruence. subst e.
      left. apply oct_wide in Om. eapply ty_wide; [exact V|exact Om].
    + intros e [R|(-> & m' & ps' & Em & K)].
      * destruct R as [s A B|a b A|A B|A|m' ps' A B|m' ps' n u e A B D];
          try (exfalso; exact (pair_no_string _ _ _ _ V A)).
        -- destruct (B _ _ V).
        -- exfalso. apply N. apply (pair_same _ _ _ _ _ V A).
        -- destruct (pair_same _ _ _ _ _ V A) as [<- _]. rewrite (proj2 (oct_wide m) B). eauto.
        -- destruct (pair_same _ _ _ _ _ V A) as [_ <-]. destruct B.
      * exfalso. destruct (pair_same _ _ _ _ _ V Em) as [<- <-].
        destruct K as [K|K]; [congruence|contradiction].
  - right. eexists. split; [exact E|].
    assert (T : array_of (ints a ++ EList (ints x) :: map (fun p => EList (ints p)) bs) = Err TypeError).
    { rewrite array_join, array_ints, Oa. reflexivity. }
    rewrite T. split; [|eauto]. intros e X. assert (e = TypeError) by congruence. subst e.
    right. split; [reflexivity|]. exists m, ps. auto.
Qed.

Lemma part_out : forall w p, any_order w ->
  (forall e p', encode_part w p = (Err e, p') -> part_refused w p e) /\
  (forall e, part_refused w p e -> exists e' p', encode_part w p = (Err e', p')).
Proof.
  intros w p Hw. unfold encode_part, st_bind, st_get, st_lift, h_get.
  destruct (d_get leqb (str "Content-Type") (dp_headers p)) as [v|] eqn:CT.
  2:{ split; [|intros e _; eexists _, _; reflexivity]. intros e p' E.
      assert (e = KeyError) by (unfold st_err in E; congruence). subst e. apply pr_no_type.
      intros v I.
      assert (X : d_get leqb (str "Content-Type") (dp_headers p) <> None)
        by (apply d_get_keys; apply in_map_iff; exists (str "Content-Type", v); auto).
      congruence. }
  assert (PT : forall e, part_type_refused v e -> part_refused w p e).
  { intros e [R|(-> & m & ps & V & K)]; [eapply pr_type; eauto|eapply pr_nested; eauto]. }
  assert (PT' : forall e, part_refused w p e -> part_type_refused v e \/
     (exists k u, In (k, u) (dp_headers p) /\ k <> str "Content-Type" /\ part_header_refused k u e) \/
     (exists f, dp_filename p = Some f /\ w_file w f = None)).
  { intros e R. destruct R as [N|v' e A B|k u e I N R|f A B|v' m ps A V K].
    - exfalso.
      assert (X : In (str "Content-Type") (map fst (dp_headers p))) by (apply d_get_keys; congruence).
      apply in_map_iff in X. destruct X as ([k u] & Ek & I). cbn in Ek. subst k. exact (N u I).
    - left. left. congruence.
    - right. left. eauto.
    - right. right. eauto.
    - left. right. split; [reflexivity|]. exists m, ps. split; [congruence|exact K]. }
  destruct (part_type_out v) as [(e & -> & R)|(m & ps & -> & [(e & E & R)|(ct & E & T1 & T2)])].
  - split; [intros e' p' X; apply PT; congruence|intros; eexists _, _; reflexivity].
  - rewrite E. split; [intros e' p' X; apply PT; congruence|intros; eexists _, _; reflexivity].
  - rewrite E. fold (other_headers w p).
    pose proof (other_headers_out w p Hw) as OH. cbv zeta in OH.
    destruct (other_headers w p) as [hs|e0].
    2:{ split; [|intros; eexists _, _; reflexivity]. intros e' p' X. destruct OH as (k & u & I & N & R).
        assert (e' = e0) by congruence. subst. eapply pr_header; eauto. }
    destruct OH as (H1 & H2).
    assert (PH : forall e, (exists k u, In (k, u) (dp_headers p) /\ k <> str "Content-Type" /\ part_header_refused k u e) -> part_refused w p e).
    { intros e (k & u & I & N & R). eapply pr_header; eauto. }
    assert (LEN : (exists f, dp_filename p = Some f /\ w_file w f = None /\ part_len w p = (Err OSError, p)) \/
       ((forall f, dp_filename p = Some f -> w_file w f <> None) /\
        exists n d p2, part_len w p = (Ok n, p) /\ get_data w p = (Ok d, p2))).
    { unfold part_len, get_data, st_bind, st_get, st_upd, st_ret, st_err.
      destruct p as [h pa [f|] [d|]]; cbn [dp_filename dp_data].
      - destruct (w_file w f) as [c|] eqn:W; [right|left; eauto].
        split; [intros f' X; assert (f' = f) by congruence; subst; congruence|eexists _, _, _; split; reflexivity].
      - destruct (w_file w f) as [c|] eqn:W; [right|left; eauto].
        split; [intros f' X; assert (f' = f) by congruence; subst; congruence|].
        eexists _, _, _. split; reflexivity.
      - right. split; [discriminate|]. eexists _, _, _. split; reflexivity.
      - right. split; [discriminate|]. eexists _, _, _. split; reflexivity. }
    destruct LEN as [(f & Ef & Wf & L)|(LF & n & d & p2 & L & G)]; rewrite L.
    { split; [|intros; eexists _, _; reflexivity]. intros e' p' X.
      assert (e' = OSError) by congruence. subst. eapply pr_file; eauto. }
    destruct (array_of ct) as [cb|e0] eqn:Ect.
    2:{ split; [|intros; eexists _, _; reflexivity]. intros e' p' X. apply PT, T1. congruence. }
    destruct (array_of (concat hs)) as [hb|e0] eqn:Ehs.
    2:{ split; [|intros; eexists _, _; reflexivity]. intros e' p' X. apply PH, H1. congruence. }
    rewrite G. unfold st_ret. split; [discriminate|]. intros e R. exfalso. apply PT' in R.
    destruct R as [R|[R|(f & Ef & Wf)]].
    + apply T2 in R. destruct R as (e' & X). congruence.
    + apply H2 in R. destruct R as (e' & X). congruence.
    + exact (LF f Ef Wf).
Qed.

(** * Slides *)

Lemma slot_out : forall w s, any_order w ->
  (forall e s', encode_slot w s = (Err e, s') -> exists p, In p (parts_of s) /\ part_refused w p e) /\
  (forall p e, In p (parts_of s) -> part_refused w p e -> exists e' s', encode_slot w s = (Err e', s')).
Proof.
  intros w [[[p tb] te]|] Hw; cbn [encode_slot parts_of].
  - destruct (part_out w p Hw) as (A & B). split.
    + intros e s' E. destruct (encode_part w p) as [r p'] eqn:Ep. assert (r = Err e) by congruence. subst r.
      exists p. split; [left; reflexivity|]. exact (A _ _ eq_refl).
    + intros q e [<-|[]] R. destruct (B e R) as (e' & p' & ->). eauto.
  - split; [discriminate|intros p e []].
Qed.

Lemma page_out : forall w g, any_order w ->
  (forall e g', encode_page w g = (Err e, g') -> exists p, In p (page_parts g) /\ part_refused w p e) /\
  (forall p e, In p (page_parts g) -> part_refused w p e -> exists e' g', encode_page w g = (Err e', g')).
Proof.
  intros w g Hw. unfold encode_page, page_parts.
  destruct (slot_out w (pg_image g) Hw) as (A1 & B1), (slot_out w (pg_audio g) Hw) as (A2 & B2),
    (slot_out w (pg_text g) Hw) as (A3 & B3).
  destruct (encode_slot w (pg_image g)) as [[a|e1] i]; cbn [pg_audio pg_text pg_image pg_duration].
  2:{ split; [|eauto]. intros e g' E. assert (e1 = e) by congruence. subst.
      destruct (A1 _ _ eq_refl) as (p & I & R). exists p. split; [rewrite !in_app_iff; auto|exact R]. }
  destruct (encode_slot w (pg_audio g)) as [[b|e1] u]; cbn [pg_audio pg_text pg_image pg_duration].
  2:{ split; [|eauto]. intros e g' E. assert (e1 = e) by congruence. subst.
      destruct (A2 _ _ eq_refl) as (p & I & R). exists p. split; [rewrite !in_app_iff; auto|exact R]. }
  destruct (encode_slot w (pg_text g)) as [[c|e1] t]; cbn [pg_audio pg_text pg_image pg_duration].
  2:{ split; [|eauto]. intros e g' E. assert (e1 = e) by congruence. subst.
      destruct (A3 _ _ eq_refl) as (p & I & R). exists p. split; [rewrite !in_app_iff; auto|exact R]. }
  split; [discriminate|]. intros p e I R. rewrite !in_app_iff in I. exfalso.
  destruct I as [I|[I|I]]; [destruct (B1 _ _ I R) as (e' & s' & X)|destruct (B2 _ _ I R) as (e' & s' & X)
    |destruct (B3 _ _ I R) as (e' & s' & X)]; discriminate X.
Qed.

Lemma pages_out : forall w gs, any_order w ->
  (forall e gs', encode_pages w gs = (Err e, gs') -> exists p, In p (flat_map page_parts gs) /\ part_refused w p e) /\
  (forall p e, In p (flat_map page_parts gs) -> part_refused w p e ->
     exists e' gs', encode_pages w gs = (Err e', gs')).
Proof.
  intros w gs Hw. induction gs as [|g gs (IH1 & IH2)]; cbn [encode_pages flat_map].
  - split; [discriminate|intros p e []].
  - destruct (page_out w g Hw) as (A & B).
    destruct (encode_page w g) as [[a|e1] g'].
    2:{ split; [|eauto]. intros e gs' E. assert (e1 = e) by congruence. subst.
        destruct (A _ _ eq_refl) as (p & I & R). exists p. split; [apply in_app_iff; auto|exact R]. }
    destruct (encode_pages w gs) as [[b|e1] r'].
    2:{ split; [|eauto]. intros e gs' E. assert (e1 = e) by congruence. subst.
        destruct (IH1 _ _ eq_refl) as (p & I & R). exists p. split; [apply in_app_iff; auto|exact R]. }
    split; [discriminate|]. intros p e I R. apply in_app_iff in I. exfalso.
    destruct I as [I|I]; [destruct (B _ _ I R) as (e' & s' & X)|destruct (IH2 _ _ I R) as (e' & s' & X)];
      discriminate X.
Qed.

(** * The SMIL description *)

Lemma data_out : forall w p e, data_of w p = Err e <-> unreadable w p /\ e = OSError.
Proof.
  intros w p e. unfold data_of, get_data, st_bind, st_get, st_upd, st_ret, st_err, unreadable.
  destruct p as [h pa f [d|]]; cbn [dp_data dp_filename].
  - split; [discriminate|intros ((X & _) & _); discriminate X].
  - destruct f as [f|].
    + destruct (w_file w f) as [c|] eqn:W; cbn [fst].
      * split; [discriminate|]. intros ((_ & f' & X & Y) & _). exfalso. assert (f' = f) by congruence. subst. congruence.
      * split; [|intros (_ & ->); reflexivity]. intros X. split; [eauto|congruence].
    + split; [discriminate|]. intros ((_ & f' & X & _) & _). discriminate X.
Qed.

Lemma source_out : forall w p e, media_src w p = Err e <-> source_refused w p e.
Proof.
  intros w p e. unfold media_src.
  assert (U : forall v, (match v with HP (PStr s) => Ok s | _ => Err AttributeError end = Err e) <->
                        (forall s, v <> HStr s) /\ e = AttributeError).
  { intros v. destruct v as [[s|n|n d|t]|b|k n|m ps|q x];
      try (split; [intros X; split; [discriminate|congruence]|intros (_ & ->); reflexivity]).
    split; [discriminate|]. intros (N & _). destruct (N s eq_refl). }
  destruct (d_get leqb (str "Content-Location") (dp_headers p)) as [v|] eqn:L.
  - rewrite U. split.
    + intros (N & ->). eapply sr_location; eauto.
    + intros R. destruct R as [v' A B|v' A B C|A B C]; [|congruence|congruence].
      split; [|reflexivity]. congruence.
  - destruct (d_get leqb (str "Content-ID") (dp_headers p)) as [v|] eqn:D.
    + rewrite U. split.
      * intros (N & ->). eapply sr_id; eauto.
      * intros R. destruct R as [v' A B|v' A B C|A B C]; [congruence| |congruence].
        split; [|reflexivity]. congruence.
    + rewrite data_out. split.
      * intros (X & ->). apply sr_data; assumption.
      * intros R. destruct R as [v' A B|v' A B C|A B C]; [congruence|congruence|auto].
Qed.

(** A sound before any text. *)
Definition early_sound (gs : list page) : Prop :=
  exists before g after, gs = before ++ g :: after /\ pg_audio g <> None /\
    forall h, In h (before ++ [g]) -> pg_text h = None.

(** A slide that cannot be described, whatever came before. *)
Definition slide_refused (w : world) (g : page) (e : exn) : Prop :=
  (exists p tb te, (pg_image g = Some (p, tb, te) \/ pg_audio g = Some (p, tb, te)) /\ source_refused w p e) \/
  (exists p tb te, pg_text g = Some (p, tb, te) /\ unreadable w p /\ e = OSError).

Lemma smil_page_out : forall w i pars tn g,
  match smil_page w i pars tn g with
  | Err e => slide_refused w g e \/
             (e = UnboundLocalError /\ tn = None /\ pg_text g = None /\ pg_audio g <> None)
  | Ok (_, tn') => (forall e, ~ slide_refused w g e) /\
             (tn = None -> pg_text g = None -> pg_audio g = None) /\
             (tn' = None <-> tn = None /\ pg_text g = None)
  end.
Proof.
  intros w i pars tn g. unfold smil_page.
  assert (I : match pg_image g with
              | None => True
              | Some (p, _, _) => match media_src w p with
                                  | Err e => slide_refused w g e
                                  | Ok _ => forall e, ~ source_refused w p e end end).
  { destruct (pg_image g) as [[[p tb] te]|] eqn:E; [|exact I]. destruct (media_src w p) as [s|e] eqn:M.
    - intros e R. apply source_out in R. congruence.
    - left. exists p, tb, te. split; [auto|]. apply source_out. exact M. }
  assert (U : match pg_audio g with
              | None => True
              | Some (p, _, _) => match media_src w p with
                                  | Err e => slide_refused w g e
                                  | Ok _ => forall e, ~ source_refused w p e end end).
  { destruct (pg_audio g) as [[[p tb] te]|] eqn:E; [|exact Logic.I]. destruct (media_src w p) as [s|e] eqn:M.
    - intros e R. apply source_out in R. congruence.
    - left. exists p, tb, te. split; [auto|]. apply source_out. exact M. }
  assert (T : match pg_text g with
              | None => True
              | Some (p, _, _) => match data_of w p with
                                  | Err e => slide_refused w g e
                                  | Ok _ => ~ unreadable w p end end).
  { destruct (pg_text g) as [[[p tb] te]|] eqn:E; [|exact Logic.I]. destruct (data_of w p) as [s|e] eqn:M.
    - intros R. assert (X : data_of w p = Err OSError) by (apply data_out; auto). congruence.
    - apply data_out in M. destruct M as (R & ->). right. exists p, tb, te. auto. }
  assert (OK : (forall p tb te e, pg_image g = Some (p, tb, te) -> ~ source_refused w p e) ->
               (forall p tb te e, pg_audio g = Some (p, tb, te) -> ~ source_refused w p e) ->
               (forall p tb te, pg_text g = Some (p, tb, te) -> ~ unreadable w p) ->
               forall e, ~ slide_refused w g e).
  { intros H1 H2 H3 e [(p & tb & te & [X|X] & R)|(p & tb & te & X & R & _)]; eauto.
    - exact (H1 _ _ _ _ X R).
    - exact (H2 _ _ _ _ X R).
    - exact (H3 _ _ _ X R). }
  destruct (pg_image g) as [[[pi tbi] tei]|]; [destruct (media_src w pi) as [si|e]|]; cbn [bind]; [|left; exact I|].
  all: (destruct (pg_text g) as [[[pt tbt] tet]|]; [destruct (data_of w pt) as [st|e]|]; cbn [bind]; [|left; exact T|]).
  all: (destruct (pg_audio g) as [[[pa tba] tea]|]; [destruct (media_src w pa) as [sa|e]|]; cbn [bind]; [|left; exact U|]).
  all: try (destruct tn as [t|]; cbn [bind]).
  all: first
    [ right; repeat split; discriminate
    | split;
      [ apply OK; [intros p0 tb0 te0 e0 X|intros p0 tb0 te0 e0 X|intros p0 tb0 te0 X];
        first [discriminate X | injection X as <- <- <-; auto]
      | split; [congruence|split; [auto; discriminate|intros (X & Y); congruence]] ] ].
Qed.

Lemma smil_pages_out : forall w gs i pars tn,
  match smil_pages w i pars tn gs with
  | Err e => (exists g, In g gs /\ slide_refused w g e) \/
             (e = UnboundLocalError /\ tn = None /\ early_sound gs)
  | Ok _ => (forall g e, In g gs -> ~ slide_refused w g e) /\ (tn = None -> ~ early_sound gs)
  end.
Proof.
  intros w gs. induction gs as [|g gs IH]; intros i pars tn; cbn [smil_pages].
  - split; [intros g e []|]. intros _ (b & g & a & X & _). destruct b; discriminate X.
  - pose proof (smil_page_out w i pars tn g) as P.
    destruct (smil_page w i pars tn g) as [[pars' tn']|e]; cbn [bind].
    + destruct P as (P1 & P2 & P3). specialize (IH (S i) pars' tn').
      assert (Q : pg_text g = None -> early_sound gs -> early_sound (g :: gs)).
      { intros Tg (b & h & a & -> & A & T). exists (g :: b), h, a. split; [reflexivity|]. split; [exact A|].
        intros x [<-|X]; [exact Tg|]. apply T, X. }
      assert (Q' : early_sound (g :: gs) ->
                   (pg_text g = None /\ pg_audio g <> None) \/ (pg_text g = None /\ early_sound gs)).
      { intros ([|g0 b] & h & a & X & A & T); cbn [app] in X; injection X as -> ->.
        - left. split; [apply T; left; reflexivity|exact A].
        - right. split; [apply T; left; reflexivity|]. exists b, h, a. split; [reflexivity|]. split; [exact A|].
          intros x Hx. apply T. right. exact Hx. }
      destruct (smil_pages w (S i) pars' tn' gs) as [r|e].
      * destruct IH as (I1 & I2). split.
        -- intros x e [<-|X]; [apply P1|apply I1, X].
        -- intros Tn X. destruct (Q' X) as [(T & A)|(T & Y)]; [apply A, P2; auto|].
           apply I2; [apply P3; auto|exact Y].
      * destruct IH as [(x & X & R)|(-> & Tn & Y)].
        -- left. exists x. split; [right; exact X|exact R].
        -- right. apply P3 in Tn. destruct Tn as (Tn & Tg). auto.
    + destruct P as [P|(-> & Tn & Tg & A)].
      * left. exists g. split; [left; reflexivity|exact P].
      * right. split; [reflexivity|]. split; [exact Tn|]. exists [], g, gs. split; [reflexivity|].
        split; [exact A|]. intros h [<-|[]]. exact Tg.
Qed.

Lemma slides_refused_cases : forall w gs e, slides_refused w gs e <->
  (exists g, In g gs /\ slide_refused w g e) \/ (e = UnboundLocalError /\ early_sound gs).
Proof.
  intros w gs e. split.
  - intros [g p tb te e' I X R|g p tb te I X R|b g a X A T].
    + left. exists g. split; [exact I|]. left. eauto.
    + left. exists g. split; [exact I|]. right. exists p, tb, te. auto.
    + right. split; [reflexivity|]. exists b, g, a. auto.
  - intros [(g & I & [(p & tb & te & X & R)|(p & tb & te & X & R & ->)])|(-> & b & g & a & X & A & T)].
    + eapply sl_source; eauto.
    + eapply sl_text; eauto.
    + eapply sl_sound; eauto.
Qed.

Lemma smil_out : forall render w m,
  (forall e, smil render w m = Err e -> slides_refused w (m_pages m) e) /\
  (forall e, slides_refused w (m_pages m) e -> exists e', smil render w m = Err e').
Proof.
  intros render w m. unfold smil, smil_tree. pose proof (smil_pages_out w (m_pages m) 0 [] None) as P.
  destruct (smil_pages w 0 [] None (m_pages m)) as [r|e0]; cbn [bind].
  - split; [discriminate|]. intros e R. exfalso. apply slides_refused_cases in R. destruct P as (P1 & P2).
    destruct R as [(g & I & R)|(_ & R)]; [exact (P1 g e I R)|exact (P2 eq_refl R)].
  - split; [|eauto]. intros e E. injection E as <-. apply slides_refused_cases.
    destruct P as [P|(-> & _ & P)]; auto.
Qed.

(** * The headers of the message *)

Lemma entry_out : forall k v d, d_get leqb k d = Some v -> encode_entry k d = header_octets k v.
Proof. intros k v d E. unfold encode_entry, h_get, header_octets. rewrite E. reflexivity. Qed.

Lemma first_present : forall rand d k, In k sent_first -> exists v, sent_headers rand d k = Some v.
Proof.
  intros rand d k H. cbn [In sent_first] in H.
  repeat destruct H as [<-|H]; try contradiction; unfold sent_headers; keys;
    repeat match goal with |- context [match ?x with Some _ => _ | None => _ end] => destruct x
                         | |- context [if ?x then _ else _] => destruct x end; eauto.
Qed.

Lemma others_out : forall w d, any_order w -> is_dict d ->
  let refused e := exists k v, h_get k d = Some v /\ k <> str "Content-Type" /\ header_refused k v e in
  (forall e, encode_others w d = Err e -> refused e) /\
  (forall e, refused e -> exists e', encode_others w d = Err e').
Proof.
  intros w d Hw Hd refused. unfold encode_others.
  set (f := fun p : list Z * hval => if leqb (fst p) (str "Content-Type") then Ok []
                       else l <- mms_encode_header (fst p) (snd p) ;; array_of l).
  assert (P : forall x, In x (w_order w d) <-> In x d).
  { intros x. split; apply Permutation_in; [|apply Permutation_sym]; apply Hw. }
  destruct (mapM f (w_order w d)) as [ls|e0] eqn:M; cbn [bind].
  - split; [discriminate|]. intros e (k & v & G & N & R). exfalso.
    apply h_get_In, P in G; [|exact Hd].
    destruct (Forall2_left _ _ _ _ _ _ (mapM_passed _ _ _ _ _ M) G) as (b & _ & F).
    unfold f in F. cbn [fst snd] in F. destruct (leqb k (str "Content-Type")) eqn:L.
    + apply leqb_eq in L. contradiction.
    + apply header_out in R; [|exact N]. unfold header_octets in R. congruence.
  - split; [|eauto]. intros e E. assert (e0 = e) by congruence. subst e0.
    destruct (mapM_refused _ _ _ _ _ M) as ([k v] & I & F). unfold f in F. cbn [fst snd] in F.
    destruct (leqb k (str "Content-Type")) eqn:L; [discriminate|].
    assert (N : k <> str "Content-Type") by (intros ->; rewrite leqb_refl in L; discriminate).
    exists k, v. split; [apply h_get_In; [exact Hd|apply P, I]|]. split; [exact N|].
    apply header_out; [exact N|]. exact F.
Qed.

Lemma last_out : forall d,
  (forall e, encode_last d = Err e ->
     (h_get (str "Content-Type") d = None /\ e = KeyError) \/
     (exists v, h_get (str "Content-Type") d = Some v /\ type_refused v e)) /\
  (h_get (str "Content-Type") d = None -> encode_last d = Err KeyError) /\
  (forall v e, h_get (str "Content-Type") d = Some v -> type_refused v e -> exists e', encode_last d = Err e').
Proof.
  intros d. unfold encode_last. destruct (h_get (str "Content-Type") d) as [v|].
  - fold (type_octets v). destruct (type_out v) as (A & B). split; [|split].
    + intros e E. right. eauto.
    + discriminate.
    + intros v' e X R. injection X as <-. eauto.
  - split; [|split]; [|reflexivity|discriminate]. intros e E. left. split; [reflexivity|congruence].
Qed.

(** What is wrong with the headers of a message. *)
Definition header_problem (rand : Z) (d : list (list Z * hval)) (e : exn) : Prop :=
  (exists k v, sent_headers rand d k = Some v /\ k <> str "Content-Type" /\ header_refused k v e) \/
  (sent_headers rand d (str "Content-Type") = None /\ e = KeyError) \/
  (exists v, sent_headers rand d (str "Content-Type") = Some v /\ type_refused v e).

Lemma message_header_out : forall w rand m, any_order w -> is_dict (m_headers m) ->
  (forall e m', encode_message_header w rand m = (Err e, m') -> header_problem rand (m_headers m) e) /\
  (forall e, header_problem rand (m_headers m) e ->
     exists e' m', encode_message_header w rand m = (Err e', m')).
Proof.
  intros w rand m Hw Hd. pose (D := fix_rest rand (fix_message_type (renames (m_headers m)))).
  assert (HD : is_dict D) by (apply is_dict_rest, is_dict_type, is_dict_renames, Hd).
  pose proof (fun k => sent_spec rand (m_headers m) k Hd) as S. fold D in S.
  pose (D' := dels sent_first D).
  assert (HD' : is_dict D') by (apply is_dict_dels; exact HD).
  assert (G : forall k, h_get k D' = if existsb (leqb k) sent_first then None else sent_headers rand (m_headers m) k).
  { intros k. unfold D'. rewrite h_get_dels by exact HD. rewrite S. reflexivity. }
  assert (Fst : forall k, In k sent_first -> exists v, sent_headers rand (m_headers m) k = Some v /\
            encode_entry k D = header_octets k v /\ k <> str "Content-Type").
  { intros k Hk. destruct (first_present rand (m_headers m) k Hk) as (v & E). exists v. split; [exact E|].
    split; [apply entry_out; rewrite <- S in E; exact E|].
    intros ->. cbn [In sent_first] in Hk. repeat destruct Hk as [Hk|Hk]; try contradiction; discriminate Hk. }
  assert (Fe : forall k e, In k sent_first -> encode_entry k D = Err e -> header_problem rand (m_headers m) e).
  { intros k e Hk E. destruct (Fst k Hk) as (v & E1 & E2 & N). left. exists k, v. split; [exact E1|].
    split; [exact N|]. apply header_out; [exact N|]. congruence. }
  remember (encode_message_header w rand m) as R eqn:ER.
  unfold encode_message_header in ER. unfold st_bind at 1 2 3, st_upd at 1 2 3 in ER.
  cbn [with_headers m_headers] in ER. fold D in ER. rewrite !with_headers_twice in ER.
  cbn [encode_first] in ER. unfold st_bind, st_get, st_lift, st_upd, st_ret in ER.
  cbn [with_headers m_headers] in ER.
  rewrite !entry_del in ER by (repeat apply is_dict_del; exact HD || reflexivity).
  destruct (encode_entry (str "Message-Type") D) as [b1|e1] eqn:E1.
  2:{ subst R. split; [|intros; eexists; eexists; reflexivity]. intros e m' X. assert (e1 = e) by congruence. subst. eapply Fe; [|exact E1]. unfold sent_first. cbn [In]. auto. }
  destruct (encode_entry (str "Transaction-Id") D) as [b2|e2] eqn:E2.
  2:{ subst R. split; [|intros; eexists; eexists; reflexivity]. intros e m' X. assert (e2 = e) by congruence. subst. eapply Fe; [|exact E2]. unfold sent_first. cbn [In]. auto. }
  destruct (encode_entry (str "MMS-Version") D) as [b3|e3] eqn:E3.
  2:{ subst R. split; [|intros; eexists; eexists; reflexivity]. intros e m' X. assert (e3 = e) by congruence. subst. eapply Fe; [|exact E3]. unfold sent_first. cbn [In]. auto. }
  rewrite !with_headers_twice in ER. cbn [with_headers m_headers] in ER.
  change (d_del leqb (str "MMS-Version")
      (d_del leqb (str "Transaction-Id") (d_del leqb (str "Message-Type") D))) with D' in ER.
  destruct (others_out w D' Hw HD') as (A & B), (last_out D') as (C1 & C2 & C3).
  assert (GT : h_get (str "Content-Type") D' = sent_headers rand (m_headers m) (str "Content-Type"))
    by (rewrite G; reflexivity).
  rewrite GT in C1, C2, C3.
  destruct (encode_others w D') as [b4|e4] eqn:E4.
  2:{ subst R. split; [|intros; eexists; eexists; reflexivity]. intros e m' X. assert (e4 = e) by congruence. subst.
      destruct (A _ eq_refl) as (k & v & H & N & R). left. exists k, v. split; [|auto].
      rewrite G in H. destruct (existsb (leqb k) sent_first); [discriminate|exact H]. }
  destruct (encode_last D') as [b5|e5] eqn:E5.
  2:{ subst R. split; [|intros; eexists; eexists; reflexivity]. intros e m' X. assert (e5 = e) by congruence. subst.
      destruct (C1 _ eq_refl) as [X1|X1]; [right; left; exact X1|right; right; exact X1]. }
  subst R. split; [discriminate|]. intros e H. exfalso. destruct H as [(k & v & H & N & R)|[(H & ->)|(v & H & R)]].
  - destruct (existsb (leqb k) sent_first) eqn:L.
    + apply existsb_exists in L. destruct L as (k' & I & L). apply leqb_eq in L. subst k'.
      destruct (Fst k I) as (v' & F1 & F2 & _). assert (v' = v) by congruence. subst v'.
      apply header_out in R; [|exact N]. cbn [In sent_first] in I.
      repeat destruct I as [<-|I]; try contradiction; congruence.
    + destruct (B e) as (e' & X); [|discriminate X]. exists k, v. split; [|auto]. rewrite G, L. exact H.
  - specialize (C2 H). discriminate C2.
  - destruct (C3 v e H R) as (e' & X). discriminate X.
Qed.

(** * Whole messages *)

Lemma encode_out : forall render w rand m, any_order w -> is_dict (m_headers m) ->
  let problem e := header_problem rand (m_headers m) e \/ slides_refused w (m_pages m) e \/
                   exists p, In p (slide_parts m) /\ part_refused w p e in
  (forall e m', encode render w rand m = (Err e, m') -> problem e) /\
  (forall e, problem e -> exists e' m', encode render w rand m = (Err e', m')).
Proof.
  intros render w rand m Hw Hd problem. unfold encode, st_bind, st_ret.
  destruct (message_header_out w rand m Hw Hd) as (A & B).
  destruct (encode_message_header w rand m) as [[h|e0] m1] eqn:E1.
  2:{ split; [|intros; eexists; eexists; reflexivity]. intros e m' X. assert (e0 = e) by congruence. subst. left. eapply A. reflexivity. }
  destruct (message_header_inv w rand m h m1 Hd E1) as (-> & _).
  unfold encode_message_body, st_bind, st_get, st_lift. rewrite smil_with_headers.
  destruct (smil_out render w m) as (S1 & S2).
  destruct (smil render w m) as [text|e0].
  2:{ split; [|intros; eexists; eexists; reflexivity]. intros e m' X. assert (e0 = e) by congruence. subst. right. left. auto. }
  destruct (smil_sendable w text) as (T1 & T2).
  destruct (part_roundtrip w (smil_part text) text Hw T1 T2) as (sb & p1 & p' & E2 & _). rewrite E2.
  cbn [fst m_pages with_headers]. unfold problem. rewrite slide_parts_pages. destruct (pages_out w (m_pages m) Hw) as (P1 & P2).
  destruct (encode_pages w (m_pages m)) as [[b|e0] gs].
  2:{ split; [|intros; eexists; eexists; reflexivity]. intros e m' X. assert (e0 = e) by congruence. subst. right. right. eapply P1. reflexivity. }
  split; [discriminate|]. intros e [X|[X|(p & I & R)]]; exfalso.
  - destruct (B e X) as (e' & m' & Y). discriminate Y.
  - destruct (S2 e X) as (e' & Y). discriminate Y.
  - destruct (P2 p e I R) as (e' & gs' & Y). discriminate Y.
Qed.
