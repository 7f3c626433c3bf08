(** Proofs about what [MMSMessage.encode] writes. *)
From Coq Require Import Lia ZifyBool ZifyNat Permutation.
From Verif Require Import Py Iter Tables WspDec WspEnc Message MmsEnc MmsDec
  SpecWsp SpecVersion WspClaims MmsClaims SpecMms SpecSmil SpecRefuse SpecWritten PyFacts IterFacts WspFacts
  ContentFacts HeaderFacts MsgHeaderFacts BodyFacts MessageFacts EncodeFacts GrammarFacts PropVersion PropRepeat
  PropHeaderExact RefuseFacts.
Open Scope Z_scope.

(** * Numbers *)

Lemma uintvar_written n : 0 <= n -> uintvar_of n (encode_uint_var n).
Proof.
  intros H. destruct (encode_uint_var_spec n H) as (ds & d & -> & H1 & H2 & H3 & H4). constructor; assumption.
Qed.

Lemma value_length_written n : 0 <= n -> value_length_of n (encode_value_length n).
Proof.
  intros H. unfold encode_value_length, encode_short_length.
  destruct ((n <? 0) || (30 <? n)) eqn:E; constructor; try lia. apply uintvar_written. exact H.
Qed.

Lemma long_written n l : encode_long_integer n = Ok l -> long_of n l.
Proof.
  unfold encode_long_integer. destruct (is_int n) eqn:I; [|discriminate]. apply machine_iff in I. cbv zeta. cbn [negb].
  destruct (Z_lt_dec n 0) as [N|N].
  - replace (long_enc (S (Z.to_nat (Z.log2 n))) n) with (@nil Z)
      by (cbn [long_enc]; replace (0 <? n) with false by lia; reflexivity).
    cbn. intros E. injection E as <-. apply long_negative; [exact I|exact N].
  - destruct (octets_of n) as (ds & H1 & H2 & <-); [lia|].
    rewrite long_enc_spec; [|exact H1|exact H2|].
    + destruct (30 <? zlen (rev ds)); [discriminate|]. intros E. injection E as <-.
      replace (zlen (rev ds)) with (n_octets ds) by (unfold n_octets, zlen; rewrite rev_length; reflexivity).
      apply long_positive; [exact I|exact H1|exact H2|reflexivity].
    + set (n := big_endian ds) in *. rewrite Nat2Z.inj_succ, Z2Nat.id by apply Z.log2_nonneg.
      destruct (Z.eq_dec n 0) as [->|N0]; [reflexivity|]. apply Z.log2_spec. lia.
Qed.

Lemma short_written n l : encode_short_integer n = Ok l -> 0 <= n <= 127 /\ l = [128 + n].
Proof.
  intros E. destruct (Z_le_dec 0 n) as [A|A]; [destruct (Z_le_dec n 127) as [B|B]|].
  - rewrite encode_short_integer_ok in E by lia. split; [lia|congruence].
  - rewrite (proj2 (short_integer_out n)) in E by lia. discriminate.
  - rewrite (proj2 (short_integer_out n)) in E by lia. discriminate.
Qed.

(** * Headers of the message *)

Lemma numbered_was n l b : 0 <= n < 256 -> array_of (ints [n] ++ ints l) = Ok b -> b = n :: l.
Proof. intros H E. rewrite numbered_out in E by exact H. destruct (oct l); congruence. Qed.

Lemma text_was v l : encode_text_string_h v = Ok l -> exists s, text_of v s /\ l = s ++ [0].
Proof.
  intros E. destruct (text_out v) as [(s & T & X)|(_ & X)]; [|congruence].
  exists s. split; [exact T|]. rewrite X in E. injection E as <-. reflexivity.
Qed.

Lemma d_get_was {A} s (d : list (list Z * A)) k : d_get leqb s d = Some k -> In (s, k) d.
Proof.
  induction d as [|[x y] d IH]; cbn [d_get]; [discriminate|]. destruct (leqb s x) eqn:E.
  - intros X. injection X as ->. apply leqb_eq in E. subst. left. reflexivity.
  - intros X. right. apply IH, X.
Qed.

Ltac known_in E :=
  unfold header_octets, mms_encode_header in E;
  match type of E with context [find_field ?x] =>
    let y := eval vm_compute in (find_field x) in
    replace (find_field x) with y in E by (vm_compute; reflexivity) end;
  rewrite encode_short_integer_ok in E by lia; cbn [bind encode_mms_value] in E.

Lemma just_text name v n b : In (name, 128 + n) numbered_texts -> 0 <= n < 128 ->
  (l <- (b <- (l <- encode_text_string_h v ;; Ok (ints l)) ;; Ok (ints [128 + n] ++ b)) ;; array_of l) = Ok b ->
  header_written name v b.
Proof.
  intros I Hn E. destruct (encode_text_string_h v) as [l|] eqn:T; [|discriminate E].
  cbn [bind] in E. apply numbered_was in E; [|lia]. subst b.
  apply text_was in T. destruct T as (s & T & ->). exact (hw_text _ _ _ s I T).
Qed.

Lemma header_was name v b : name <> str "Content-Type" -> header_octets name v = Ok b -> header_written name v b.
Proof.
  intros Hct E.
  destruct (in_dec (list_eq_dec Z.eq_dec) name (text_fields ++ read_only_fields ++ coded_fields)) as [Hi|Hi].
  2:{ unfold header_octets, mms_encode_header in E.
      rewrite find_field_none in E by (rewrite <- fields_known; exact Hi).
      unfold encode_token_text in E. destruct (existsb is_separator name); [discriminate|]. cbn [bind] in E.
      destruct (encode_text_string_h v) as [t|x] eqn:T; [|discriminate]. cbn [bind] in E.
      rewrite ints_joined, array_ints in E. destruct (oct _); [|discriminate]. injection E as <-.
      apply text_was in T. destruct T as (s & T & ->). unfold encode_text_string. rewrite <- app_assoc.
      apply hw_other; assumption. }
  rewrite !in_app_iff in Hi. destruct Hi as [Hi|[Hi|Hi]].
  - cbn [text_fields In] in Hi.
    destruct Hi as [<-|[<-|[<-|[<-|[<-|[<-|[<-|[<-|[]]]]]]]]]; known_in E;
      unfold encode_encoded_string_value in E; try (revert E; apply just_text; [cbn [numbered_texts In]; tauto|lia]).
    assert (F : exists s, text_of v s /\ encode_from_value v =
                Ok (if leqb s [] then [1; 129] else encode_value_length (n_octets s + 2) ++ 128 :: s ++ [0])).
    { destruct (text_out v) as [(s & T & X)|(N & X)].
      - exists s. split; [exact T|]. destruct T as [->|(x & y & -> & ->)].
        + destruct s as [|c s]; [reflexivity|]. unfold HStr, encode_from_value, encode_text_string. cbv zeta.
          do 2 f_equal. change (leqb (c :: s) []) with false. cbv iota.
          replace (zlen ((c :: s) ++ [0]) + 1) with (n_octets (c :: s) + 2); [reflexivity|].
          unfold zlen, n_octets. rewrite app_length. cbn [length]. lia.
        + reflexivity.
      - exfalso. destruct v as [[s| | |]| | | |p q]; try discriminate E.
        + apply (N s). left. reflexivity.
        + cbn [encode_from_value] in E. rewrite X in E. discriminate E. }
    destruct F as (s & T & F). rewrite F in E. cbn [bind] in E. apply numbered_was in E; [|lia]. subst b.
    destruct s as [|c s].
    + apply hw_from_nobody; [reflexivity|]. destruct T as [->|(x & y & _ & X)]; [reflexivity|discriminate X].
    + change (leqb (c :: s) []) with false. cbv iota. apply hw_from; [reflexivity|exact T|discriminate|].
      apply value_length_written. unfold n_octets. lia.
  - rewrite (read_only_out name v Hi) in E. discriminate.
  - cbn [coded_fields In] in Hi. destruct Hi as [<-|[<-|[<-|[<-|[<-|[]]]]]]; [congruence| | | |]; known_in E.
    + (* Message-Type *)
      assert (V : exists k, encode_message_type_value v = Ok [k] /\
        ((exists s, v = HStr s /\ In (s, k) type_codes) \/
         k = 128 /\ forall s, In s (map fst type_codes) -> v <> HStr s)).
      { destruct v as [[s|n|n d|t]|x|k n|m ps|p q]; try discriminate E;
          try (exists 128; split; [reflexivity|]; right; split; [reflexivity|discriminate]).
        cbn [encode_message_type_value]. destruct (d_get leqb s message_types) as [k|] eqn:D.
        - exists k. split; [reflexivity|]. left. exists s. split; [reflexivity|]. exact (d_get_was _ _ _ D).
        - exists 128. split; [reflexivity|]. right. split; [reflexivity|]. intros t Ht X.
          assert (t = s) by (unfold HStr in X; congruence). subst t.
          apply (proj1 (d_get_keys _ s type_codes)) in Ht. apply Ht. exact D. }
      destruct V as (k & V & C). rewrite V in E. cbn [bind] in E. apply numbered_was in E; [|lia]. subst b.
      destruct C as [(s & -> & C)|(-> & C)].
      * exact (hw_type _ _ s k eq_refl eq_refl C).
      * exact (hw_type_other _ _ eq_refl C).
    + (* MMS-Version *)
      destruct v as [[s|n|n d|t]|x|k n|m ps|p q]; try discriminate E.
      cbn [encode_version_value_h encode_version_value_p bind] in E. apply numbered_was in E; [|lia]. subst b.
      exact (hw_version _ _ s _ eq_refl eq_refl (version_sent s)).
    + (* Message-Size *)
      destruct (encode_long_integer_h v) as [l|] eqn:L; [|discriminate E]. cbn [bind] in E.
      apply numbered_was in E; [|lia]. subst b.
      destruct v as [[s|n|n d|t]|x|k n|m ps|p q]; try discriminate L; cbn [encode_long_integer_h] in L;
        apply long_written in L.
      * eapply hw_size; [reflexivity| |exact L]. left. reflexivity.
      * eapply hw_size; [reflexivity| |exact L]. destruct x; auto.
    + (* Status *)
      destruct v as [[s|n|n d|t]|x|k n|m ps|p q]; try discriminate E.
      cbn [encode_status_value bind] in E. destruct (d_get leqb s status_values) as [k|] eqn:D; [|discriminate E].
      change [EInt k] with (ints [k]) in E. apply numbered_was in E; [|lia]. subst b.
      exact (hw_status _ _ s k eq_refl eq_refl (d_get_was _ _ _ D)).
Qed.

(** * Content types *)

Lemma parameter_was name v b : encode_parameter name v = Ok b -> parameter_written name v b.
Proof.
  intros E.
  destruct (in_dec (list_eq_dec Z.eq_dec) name (text_parameters ++ read_only_parameters ++ coded_parameters)) as [Hi|Hi].
  2:{ unfold encode_parameter, encode_parameter_in in E. rewrite parameters_12_ok in E. cbn [bind] in E.
      rewrite find_parameter_none in E by (rewrite <- parameters_known; exact Hi).
      unfold encode_token_text in E. destruct (existsb is_separator name); [discriminate|]. cbn [bind] in E.
      destruct v as [s|n|n d|t]; cbn [encode_integer_value on_encode_error encode_text_string_p bind] in E;
        try discriminate E.
      - injection E as <-. unfold encode_text_string. rewrite <- app_assoc. apply pw_other_text; [exact Hi|reflexivity].
      - destruct (is_int n) eqn:I; cbn [negb] in E; [|discriminate E].
        destruct (encode_short_integer n) as [l|e] eqn:S.
        + apply short_written in S. destruct S as (Hn & ->). cbn [on_encode_error bind] in E. injection E as <-.
          unfold encode_text_string. rewrite <- app_assoc. apply pw_other_short; [exact Hi|reflexivity|exact Hn].
        + assert (N : ~ (0 <= n <= 127)) by (intros H; rewrite encode_short_integer_ok in S by lia; discriminate S).
          rewrite (proj2 (short_integer_out n) N) in S. injection S as <-. cbn [on_encode_error] in E.
          destruct (proj1 (long_integer_out n)) as (l & L & _); [apply machine_iff; exact I|].
          rewrite L in E. cbn [on_encode_error bind] in E. injection E as <-.
          unfold encode_text_string. rewrite <- app_assoc.
          apply (pw_other_long _ _ n l); [exact Hi|reflexivity|exact N|apply long_written; exact L]. }
  assert (K : forall n t, find_parameter name parameters_12 = Some (n, (name, t)) -> 0 <= n <= 127 ->
    exists l, encode_by_type t v = Ok l /\ b = 128 + n :: l).
  { intros n t F Hn. unfold encode_parameter, encode_parameter_in in E. rewrite parameters_12_ok in E.
    cbn [bind] in E. rewrite F, encode_short_integer_ok in E by lia. cbn [bind] in E.
    destruct (encode_by_type t v) as [l|]; [|discriminate]. cbn [bind] in E. injection E as <-. eauto. }
  rewrite !in_app_iff in Hi. destruct Hi as [Hi|[Hi|Hi]].
  - cbn [text_parameters In] in Hi.
    destruct Hi as [<-|[<-|[<-|[<-|[]]]]].
    all: destruct (K _ _ ltac:(vm_compute; reflexivity) ltac:(lia)) as (l & T & ->);
      cbn [encode_by_type encode_text_value] in T; destruct v as [s|n|n d|t]; try discriminate T;
      injection T as <-; refine (pw_text _ _ _ s _ eq_refl); cbn [parameter_texts In]; tauto.
  - cbn [read_only_parameters In] in Hi.
    destruct Hi as [<-|[<-|[<-|[]]]];
      destruct (K _ _ ltac:(vm_compute; reflexivity) ltac:(lia)) as (l & T & ->); discriminate T.
  - cbn [coded_parameters In] in Hi. destruct Hi as [<-|[<-|[<-|[]]]].
    + destruct (K _ _ ltac:(vm_compute; reflexivity) ltac:(lia)) as (l & T & ->).
      cbn [encode_by_type] in T. destruct v as [s|n|n d|t]; try discriminate T. injection T as <-.
      exact (pw_level _ _ s _ eq_refl eq_refl (version_sent s)).
    + destruct (K _ _ ltac:(vm_compute; reflexivity) ltac:(lia)) as (l & T & ->).
      cbn [encode_by_type] in T. destruct v as [s|n|n d|t]; cbn [encode_short_integer_p] in T; try discriminate T.
      * apply short_written in T. destruct T as (Hn & ->). exact (pw_padding _ _ n eq_refl eq_refl Hn).
      * destruct (_ || _); discriminate T.
    + destruct (K _ _ ltac:(vm_compute; reflexivity) ltac:(lia)) as (l & T & ->).
      cbn [encode_by_type] in T. destruct v as [s|n|n d|t]; cbn [encode_constrained_encoding] in T; try discriminate T.
      * destruct (control_out s) as [(-> & X)|[(C & X)|(Ne & C & X)]]; rewrite X in T; try discriminate T.
        injection T as <-. exact (pw_type _ _ s eq_refl eq_refl).
      * destruct (is_int n) eqn:I.
        -- apply short_written in T. destruct T as (Hn & ->). exact (pw_type_number _ _ n eq_refl eq_refl Hn).
        -- apply machine_not in I.
           match type of T with encode_extension_media ?s = _ =>
             destruct (control_out s) as [(_ & X)|[(_ & X)|(_ & _ & X)]]; rewrite X in T end; try discriminate T.
           injection T as <-. unfold encode_text_string. rewrite <- app_assoc.
           exact (pw_type_long _ _ n eq_refl eq_refl I).
Qed.

Lemma assigned_once : NoDup assigned_media.
Proof.
  assert (X : (fix f (l : list (list Z)) := match l with
     | [] => true | a :: r => negb (existsb (leqb a) r) && f r end) assigned_media = true) by (vm_compute; reflexivity).
  revert X. generalize assigned_media. induction l as [|a l IH]; intros X; [constructor|].
  apply andb_prop in X. destruct X as [X Y]. constructor; [|apply IH, Y].
  apply unlisted. destruct (existsb (leqb a) l); [discriminate X|reflexivity].
Qed.

Lemma media_was_number m i : index_of m well_known_content_types = Some i -> media_written m [128 + i].
Proof.
  intros E. destruct (list_eq_dec Z.eq_dec m (str "multipart/byterantes")) as [->|N].
  - vm_compute in E. injection E as <-. apply mw_misspelt. reflexivity.
  - destruct (index_of_nth _ _ _ E) as (Hi & Hn).
    assert (M : nth_error well_known_content_types (Z.to_nat i) = Some m).
    { rewrite <- Hn. apply nth_error_nth'. unfold zlen in Hi. lia. }
    apply mw_number.
    + split; [lia|]. apply assigned_agree; assumption.
    + intros ->. apply N. vm_compute in M. injection M as <-. reflexivity.
Qed.

Lemma media_was_name m : index_of m well_known_content_types = None -> media_written m (m ++ [0]).
Proof.
  intros E. apply mw_name.
  - intros n M. destruct (list_eq_dec Z.eq_dec m (str "multipart/byteranges")) as [->|N].
    + destruct M as (Hn & M).
      assert (X : nth_error assigned_media 14 = Some (str "multipart/byteranges")) by (vm_compute; reflexivity).
      pose proof (proj1 (NoDup_nth_error assigned_media) assigned_once 14%nat (Z.to_nat n)) as Y.
      rewrite X, M in Y. specialize (Y ltac:(vm_compute; lia) eq_refl). lia.
    + destruct (media_table _ _ M N) as (L & T). destruct M as (Hn & _).
      exfalso. destruct (index_of_In m well_known_content_types) as (i & X); [|congruence].
      rewrite <- T. apply nth_In. unfold zlen in L. lia.
  - intros ->. vm_compute in E. discriminate E.
Qed.

Lemma media_type_was m : exists x, encode_media_type m = Ok [EList (ints x)] /\ media_written m x.
Proof.
  unfold encode_media_type. destruct (index_of m well_known_content_types) as [i|] eqn:E.
  - destruct (known_media _ _ E) as (Hi & _). rewrite encode_short_integer_ok by lia.
    exists [128 + i]. split; [reflexivity|]. apply media_was_number, E.
  - exists (m ++ [0]). split; [reflexivity|]. apply media_was_name, E.
Qed.

Lemma constrained_was m x : encode_constrained_media m = Ok x -> ~ control m /\ media_written m x.
Proof.
  unfold encode_constrained_media. destruct (index_of m well_known_content_types) as [i|] eqn:E.
  - destruct (known_media _ _ E) as (Hi & _ & C & _). cbn [encode_constrained_encoding].
    rewrite (proj2 (machine_iff i)) by (unfold machine; lia). rewrite encode_short_integer_ok by lia.
    intros X. injection X as <-. split; [exact C|apply media_was_number, E].
  - cbn [encode_constrained_encoding].
    destruct (control_out m) as [(_ & ->)|[(_ & ->)|(_ & C & ->)]]; try discriminate.
    intros X. injection X as <-. split; [exact C|apply media_was_name, E].
Qed.

Lemma general_was m ps l : encode_content_general_form m ps = Ok l ->
  exists n x bs, l = ints n ++ EList (ints x) :: map (fun p => EList (ints p)) bs /\
    value_length_of (1 + Z.of_nat (length ps)) n /\ media_written m x /\
    Forall2 (fun p b => parameter_written (fst p) (snd p) b) ps bs.
Proof.
  unfold encode_content_general_form. destruct (media_type_was m) as (x & -> & M). cbn [bind].
  destruct (mapM _ ps) as [bs|] eqn:E; [|discriminate]. cbn [bind]. intros X. injection X as <-.
  apply mapM_passed in E. exists (encode_value_length (zlen [EList (ints x)] + zlen bs)), x, bs.
  split; [reflexivity|]. split; [|split; [exact M|]].
  - replace (zlen [EList (ints x)] + zlen bs) with (1 + Z.of_nat (length ps)).
    + apply value_length_written. lia.
    + rewrite (Forall2_same_length _ _ _ _ _ E). unfold zlen. cbn [length]. lia.
  - revert E. apply Forall2_impl. intros p b. apply parameter_was.
Qed.

(** Either a plain list of numbers or one with lists in it. *)
Lemma type_was m ps l : encode_content_type_value m ps = Ok l ->
  (ps = [] /\ ~ control m /\ exists x, l = ints x /\ media_written m x) \/
  ((ps <> [] \/ control m) /\ exists n x bs, l = ints n ++ EList (ints x) :: map (fun p => EList (ints p)) bs /\
    value_length_of (1 + Z.of_nat (length ps)) n /\ media_written m x /\
    Forall2 (fun p b => parameter_written (fst p) (snd p) b) ps bs).
Proof.
  intros E. unfold encode_content_type_value in E. destruct ps as [|p ps].
  - destruct (constrained_out m) as [(_ & X)|[(C & X)|(_ & _ & x & X & _)]]; rewrite X in E; cbn [bind on_encode_error] in E.
    + discriminate E.
    + right. split; [right; exact C|]. apply general_was. exact E.
    + left. injection E as <-. destruct (constrained_was _ _ X) as (C & M). eauto.
  - right. split; [left; discriminate|]. apply general_was. exact E.
Qed.

Lemma array_was l b : array_of (ints l) = Ok b -> b = l.
Proof. rewrite array_ints. destruct (oct l); congruence. Qed.

Lemma last_was d b : encode_last d = Ok b ->
  exists v m ps ct, h_get (str "Content-Type") d = Some v /\ content_pair v m ps /\ type_written m ps ct /\ b = 132 :: ct.
Proof.
  unfold encode_last. destruct (h_get _ d) as [v|]; [|discriminate].
  destruct (unpack_out v) as [(e & -> & _)|(m & ps & V & ->)]; [discriminate|]. cbn [bind].
  replace (encode_mms_field_name (str "Content-Type")) with (Ok [132] : res (list Z))
    by (vm_compute; reflexivity). cbn [bind].
  destruct (encode_content_type_value m ps) as [l|] eqn:E; [|discriminate]. cbn [bind].
  intros X. destruct (array_of (flatten_list l)) as [ct|] eqn:A; [|discriminate]. cbn [bind] in X. injection X as <-.
  exists v, m, ps, ct. split; [reflexivity|]. split; [exact V|]. split; [|reflexivity].
  destruct (type_was _ _ _ E) as [(P & C & x & -> & M)|(P & n & x & bs & -> & L & M & F)].
  - rewrite flatten_list_ints in A. apply array_was in A. subst ct. apply tw_plain; assumption.
  - rewrite flatten_type in A. apply array_was in A. subst ct. apply tw_general; assumption.
Qed.

(** * Parts *)

Lemma numbered_same : numbered_headers = firstn 56 header_field_names.
Proof. vm_compute. reflexivity. Qed.

Lemma part_header_was name v l b : wsp_encode_header name v = Ok l -> array_of l = Ok b ->
  part_header_written name v b.
Proof.
  unfold wsp_encode_header. rewrite header_names_12. cbn [bind]. rewrite <- numbered_same.
  destruct (match index_of name numbered_headers with
            | Some i => encode_short_integer i | None => encode_token_text name end) as [a|] eqn:N; [|discriminate].
  assert (W : name_written name a).
  { destruct (index_of name numbered_headers) as [i|] eqn:I.
    - destruct (index_of_nth _ _ _ I) as (Hi & Hn). apply short_written in N. destruct N as (_ & ->).
      replace i with (Z.of_nat (Z.to_nat i)) by lia. apply nw_number. rewrite <- Hn.
      apply nth_error_nth'. unfold zlen in Hi. lia.
    - unfold encode_token_text in N. destruct (existsb _ name); [discriminate|]. injection N as <-.
      apply nw_name. intros X. apply index_of_In in X. destruct X as (i & X). congruence. }
  cbn [bind]. unfold header_field_encoding.
  destruct (leqb name (str "Accept")) eqn:EA; [|destruct (leqb name (str "Pragma")) eqn:EP].
  - apply leqb_eq in EA. subst name. vm_compute in N. injection N as <-.
    destruct v as [[s|n|n d|t]|x|k n|m ps|p q]; cbn [encode_accept_value]; try discriminate.
    destruct (encode_constrained_media s) as [x|e] eqn:C; cbn [bind on_encode_error].
    + intros X. assert (l = ints [128] ++ ints x) as -> by congruence. rewrite ints_joined.
      intros A. apply array_was in A. subst b.
      apply (phw_accept _ _ s x); [reflexivity|reflexivity|apply (constrained_was _ _ C)].
    + destruct e; try discriminate. destruct (media_type_was s) as (x & -> & M). cbn [bind].
      intros X. match type of X with Ok ?y = _ => assert (l = y) as -> by congruence end. intros A. exfalso.
      rewrite !array_join, !array_ints in A. rewrite oct_length in A by (vm_compute; discriminate).
      discriminate A.
  - discriminate.
  - destruct (encode_text_string_h v) as [t|] eqn:T; [|discriminate]. cbn [bind].
    intros X. injection X as <-. rewrite ints_joined. intros A. apply array_was in A. subst b.
    apply text_was in T. destruct T as (s & T & ->). apply phw_text; [|exact T|exact W].
    intros ->. rewrite leqb_refl in EA. discriminate EA.
Qed.

Lemma filter_order {A} (f : A -> bool) l l' : Permutation l l' -> Permutation (filter f l) (filter f l').
Proof.
  induction 1 as [|x l l' _ IH|x y l|l l' l'' _ IH1 _ IH2]; cbn [filter].
  - constructor.
  - destruct (f x); [constructor|]; exact IH.
  - destruct (f x), (f y); first [apply perm_swap|reflexivity].
  - exact (Permutation_trans IH1 IH2).
Qed.

Lemma array_length l b : array_of l = Ok b -> zlen b = zlen l.
Proof.
  unfold array_of. intros E. apply mapM_passed in E. unfold zlen.
  rewrite (Forall2_same_length _ _ _ _ _ E). reflexivity.
Qed.

Lemma part_headers_was : forall L hs b,
  mapM (fun h => if leqb (fst h) (str "Content-Type") then Ok []
                 else wsp_encode_header (fst h) (snd h)) L = Ok hs ->
  array_of (concat hs) = Ok b ->
  exists bs, b = concat bs /\ Forall2 (fun h b => part_header_written (fst h) (snd h) b)
    (filter (fun h => negb (leqb (fst h) (str "Content-Type"))) L) bs.
Proof.
  induction L as [|[k v] L IH]; intros hs b E A; cbn [mapM fst snd filter] in *.
  - injection E as <-. cbn in A. injection A as <-. exists []. split; [reflexivity|constructor].
  - destruct (if leqb k (str "Content-Type") then Ok [] else wsp_encode_header k v) as [h|] eqn:Eh; [|discriminate].
    cbn [bind] in E. destruct (mapM _ L) as [r|] eqn:Er; [|discriminate]. cbn [bind] in E. injection E as <-.
    cbn [concat] in A. rewrite array_join in A.
    destruct (array_of h) as [x|] eqn:Ax; [|discriminate]. cbn [bind] in A.
    destruct (array_of (concat r)) as [y|] eqn:Ay; [|discriminate]. cbn [bind] in A. injection A as <-.
    destruct (IH r y eq_refl Ay) as (bs & -> & F).
    destruct (leqb k (str "Content-Type")); cbn [negb].
    + injection Eh as <-. cbn in Ax. injection Ax as <-. exists bs. split; [reflexivity|exact F].
    + exists (x :: bs). split; [reflexivity|]. constructor; [|exact F]. exact (part_header_was _ _ _ _ Eh Ax).
Qed.

Lemma data_was w p d p' : get_data w p = (Ok d, p') -> data_sent w p d /\
  (dp_filename p' = dp_filename p /\ (dp_data p' = dp_data p \/ dp_data p' = Some d)).
Proof.
  unfold get_data, st_bind, st_get, st_upd, st_ret, st_err.
  destruct (dp_data p) as [x|] eqn:D.
  - intros E. injection E as <- <-. split; [apply ds_held; exact D|]. rewrite D. auto.
  - destruct (dp_filename p) as [f|] eqn:F.
    + destruct (w_file w f) as [x|] eqn:W; [|discriminate]. intros E. injection E as <- <-.
      split; [exact (ds_file _ _ f x D F W)|]. auto.
    + intros E. injection E as <- <-. split; [apply ds_nothing; assumption|]. rewrite D. auto.
Qed.

Lemma part_was w p b p' : any_order w -> encode_part w p = (Ok b, p') -> part_written w p b.
Proof.
  intros Hw. unfold encode_part, st_bind, st_get, st_lift, st_ret, st_err.
  destruct (h_get _ _) as [v|] eqn:Ev; [|discriminate].
  destruct (unpack_out v) as [(e & -> & _)|(m & ps & V & ->)]; [discriminate|].
  destruct (encode_content_type_value m ps) as [ct|] eqn:Ect; [|discriminate].
  destruct (mapM _ _) as [hs|] eqn:Ehs; [|discriminate].
  destruct (part_len w p) as [[n|] q] eqn:En; [|discriminate].
  destruct (array_of ct) as [ctb|] eqn:Ea; [|discriminate].
  destruct (array_of (concat hs)) as [hsb|] eqn:Eb; [|discriminate].
  destruct (get_data w q) as [[d|] q'] eqn:Ed; [|discriminate].
  intros E. assert (encode_uint_var (zlen ct + zlen (concat hs)) ++ encode_uint_var n ++ ctb ++ hsb ++ d = b) as <-
    by congruence. clear E.
  assert (S : size_sent w p n /\ data_sent w p d /\ 0 <= n).
  { revert En. unfold part_len, st_bind, st_get, st_ret, st_err. destruct (dp_filename p) as [f|] eqn:F.
    - destruct (w_file w f) as [x|] eqn:W; [|discriminate]. intros X. injection X as <- <-.
      split; [exact (ss_file _ _ f x F W)|]. split; [apply (data_was _ _ _ _ Ed)|apply zlen_nonneg].
    - destruct (get_data w p) as [[x|] y] eqn:G; [|discriminate]. intros X. injection X as <- <-.
      destruct (data_was _ _ _ _ G) as (A & Fy & Dy). destruct (data_was _ _ _ _ Ed) as (B & _).
      rewrite F in Fy.
      assert (d = x) as ->.
      { destruct Dy as [Dy|Dy]; [|destruct B; congruence].
        destruct A as [x A1|f x A1 A2|A1 A2], B as [d B1|f' d B1 B2|B1 B2]; congruence. }
      split; [exact (ss_data _ _ x F A)|]. split; [exact A|apply zlen_nonneg]. }
  destruct S as (S & D & Hn).
  destruct (part_headers_was _ _ _ Ehs Eb) as (bs & -> & F).
  destruct (type_was _ _ _ Ect) as [(-> & C & x & -> & M)|(_ & k & x & cs & -> & _)].
  - pose proof (array_was _ _ Ea) as ->. pose proof (array_length _ _ Ea) as La. pose proof (array_length _ _ Eb) as Lb.
    rewrite <- La, <- Lb. refine (part_is w p v m _ bs n d _ _ _ Ev V C M _ F S D _ _).
    + apply filter_order, Hw.
    + apply (uintvar_written (zlen x + zlen (concat bs))).
      pose proof (zlen_nonneg x). pose proof (zlen_nonneg (concat bs)). lia.
    + apply uintvar_written. exact Hn.
  - exfalso. rewrite array_join in Ea. destruct (array_of (ints k)); discriminate Ea.
Qed.

Lemma slot_was w s b s' : any_order w -> encode_slot w s = (Ok b, s') ->
  exists es, b = concat es /\ Forall2 (part_written w) (match s with Some (p, _, _) => [p] | None => [] end) es.
Proof.
  intros Hw. unfold encode_slot. destruct s as [[[p tb] te]|].
  - destruct (encode_part w p) as [r p'] eqn:E. intros X. injection X as -> _.
    exists [b]. split; [cbn [concat]; rewrite app_nil_r; reflexivity|].
    constructor; [exact (part_was _ _ _ _ Hw E)|constructor].
  - intros X. injection X as <- _. exists []. split; [reflexivity|constructor].
Qed.

Lemma page_was w g b g' : any_order w -> encode_page w g = (Ok b, g') ->
  exists es, b = concat es /\ Forall2 (part_written w) (map (fun s => fst (fst s)) (page_slots g)) es.
Proof.
  intros Hw. destruct g as [du i a t]. unfold encode_page. cbn [pg_image pg_audio pg_text pg_duration].
  destruct (encode_slot w i) as [[x|] i'] eqn:E1; [|discriminate].
  destruct (encode_slot w a) as [[y|] a'] eqn:E2; [|discriminate].
  destruct (encode_slot w t) as [[z|] t'] eqn:E3; [|discriminate].
  intros X. injection X as <- _.
  destruct (slot_was _ _ _ _ Hw E1) as (e1 & -> & F1), (slot_was _ _ _ _ Hw E2) as (e2 & -> & F2),
    (slot_was _ _ _ _ Hw E3) as (e3 & -> & F3).
  exists (e1 ++ e2 ++ e3). split; [rewrite !concat_app; reflexivity|].
  pose proof (Forall2_app F1 (Forall2_app F2 F3)) as F.
  unfold page_slots. cbn [pg_image pg_audio pg_text flat_map].
  destruct i as [[[? ?] ?]|], a as [[[? ?] ?]|], t as [[[? ?] ?]|]; exact F.
Qed.

Lemma pages_was w : any_order w -> forall gs b gs', encode_pages w gs = (Ok b, gs') ->
  exists es, b = concat es /\ Forall2 (part_written w) (map (fun s => fst (fst s)) (flat_map page_slots gs)) es.
Proof.
  intros Hw. induction gs as [|g gs IH]; intros b gs'; cbn [encode_pages flat_map map].
  - intros X. injection X as <- _. exists []. split; [reflexivity|constructor].
  - destruct (encode_page w g) as [[x|] g'] eqn:E1; [|discriminate].
    destruct (encode_pages w gs) as [[y|] gs1] eqn:E2; [|discriminate].
    intros X. injection X as <- _. destruct (page_was _ _ _ _ Hw E1) as (e1 & -> & F1).
    destruct (IH y gs1 eq_refl) as (e2 & -> & F2). exists (e1 ++ e2).
    split; [symmetry; apply concat_app|]. rewrite map_app. apply Forall2_app; assumption.
Qed.

(** * Messages *)

Lemma smil_was w text b p' : any_order w -> encode_part w (smil_part text) = (Ok b, p') ->
  exists l, uintvar_of (n_octets text) l /\
    b = 35 :: l ++ str "application/smil" ++ [0] ++ str "Content-ID" ++ [0] ++ str "<0000>" ++ [0] ++ text.
Proof.
  intros Hw E. apply part_was in E; [|exact Hw].
  destruct E as [v m hs bs n d hl dl ct T V C M P F S D U1 U2].
  change (dp_headers (smil_part text)) with
    [(str "Content-Type", HType (str "application/smil") []); (str "Content-ID", HStr (str "<0000>"))] in T, P.
  change (Some (HType (str "application/smil") []) = Some v) in T.
  assert (m = str "application/smil") by (destruct V as [V|(V & _)]; congruence). subst m. clear T V C.
  match type of P with Permutation _ ?x => change x with [(str "Content-ID", HStr (str "<0000>"))] in P end.
  apply Permutation_sym, Permutation_length_1_inv in P. subst hs.
  inversion F as [|? b1 ? bs' F1 F2]. subst. inversion F2. subst. clear F F2. cbn [fst snd concat] in *.
  assert (b1 = str "Content-ID" ++ [0] ++ str "<0000>" ++ [0]).
  { destruct F1 as [s l A|s l A T N]; [discriminate A|].
    destruct T as [T|(x & y & T & _)]; [|discriminate T].
    assert (s = str "<0000>") by (unfold HStr in T; congruence). subst s.
    destruct N as [i N|N].
    - exfalso. apply nth_error_In in N. revert N. change (~ In (str "Content-ID") numbered_headers). in_list.
    - rewrite <- app_assoc. reflexivity. }
  subst b1.
  assert (ct = str "application/smil" ++ [0]).
  { destruct M as [k (_ & M) _|M|_ _]; [|discriminate M|reflexivity].
    exfalso. apply nth_error_In in M. revert M.
    change (~ In (str "application/smil") assigned_media). in_list. }
  subst ct.
  assert (d = text) by (destruct D as [d D|f d D|D]; cbn in D; congruence). subst d.
  assert (n = n_octets text).
  { destruct S as [f d S _|d _ S]; [discriminate S|]. destruct S as [d S|f d S|S]; cbn in S; congruence. }
  subst n. exists dl. split; [exact U2|].
  assert (hl = [35]).
  { clear - U1. remember (n_octets _ + n_octets _) as k eqn:Ek. vm_compute in Ek. subst k.
    destruct U1 as [ds d H1 H2 H3 H4].
    destruct ds as [|c ds].
    - cbn in H4. unfold uintvar_octets. cbn [map app]. f_equal. lia.
    - exfalso. pose proof (base128_pos (c :: ds) H1 H3 ltac:(discriminate)) as Q.
      rewrite base128_snoc in H4. unfold digit128 in H2. lia. }
  subst hl. rewrite app_nil_r, <- !app_assoc. reflexivity.
Qed.

Lemma others_was w d b : any_order w -> is_dict d -> encode_others w d = Ok b ->
  exists others bs, NoDup (map fst others) /\
    (forall k v, In (k, v) others <-> h_get k d = Some v /\ k <> str "Content-Type") /\
    Forall2 (fun h b => header_written (fst h) (snd h) b) others bs /\ b = concat bs.
Proof.
  intros Hw Hd. unfold encode_others.
  assert (N : NoDup (map fst (w_order w d)))
    by (apply (Permutation_NoDup (l := map fst d)); [apply Permutation_map, Permutation_sym, Hw|exact Hd]).
  assert (P : forall k v, In (k, v) (w_order w d) <-> h_get k d = Some v).
  { intros k v. rewrite h_get_In by exact Hd. split; apply Permutation_in; [|apply Permutation_sym]; apply Hw. }
  intros E. destruct (mapM _ (w_order w d)) as [ls|] eqn:M; [|discriminate]. cbn [bind] in E. injection E as <-.
  exists (filter (fun h => negb (leqb (fst h) (str "Content-Type"))) (w_order w d)).
  assert (F : exists bs, Forall2 (fun h b => header_written (fst h) (snd h) b)
      (filter (fun h => negb (leqb (fst h) (str "Content-Type"))) (w_order w d)) bs /\ concat ls = concat bs).
  { clear - M. apply mapM_passed in M. induction M as [|[k v] b l ls E _ IH]; [exists []; split; [constructor|reflexivity]|].
    destruct IH as (bs & F & IH). cbn [fst snd filter concat] in *.
    destruct (leqb k (str "Content-Type")) eqn:L; cbn [negb].
    - injection E as <-. exists bs. auto.
    - exists (b :: bs). split; [|cbn [concat]; congruence]. constructor; [|exact F].
      apply header_was; [|exact E]. cbn [fst]. intros ->. rewrite leqb_refl in L. discriminate. }
  destruct F as (bs & F & ->). exists bs. split; [|split; [|auto]].
  - clear - N. induction (w_order w d) as [|[k v] l IH]; [constructor|]. cbn [map fst filter] in *.
    inversion N as [|? ? N1 N2]. subst. destruct (negb _); [|apply IH, N2]. cbn [map fst].
    constructor; [|apply IH, N2]. intros X. apply N1. apply in_map_iff in X. destruct X as (y & <- & X).
    apply filter_In in X. apply in_map, X.
  - intros k v. rewrite filter_In, P. cbn [fst]. split; intros (A & B); (split; [exact A|]).
    + intros ->. rewrite leqb_refl in B. discriminate B.
    + destruct (leqb k (str "Content-Type")) eqn:L; [apply leqb_eq in L; contradiction|reflexivity].
Qed.

Lemma message_was render w rand m b m' : any_order w -> is_dict (m_headers m) ->
  encode render w rand m = (Ok b, m') ->
  exists text, smil render w m = Ok text /\ message_written w rand m text b.
Proof.
  intros Hw Hd E. unfold encode, st_bind, st_ret in E.
  destruct (encode_message_header w rand m) as [[h|] m1] eqn:E1; [|discriminate].
  destruct (message_header_inv w rand m h m1 Hd E1) as (Em1 & _).
  pose (D := fix_rest rand (fix_message_type (renames (m_headers m)))). fold D in Em1.
  assert (HD : is_dict D) by (apply is_dict_rest, is_dict_type, is_dict_renames, Hd).
  pose proof (fun k => sent_spec rand (m_headers m) k Hd) as S. fold D in S.
  pose (D' := dels sent_first D).
  assert (HD' : is_dict D') by (apply is_dict_dels; exact HD).
  assert (G : forall k, h_get k D' = if existsb (leqb k) sent_first then None else sent_headers rand (m_headers m) k).
  { intros k. unfold D'. rewrite h_get_dels by exact HD. rewrite S. reflexivity. }
  assert (Fst : forall k x, k <> str "Content-Type" -> encode_entry k D = Ok x ->
    exists v, sent_headers rand (m_headers m) k = Some v /\ header_written k v x).
  { intros k x N X. unfold encode_entry in X. rewrite S in X. destruct (sent_headers rand (m_headers m) k) as [v|]; [|discriminate].
    exists v. split; [reflexivity|]. apply header_was; [exact N|exact X]. }
  assert (H : exists b1 b2 b3 b4 b5, h = b1 ++ b2 ++ b3 ++ b4 ++ b5 /\
    encode_entry (str "Message-Type") D = Ok b1 /\ encode_entry (str "Transaction-Id") D = Ok b2 /\
    encode_entry (str "MMS-Version") D = Ok b3 /\ encode_others w D' = Ok b4 /\ encode_last D' = Ok b5).
  { clear - E1 HD. unfold encode_message_header in E1. unfold st_bind at 1 2 3, st_upd at 1 2 3 in E1.
    cbn [with_headers m_headers] in E1. fold D in E1. rewrite !with_headers_twice in E1.
    cbn [encode_first] in E1. unfold st_bind, st_get, st_lift, st_upd, st_ret in E1.
    cbn [with_headers m_headers] in E1.
    rewrite !entry_del in E1 by (repeat apply is_dict_del; exact HD || reflexivity).
    destruct (encode_entry (str "Message-Type") D) as [b1|e1]; [|discriminate].
    destruct (encode_entry (str "Transaction-Id") D) as [b2|e2]; [|discriminate].
    destruct (encode_entry (str "MMS-Version") D) as [b3|e3]; [|discriminate].
    rewrite !with_headers_twice in E1. cbn [with_headers m_headers] in E1.
    change (d_del leqb (str "MMS-Version")
      (d_del leqb (str "Transaction-Id") (d_del leqb (str "Message-Type") D))) with D' in E1.
    destruct (encode_others w D') as [b4|e4]; [|discriminate].
    destruct (encode_last D') as [b5|e5]; [|discriminate].
    exists b1, b2, b3, b4, b5. split; [|auto].
    match type of E1 with (Ok ?x, _) = _ => assert (h = x) as -> by congruence end.
    rewrite app_nil_r, <- !app_assoc. reflexivity. }
  destruct H as (b1 & b2 & b3 & b4 & b5 & -> & H1 & H2 & H3 & H4 & H5).
  apply Fst in H1; [|discriminate]. apply Fst in H2; [|discriminate]. apply Fst in H3; [|discriminate].
  destruct (others_was _ _ _ Hw HD' H4) as (others & bs & N & O & F & ->).
  destruct (last_was _ _ H5) as (ct_v & ty & ps & ct & T1 & T0 & T2 & ->). rewrite G in T1.
  change (existsb (leqb (str "Content-Type")) sent_first) with false in T1. cbv iota in T1.
  subst m1. unfold encode_message_body, st_bind, st_get, st_lift in E. rewrite smil_with_headers in E.
  destruct (smil render w m) as [text|]; [|discriminate]. exists text. split; [reflexivity|].
  destruct (encode_part w (smil_part text)) as [[a|] p'] eqn:Ea; cbn [fst] in E; [|discriminate].
  cbn [m_pages with_headers] in E.
  destruct (encode_pages w (m_pages m)) as [[x|] gs] eqn:Ep; [|discriminate].
  destruct (smil_was _ _ _ _ Hw Ea) as (l & U & ->).
  destruct (pages_was w Hw _ _ _ Ep) as (es & -> & FE).
  match type of E with (Ok ?x, _) = _ => assert (b = x) as -> by congruence end. clear E.
  change (num_entries (with_headers ?h m)) with (num_entries m). rewrite entries_count.
  rewrite <- !app_assoc.
  pose proof (message_is w rand m text [b1; b2; b3] others bs ct_v ty ps ct
    (encode_uint_var (1 + zlen (slide_parts m) + zlen (m_parts m))) l es) as R.
  cbn [concat] in R. rewrite app_nil_r, <- !app_assoc in R. cbn [app] in R.
  repeat (cbn [app]; rewrite <- ?app_assoc).
  apply R; try assumption.
  - repeat constructor; assumption.
  - intros k v. rewrite O, G. cbn [In first_three]. 
    assert (X : existsb (leqb k) sent_first = true <-> In k first_three).
    { split; [apply listed|]. intros I. apply existsb_exists. exists k. split; [exact I|apply leqb_refl]. }
    unfold first_three in X. cbn [In] in X. destruct (existsb (leqb k) sent_first).
    + split; [intros [A _]; discriminate A|]. intros [_ A]. exfalso. apply A. right. apply X. reflexivity.
    + assert (Y : ~ (str "Message-Type" = k \/ str "Transaction-Id" = k \/ str "MMS-Version" = k \/ False)).
      { intros I. apply X in I. discriminate I. }
      split; intros (A & B); (split; [exact A|]).
      * intros [C|C]; [congruence|exact (Y C)].
      * intros C. apply B. left. congruence.
  - apply uintvar_written. unfold zlen. lia.
Qed.
