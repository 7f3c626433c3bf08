(** C40-C47: the look-ahead iterator and the WSP primitives. *)
From Coq Require Import Lia ZifyBool ZifyNat.
From Verif Require Import Py Iter Tables WspDec WspEnc SpecWsp WspClaims SpecSmil
  PyFacts IterFacts WspFacts.
Open Scope Z_scope.
Ltac Zify.zify_post_hook ::= Z.div_mod_to_equations.

(** C40: whatever the sequence of calls, an iterator answers like a cursor that
    starts at the beginning of the data; [End] is StopIteration. *)
Theorem C40_cursor : forall data ks,
  fst (do_calls ks (new_iter data)) = cursor_answers data ks (Cursor 0 0).
Proof.
  intros data ks. apply cursor_refines; [apply Nat.le_refl|]. cbn. apply R_new.
Qed.
Print Assumptions C40_cursor.
Example C40_case : fst (do_calls [Preview; Preview; Next; Preview; Reset; Preview; Next; Next]
                          (new_iter [7; 8])) =
  [Item 7; Item 8; Item 7; Item 8; Nothing; Item 8; Item 8; End].
Proof. reflexivity. Qed.

(** C40: looking ahead never consumes: the bytes still to come are the same after
    [preview] and [reset_preview], on every iterator a program can obtain. *)
Theorem C40_preview_keeps : forall it, reachable it ->
  remaining (snd (preview it)) = remaining it /\
  remaining (snd (reset_preview it)) = remaining it.
Proof.
  intros it H. destruct (reachable_R it H) as (l & p & HR). split; [|reflexivity].
  destruct (wp_preview_eq it l p HR) as (it' & -> & (E & _)).
  destruct HR as (E0 & _). unfold remaining. cbn. congruence.
Qed.
Print Assumptions C40_preview_keeps.

(** C41: every uintvar, minimal or not, is read as its base 128 value. *)
Theorem C41_decode : forall ds d, Forall digit128 ds -> digit128 d ->
  Decodes decode_uint_var (uintvar_octets ds d) (base128 (ds ++ [d])).
Proof. intros. apply decodes_wp. intros. apply decode_uint_var_run; auto. Qed.
Print Assumptions C41_decode.

(** C41: the encoding of a number is a minimal base 128 form of it. *)
Theorem C41_encode : forall n, 0 <= n ->
  exists ds d, encode_uint_var n = uintvar_octets ds d /\
    Forall digit128 ds /\ digit128 d /\ minimal128 ds /\ base128 (ds ++ [d]) = n.
Proof. exact encode_uint_var_spec. Qed.
Print Assumptions C41_encode.

(** C41: there is only one such form. *)
Theorem C41_unique : forall ds d ds' d',
  Forall digit128 ds -> digit128 d -> minimal128 ds ->
  Forall digit128 ds' -> digit128 d' -> minimal128 ds' ->
  base128 (ds ++ [d]) = base128 (ds' ++ [d']) -> ds = ds' /\ d = d'.
Proof. exact uintvar_unique. Qed.
Print Assumptions C41_unique.

(** C41: decoding the encoding gives the number and stops behind it. *)
Theorem C41_roundtrip : forall n, 0 <= n ->
  Decodes decode_uint_var (encode_uint_var n) n.
Proof. intros. apply decodes_wp. intros. apply uint_var_run; auto. Qed.
Print Assumptions C41_roundtrip.
Example C41_case : encode_uint_var 299 = [130; 43] /\
  uintvar_octets [2] 43 = [130; 43] /\ base128 [2; 43] = 299.
Proof. repeat split. Qed.

(** C42: short integers. *)
Theorem C42_short_integer : forall n, 0 <= n <= 127 ->
  exists b, encode_short_integer n = Ok [b] /\ 128 <= b < 256 /\
    Decodes decode_short_integer [b] n.
Proof.
  intros n Hn. exists (128 + n). rewrite encode_short_integer_ok by lia.
  repeat split; try lia. apply decodes_wp. intros rest.
  replace n with (128 + n - 128) at 2 by lia. apply decode_short_integer_run. lia.
Qed.
Print Assumptions C42_short_integer.

Theorem C42_short_integer_error : forall n,
  ~ (0 <= n <= 127) <-> encode_short_integer n = Err EncodeError.
Proof.
  intros n. unfold encode_short_integer.
  destruct ((n <? 0) || (127 <? n)) eqn:E; split; intros H; try lia; try discriminate.
  reflexivity.
Qed.
Print Assumptions C42_short_integer_error.

(** C42: value lengths of any size; one octet up to 30. *)
Theorem C42_value_length : forall n, 0 <= n ->
  Decodes decode_value_length (encode_value_length n) n /\
  (n <= 30 -> encode_value_length n = [n]) /\
  (30 < n -> encode_value_length n = 31 :: encode_uint_var n).
Proof.
  intros n Hn. split; [|split].
  - apply decodes_wp. intros. apply value_length_run; auto.
  - intros H. unfold encode_value_length, encode_short_length.
    replace ((n <? 0) || (30 <? n)) with false by lia. reflexivity.
  - intros H. unfold encode_value_length, encode_short_length.
    replace ((n <? 0) || (30 <? n)) with true by lia. reflexivity.
Qed.
Print Assumptions C42_value_length.
Example C42_case : encode_value_length 30 = [30] /\ encode_value_length 31 = [31; 31] /\
  encode_short_integer 127 = Ok [255] /\ encode_short_integer 128 = Err EncodeError.
Proof. repeat split. Qed.

(** C43: what the code does for every octet: the upper four bits are lost. *)
Theorem C43_low_bits : forall n, is_octet n ->
  Decodes decode_uint_8 (encode_uint_8 n) (n mod 16).
Proof.
  intros n Hn. apply decodes_wp. intros rest. unfold decode_uint_8, encode_uint_8.
  cbn [app]. unfold is_octet in Hn.
  replace (Z.land n 255) with n by (rewrite land_255; lia). wsteps.
  change 15 with (Z.ones 4). rewrite Z.land_ones by lia. apply becomes_intro.
Qed.
Print Assumptions C43_low_bits.

(** C43 is therefore false: it fails for every octet from 16 up. *)
Theorem C43_roundtrip_refuted : forall n, 16 <= n < 256 ->
  ~ Decodes decode_uint_8 (encode_uint_8 n) n.
Proof.
  intros n Hn H.
  destruct (C43_low_bits n ltac:(unfold is_octet; lia) [] (new_iter (encode_uint_8 n))
              eq_refl eq_refl) as (it & E & _).
  destruct (H [] (new_iter (encode_uint_8 n)) eq_refl eq_refl) as (it' & E' & _).
  rewrite E in E'. injection E' as E' _. lia.
Qed.
Print Assumptions C43_roundtrip_refuted.

(** C43 for the octets where it holds. *)
Theorem C43_roundtrip_partial : forall n, 0 <= n < 16 ->
  Decodes decode_uint_8 (encode_uint_8 n) n.
Proof.
  intros n Hn. replace n with (n mod 16) at 2 by lia. apply C43_low_bits.
  unfold is_octet. lia.
Qed.
Print Assumptions C43_roundtrip_partial.
Example C43_case : is_octet 200 /\ fst (decode_uint_8 (new_iter (encode_uint_8 200))) = Ok 8 /\
  fst (decode_uint_8 (new_iter (encode_uint_8 9))) = Ok 9.
Proof. split; [split; vm_compute; congruence|]. split; reflexivity. Qed.

(** C44: the decoder reads the octets most significant first, as WSP wants. *)
Theorem C44_decode : forall l, Forall is_octet l -> zlen l <= 30 ->
  Decodes decode_long_integer (zlen l :: l) (big_endian l).
Proof. intros l H Hl. apply decodes_wp. intros. apply decode_long_integer_run; auto. Qed.
Print Assumptions C44_decode.

(** C44: the encoder writes the octets of the number in the opposite order: with
    [ds] the octets of [n] (no leading zero), the encoding of [n] is read as the
    number with the octets [rev ds]. *)
Theorem C44_reversed : forall ds,
  Forall is_octet ds -> minimal128 ds -> zlen ds <= 30 -> big_endian ds <= maxint ->
  exists bytes, encode_long_integer (big_endian ds) = Ok bytes /\
    Decodes decode_long_integer bytes (big_endian (rev ds)).
Proof.
  intros ds H Hm Hl Hx. exists (zlen ds :: rev ds).
  split; [apply encode_long_integer_spec; auto|].
  replace (zlen ds) with (zlen (rev ds)) by (unfold zlen; rewrite rev_length; reflexivity).
  apply C44_decode.
  - apply Forall_rev. assumption.
  - unfold zlen in *. rewrite rev_length. assumption.
Qed.
Print Assumptions C44_reversed.

(** C44 is false: 256 is written [2, 0, 1] and read as 1. *)
Theorem C44_roundtrip_refuted : exists n bytes, 0 <= n /\
  encode_long_integer n = Ok bytes /\
  Decodes decode_long_integer bytes 1 /\ n <> 1.
Proof.
  exists 256, [2; 0; 1]. repeat split; try lia.
  apply (C44_decode [0; 1]); [repeat constructor; unfold is_octet; lia|].
  vm_compute. discriminate.
Qed.
Print Assumptions C44_roundtrip_refuted.

(** C44 where it holds: numbers below 256, the only ones without an order of
    octets.  Missing: everything above, see [C44_reversed]. *)
Theorem C44_roundtrip_partial : forall n, 0 <= n < 256 ->
  exists bytes, encode_long_integer n = Ok bytes /\
    Decodes decode_long_integer bytes n.
Proof.
  intros n Hn. destruct (Z.eq_dec n 0) as [->|H0].
  - exists [0]. split; [reflexivity|]. apply (C44_decode []); [constructor|].
    vm_compute. discriminate.
  - replace n with (big_endian [n]) by (unfold big_endian; cbn [fold_left]; lia).
    change (big_endian [n]) with (big_endian (rev [n])) at 2.
    apply C44_reversed.
    + repeat constructor; unfold is_octet; lia.
    + cbn. assumption.
    + vm_compute. discriminate.
    + unfold big_endian, maxint; cbn [fold_left]. lia.
Qed.
Print Assumptions C44_roundtrip_partial.

(** C45: text strings. *)
Theorem C45_roundtrip : forall s, no_nul s -> ~ starts_with (fun c => c = 127) s ->
  Decodes decode_text_string (encode_text_string s) s.
Proof. intros. apply decodes_wp. intros. apply decode_text_string_run; auto. Qed.
Print Assumptions C45_roundtrip.
Example C45_case : no_nul (str "Hi") /\ ~ starts_with (fun c => c = 127) (str "Hi") /\
  encode_text_string (str "Hi") = [72; 105; 0].
Proof. repeat split; [repeat constructor; lia | cbn; lia]. Qed.

(** C46: tokens. *)
Theorem C46_roundtrip : forall s, token_string s ->
  exists bytes, encode_token_text s = Ok bytes /\ Decodes decode_token_text bytes s.
Proof.
  intros s H. apply token_string_chars in H as [Hn Hs].
  exists (s ++ [0]). rewrite encode_token_text_spec, token_no_separator by assumption.
  split; [reflexivity|]. apply decodes_wp. intros.
  apply (decode_token_text_run s rest Hn Hs).
Qed.
Print Assumptions C46_roundtrip.

Theorem C46_error : forall s,
  (exists c, In c s /\ In c separator_chars) <-> encode_token_text s = Err EncodeError.
Proof.
  intros s. rewrite encode_token_text_spec. destruct (existsb is_separator s) eqn:E.
  - split; [reflexivity|]. intros _. apply existsb_exists in E as (c & Hc & E).
    exists c. split; auto. apply is_separator_iff. assumption.
  - split; [|discriminate]. intros (c & Hc & Hs). apply is_separator_iff in Hs.
    assert (existsb is_separator s = true) by (apply existsb_exists; eauto). congruence.
Qed.
Print Assumptions C46_error.
Example C46_case : token_string (str "Content-ID") /\
  encode_token_text (str "a b") = Err EncodeError.
Proof.
  split; [|reflexivity]. split; [discriminate|].
  let v := eval vm_compute in (str "Content-ID") in change (str "Content-ID") with v.
  repeat (apply Forall_cons; [split; [lia|cbn; lia]|]). apply Forall_nil.
Qed.

(** C47: version numbers major.minor in one octet. *)
Theorem C47_roundtrip : forall M m, 1 <= M <= 7 -> 0 <= m <= 14 ->
  Decodes decode_version_value (encode_version_value (py_dec M ++ str "." ++ py_dec m))
    (py_dec M ++ str "." ++ py_dec m).
Proof. intros. apply decodes_wp. intros. apply version_run; auto. Qed.
Print Assumptions C47_roundtrip.

Theorem C47_octet : forall M m, 1 <= M <= 7 -> 0 <= m <= 14 ->
  encode_version_value (py_dec M ++ str "." ++ py_dec m) = [128 + M * 16 + m].
Proof. intros M m HM Hm. exact (proj1 (version_case M m HM Hm)). Qed.
Print Assumptions C47_octet.
Example C47_case : py_dec 1 ++ str "." ++ py_dec 0 = str "1.0" /\
  encode_version_value (str "1.0") = [144].
Proof. split; reflexivity. Qed.

(** C47, two numbers with a dot, leading zeros allowed: one octet when they are in
    range, and text, which is read back, when one of them is not. *)
Lemma parse_decimal : forall s acc, Forall (fun c => 48 <= c <= 57) s ->
  parse_digits 10 acc s = (fold_left (fun n c => n * 10 + (c - 48)) s acc, []).
Proof.
  induction s as [|c s IH]; intros acc H; [reflexivity|].
  pose proof (Forall_inv H) as Hc. cbn beta in Hc. cbn [parse_digits fold_left]. unfold digit_val.
  replace ((48 <=? c) && (c <=? 57)) with true by lia. replace (c - 48 <? 10) with true by lia.
  rewrite IH by exact (Forall_inv_tail H). reflexivity.
Qed.

Lemma py_int_decimal : forall s, s <> [] -> Forall (fun c => 48 <= c <= 57) s ->
  py_int 10 s = Ok (digits_value s).
Proof.
  intros [|c s] Hn H; [congruence|]. pose proof (Forall_inv H) as Hc. cbn beta in Hc.
  assert (Ed : drop_space (c :: s) = c :: s).
  { cbn [drop_space]. unfold is_space. replace ((c =? 32) || _) with false by lia. reflexivity. }
  unfold py_int. rewrite Ed. replace (c =? 43) with false by lia. replace (c =? 45) with false by lia.
  cbv beta iota zeta. rewrite Ed.
  assert (Em : (match s with
                | [] => c :: s
                | x :: r => if (10 =? 16) && (c =? 48) && ((x =? 120) || (x =? 88))
                               && starts_digit 10 r then r else c :: s
                end) = c :: s) by (destruct s; reflexivity).
  rewrite Em. cbn [starts_digit]. unfold digit_val.
  replace ((48 <=? c) && (c <=? 57)) with true by lia. replace (c - 48 <? 10) with true by lia.
  rewrite parse_decimal by exact H. cbn [drop_space]. f_equal. unfold digits_value. lia.
Qed.

Lemma split_dot_plain : forall s, Forall (fun c => 48 <= c <= 57) s -> split_dot s = [s].
Proof.
  induction s as [|c s IH]; intros H; [reflexivity|]. pose proof (Forall_inv H) as Hc. cbn beta in Hc.
  cbn [split_dot]. replace (c =? 46) with false by lia. rewrite IH by exact (Forall_inv_tail H). reflexivity.
Qed.

Lemma split_dot_two : forall a b, Forall (fun c => 48 <= c <= 57) a -> Forall (fun c => 48 <= c <= 57) b ->
  split_dot (a ++ 46 :: b) = [a; b].
Proof.
  induction a as [|c a IH]; intros b Ha Hb; cbn [app split_dot].
  - change (46 =? 46) with true. cbn iota. rewrite split_dot_plain by exact Hb. reflexivity.
  - pose proof (Forall_inv Ha) as Hc. cbn beta in Hc. replace (c =? 46) with false by lia.
    rewrite IH by (exact (Forall_inv_tail Ha) || exact Hb). reflexivity.
Qed.

Theorem C47_numbers : forall a b, a <> [] -> b <> [] ->
  Forall (fun c => 48 <= c <= 57) a -> Forall (fun c => 48 <= c <= 57) b ->
  let M := digits_value a in let m := digits_value b in
  (1 <= M <= 7 -> m <= 14 -> encode_version_value (a ++ str "." ++ b) = [128 + M * 16 + m]) /\
  (~ (1 <= M <= 7 /\ m <= 14) ->
     encode_version_value (a ++ str "." ++ b) = encode_text_string (a ++ str "." ++ b) /\
     Decodes decode_version_value (encode_version_value (a ++ str "." ++ b)) (a ++ str "." ++ b)).
Proof.
  intros a b Na Nb Ha Hb M m. change (str "." ++ b) with (46 :: b).
  assert (Hv : forall s n, Forall (fun c => 48 <= c <= 57) s -> 0 <= n ->
             0 <= fold_left (fun n c => n * 10 + (c - 48)) s n).
  { induction s as [|c s IH]; intros n H Hn; [exact Hn|]. cbn [fold_left].
    pose proof (Forall_inv H) as Hc. cbn beta in Hc. apply IH; [exact (Forall_inv_tail H)|lia]. }
  pose proof (Hv a 0 Ha ltac:(lia)) as HM. pose proof (Hv b 0 Hb ltac:(lia)) as Hm.
  fold (digits_value a) in HM. fold (digits_value b) in Hm. fold M in HM. fold m in Hm.
  assert (E : version_short (a ++ 46 :: b) =
    if (M <? 1) || (7 <? M) then Err ValueError
    else if (m <? 0) || (14 <? m) then Err ValueError
    else encode_short_integer (Z.lor (Z.shiftl M 4) m)).
  { unfold version_short. rewrite split_dot_two by assumption.
    rewrite !py_int_decimal by assumption. reflexivity. }
  assert (T : ~ (1 <= M <= 7 /\ m <= 14) ->
              encode_version_value (a ++ 46 :: b) = encode_text_string (a ++ 46 :: b)).
  { intros H. unfold encode_version_value. rewrite E.
    destruct ((M <? 1) || (7 <? M)) eqn:E1; [reflexivity|].
    destruct ((m <? 0) || (14 <? m)) eqn:E2; [reflexivity|]. lia. }
  split.
  - intros H1 H2. unfold encode_version_value. rewrite E.
    replace ((M <? 1) || (7 <? M)) with false by lia. replace ((m <? 0) || (14 <? m)) with false by lia.
    assert (X : Z.lor (Z.shiftl M 4) m = M * 16 + m).
    { rewrite Z.shiftl_mul_pow2 by lia. change (2 ^ 4) with 16.
      assert (Y : forallb (fun x => forallb (fun y => Z.lor (Z.of_nat x * 16) (Z.of_nat y) =? Z.of_nat x * 16 + Z.of_nat y)
                 (seq 0 16)) (seq 0 8) = true) by (vm_compute; reflexivity).
      rewrite forallb_forall in Y. specialize (Y (Z.to_nat M)). rewrite in_seq in Y.
      specialize (Y ltac:(lia)). rewrite forallb_forall in Y. specialize (Y (Z.to_nat m)).
      rewrite in_seq in Y. specialize (Y ltac:(lia)). rewrite !Z2Nat.id in Y by lia. lia. }
    rewrite X, encode_short_integer_ok by lia. f_equal. lia.
  - intros H. specialize (T H). split; [exact T|]. apply decodes_wp. intros rest.
    apply version_text_run; [exact T| |].
    + apply Forall_app. split; [eapply Forall_impl; [|exact Ha]; cbn; lia|].
      constructor; [cbn; lia|]. eapply Forall_impl; [|exact Hb]. cbn. lia.
    + destruct a as [|c a]; [congruence|]. pose proof (Forall_inv Ha) as Hc. cbn in Hc |- *. lia.
Qed.
Print Assumptions C47_numbers.
Example C47_numbers_case : encode_version_value (str "1.15") = str "1.15" ++ [0] /\
  encode_version_value (str "07.014") = [128 + 7 * 16 + 14] /\ digits_value (str "014") = 14.
Proof. repeat split. Qed.

(** C47, other strings: false in general.  A version with three components is
    encoded as nothing at all, and a bare major number is not text either. *)
Theorem C47_text_refuted :
  encode_version_value (str "1.2.4") = [] /\ encode_version_value (str "1") = [159] /\
  encode_version_value (str "1.2.4") <> encode_text_string (str "1.2.4") /\
  encode_version_value (str "1") <> encode_text_string (str "1").
Proof. repeat split; discriminate. Qed.
Print Assumptions C47_text_refuted.

(** C47, other strings: strings that do not start like a number and have at most
    one dot are encoded as text and read back.  Missing: strings starting with a
    digit, a sign or a blank, and strings with several dots. *)
Theorem C47_text_partial : forall s, no_nul s -> starts_with not_numeric_start s ->
  (length (filter (Z.eqb 46) s) <= 1)%nat ->
  encode_version_value s = encode_text_string s /\
  Decodes decode_version_value (encode_version_value s) s.
Proof.
  intros s Hn Hs Hd. pose proof (version_text s Hs Hd) as E. split; [exact E|].
  apply decodes_wp. intros rest. apply version_text_run; auto.
  destruct s; cbn in *; auto. unfold not_numeric_start in Hs. lia.
Qed.
Print Assumptions C47_text_partial.
Example C47_text_case : starts_with not_numeric_start (str "v1.0") /\
  encode_version_value (str "v1.0") = str "v1.0" ++ [0].
Proof. split; [cbn; unfold not_numeric_start; lia|reflexivity]. Qed.
