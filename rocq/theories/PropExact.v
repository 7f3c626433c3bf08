(** Exactly when some of the properties hold: C06, C10, C11, C44, C45, C46. *)
From Coq Require Import Lia ZifyBool ZifyNat.
From Verif Require Import Py Iter SpecPack SpecGsm SpecTime SpecWsp Utils Tables WspDec WspEnc WspClaims
  PyFacts PackFacts ValidityFacts IterFacts WspFacts PropTime PropWsp PropType PropHeaderExact.
Open Scope Z_scope.
Ltac Zify.zify_post_hook ::= Z.div_mod_to_equations.

(** * C06 *)

Lemma unpack_loop_cut l : forall count last len,
  0 <= count <= 6 -> 0 <= len <= 160 -> len mod 8 = count ->
  unpack_loop l count last len = firstn (Z.to_nat (161 - len)) (unpack_all l count last).
Proof.
  induction l as [|b l IH]; intros count last len Hc Hl Hm; [now rewrite firstn_nil|].
  cbn [unpack_loop unpack_all].
  set (out := Z.shiftl (Z.land b (Z.shiftr 127 count)) count + last).
  destruct (160 <=? len + 1) eqn:E.
  - assert (len = 160) as -> by lia. change (Z.to_nat (161 - 160)) with 1%nat.
    destruct (count =? 6); reflexivity.
  - destruct (count =? 6) eqn:E6.
    + replace ((count + 1) mod 7) with 0 by lia.
      replace (Z.to_nat (161 - len)) with (S (S (Z.to_nat (161 - (len + 2))))) by lia.
      cbn [firstn]. do 2 f_equal. apply IH; lia.
    + replace ((count + 1) mod 7) with (count + 1) by lia.
      replace (Z.to_nat (161 - len)) with (S (Z.to_nat (161 - (len + 1)))) by lia.
      cbn [firstn]. f_equal. apply IH; lia.
Qed.

(** C06, exactly: the septets come back just when there are at most 161 of them. *)
Theorem C06_exact : forall s o : list Z, Forall septet s -> packed s o ->
  (firstn (length s) (unpack_msg2 o) = s <-> zlen s <= 161).
Proof.
  intros s o Hs (Ho & Hlen & Ev). unfold unpack_msg2. rewrite unpack_loop_cut by lia.
  change (Z.to_nat (161 - 0)) with 161%nat. rewrite firstn_firstn. split; intros H.
  - apply (f_equal (@length Z)) in H. pose proof (firstn_le_length (Nat.min (length s) 161) (unpack_all o 0 0)) as L.
    rewrite firstn_length in H. unfold zlen. lia.
  - replace (Nat.min (length s) 161) with (length s) by (unfold zlen in H; lia).
    destruct (unpack_all_spec o Ho 0 0) as (Ha & Hla & R & HR); [lia|cbn; lia|].
    apply (le_value_prefix 128 s (unpack_all o 0 0) 0 R); try assumption; [lia| |].
    + unfold octets_for in Hlen. unfold zlen in *. lia.
    + rewrite Z.pow_0_r in HR. lia.
Qed.
Print Assumptions C06_exact.
Example C06_exact_case : let s := repeat 1 161 in
  match pack_8bits_to_7bits s None with
  | Ok h => firstn 161 (unpack_msg2 (tl (match to_array h with Ok o => o | Err _ => [] end))) = s
  | Err _ => False
  end.
Proof. vm_compute. reflexivity. Qed.

(** * C10 and C11 *)

Definition tz_right (m : Z) : bool :=
  match tz_octet (Some m) with
  | Ok z => Bool.eqb (zone_quarters z =? Z.quot m 15) ((-1200 <? m) && (m <? 1200))
  | Err _ => false
  end.

Lemma tz_sweep : forallb (fun k => tz_right (k - 1439)) (zrange 2879) = true.
Proof. vm_compute. reflexivity. Qed.

Lemma tz_exact off : -1440 < off < 1440 -> tz_right off = true.
Proof.
  intros H. assert (R : 0 <= off + 1439 < 2879) by lia.
  assert (T : (fun k => tz_right (k - 1439)) (off + 1439) = true).
  { apply (range_sweep 2879 _ tz_sweep). change (Z.of_nat 2879) with 2879. exact R. }
  cbv beta in T. replace (off + 1439 - 1439) with off in T by (clear; lia). exact T.
Qed.

(** C10, exactly: the date and time are always right, the offset just when it is
    smaller than 20 hours in either direction. *)
Theorem C10_exact : forall y mo d hh mi ss off,
  1900 <= y -> valid_civil y mo d hh mi ss -> -1440 < off < 1440 ->
  exists oy om od oh oi os oz,
    datetime_to_absolute_validity (Datetime y mo d hh mi ss (Some off))
      = Ok [oy; om; od; oh; oi; os; oz] /\
    swapped_bcd oy = y mod 100 /\ swapped_bcd om = mo /\
    swapped_bcd od = d /\ swapped_bcd oh = hh /\
    swapped_bcd oi = mi /\ swapped_bcd os = ss /\
    (zone_quarters oz = Z.quot off 15 <-> -1200 < off < 1200).
Proof.
  intros y mo d hh mi ss off Hy Hv Ho. apply valid_fields in Hv as (H1 & H2 & H3 & H4 & H5).
  destruct (dec02_int (y mod 100)) as (oy & Ey & Ry & Vy); [lia|].
  destruct (dec02_int mo H1) as (om & Emo & Rmo & Vmo).
  destruct (dec02_int d H2) as (od & Eda & Rda & Vda).
  destruct (dec02_int hh H3) as (oh & Eh & Rh & Vh).
  destruct (dec02_int mi H4) as (oi & Emi & Rmi & Vmi).
  destruct (dec02_int ss H5) as (os & Es & Rs & Vs).
  pose proof (tz_exact off Ho) as T.
  unfold tz_right in T.
  destruct (tz_octet (Some off)) as [oz|e] eqn:Ez; [|discriminate].
  exists oy, om, od, oh, oi, os, oz.
  assert (El : mapM (fun c => py_int 16 (rev c))
         [dec02 (y mod 100); dec02 mo; dec02 d; dec02 hh; dec02 mi; dec02 ss]
          = Ok [oy; om; od; oh; oi; os]).
  { cbn [mapM]. rewrite Ey. cbn [bind]. rewrite Emo. cbn [bind]. rewrite Eda. cbn [bind].
    rewrite Eh. cbn [bind]. rewrite Emi. cbn [bind]. rewrite Es. reflexivity. }
  split.
  - destruct (absolute_split (Datetime y mo d hh mi ss (Some off)) Hy) as [E|(e & _ & [[e2 C]|[e2 C]])];
      cbn [dt_year dt_month dt_day dt_hour dt_minute dt_second dt_offset] in *.
    + rewrite E, El, Ez. reflexivity.
    + congruence.
    + congruence.
  - repeat (split; [assumption|]). apply Bool.eqb_prop in T. lia.
Qed.
Print Assumptions C10_exact.
Example C10_exact_case : datetime_to_absolute_validity (Datetime 2012 2 29 23 59 58 (Some 1200))
  = Ok [0x21; 0x20; 0x92; 0x32; 0x95; 0x85; 0x08].
Proof. reflexivity. Qed.

(** C11, exactly: of the negative offsets only [-1200] is read as meant. *)
Theorem C11_exact : forall negative hh mm, 0 <= hh <= 23 -> 0 <= mm <= 59 ->
  (from_timezone (tz_string negative hh mm) =
     Ok ((if negative then -1 else 1) * (hh * 60 + mm) * 60 * 1000000) <->
   negative = false \/ (hh = 12 /\ mm = 0)).
Proof.
  intros negative hh mm Hh Hm. rewrite from_timezone_string by assumption.
  assert (X : forall a b : Z, Ok a = Ok b <-> a = b) by (intros; split; congruence).
  rewrite X. destruct negative; split; intros H.
  - right. lia.
  - destruct H as [H|H]; [discriminate|lia].
  - left. reflexivity.
  - lia.
Qed.
Print Assumptions C11_exact.

(** * C44, C45 and C46 *)

(** C44, exactly: a number is read back just when its octets are the same in both
    directions. *)
Theorem C44_exact : forall ds,
  Forall (fun b => 0 <= b < 256) ds -> minimal128 ds -> zlen ds <= 30 -> big_endian ds <= maxint ->
  ((exists bytes, encode_long_integer (big_endian ds) = Ok bytes /\
      Decodes decode_long_integer bytes (big_endian ds)) <-> rev ds = ds).
Proof.
  intros ds Hd Hm Hl Hx. destruct (C44_reversed ds Hd Hm Hl Hx) as (b & E & D).
  split.
  - intros (bytes & E' & D'). assert (bytes = b) as -> by congruence.
    apply big_endian_inj; [apply rev_length|apply Forall_rev; exact Hd|exact Hd|].
    destruct (D [] (new_iter b) (app_nil_end b) eq_refl) as (i & R & _).
    destruct (D' [] (new_iter b) (app_nil_end b) eq_refl) as (i' & R' & _).
    assert (Y : forall a c : Z, Ok a = Ok c -> a = c) by (intros; congruence).
    apply Y. apply (f_equal fst) in R, R'. cbn [fst] in R, R'. congruence.
  - intros Hr. exists b. split; [exact E|]. rewrite Hr in D. exact D.
Qed.
Print Assumptions C44_exact.
Example C44_exact_case : big_endian [1; 0; 1] = 65793 - 256 /\ rev [1; 0; 1] = [1; 0; 1].
Proof. split; reflexivity. Qed.

(** C45, exactly: a text of octets is read back just when it has no NUL and does not
    begin with 127. *)
Theorem C45_exact : forall s, Forall (fun b => 0 <= b < 256) s ->
  (Decodes decode_text_string (encode_text_string s) s <->
   ~ In 0 s /\ ~ starts_with (fun c => c = 127) s).
Proof.
  intros s Ho. unfold encode_text_string. split.
  - intros D. destruct (text_plain s) as [A B].
    + apply Forall_app. split; [exact Ho|]. constructor; [unfold is_octet; lia|constructor].
    + exact (gives_all _ _ _ _ _ D (text_takes _ _)).
    + split; [|exact B]. intros X. unfold no_nul in A. rewrite Forall_forall in A.
      specialize (A 0 X). cbv beta in A. lia.
  - intros [A B]. apply C45_roundtrip; [|exact B]. unfold no_nul. rewrite Forall_forall in *.
    intros c Hc. specialize (Ho c Hc). cbv beta in *. assert (c <> 0) by congruence. lia.
Qed.
Print Assumptions C45_exact.

(** C46, exactly: a text is read back as a token just when it is one. *)
Theorem C46_exact : forall s, Forall (fun b => 0 <= b < 256) s ->
  ((exists bytes, encode_token_text s = Ok bytes /\ Decodes decode_token_text bytes s) <->
   s <> [] /\ Forall (fun c => 32 <= c /\ ~ In c separator_chars) s).
Proof.
  intros s Ho. split.
  - intros (bytes & E & D). rewrite encode_token_text_spec in E.
    destruct (existsb is_separator s); [discriminate|].
    assert (bytes = s ++ [0]) as -> by (unfold encode_text_string in E; congruence).
    assert (W : wp decode_token_text (s ++ [0]) 0 (fun r _ _ => forall x, r = Ok x -> x = s ->
       s <> [] /\ Forall (fun c => token_char c = true) s)).
    { unfold decode_token_text. apply wp_bind, wp_preview. destruct s as [|c s]; cbn [app nth_error].
      - change (token_char 0) with false. cbn [negb]. wsteps. intros; discriminate.
      - destruct (token_char c); cbn [negb]; wsteps; [|intros; discriminate].
        eapply wp_mono; [apply token_takes|]. intros [x|e] l' p' H y Ey Es; [|discriminate Ey].
        destruct H as (c' & H1 & H2). assert (x = c :: s) as -> by congruence.
        split; [discriminate|exact H2]. }
    destruct (decodes_all _ _ _ _ _ D W) as (p & H). destruct (H s eq_refl eq_refl) as [A B].
    split; [exact A|]. eapply Forall_impl; [|exact B]. cbv beta. intros c Hc.
    apply token_char_iff in Hc. split; [lia|tauto].
  - intros [A B]. apply C46_roundtrip. split; [exact A|]. rewrite Forall_forall in *. intros c Hc.
    specialize (Ho c Hc). specialize (B c Hc). cbv beta in *. split; [lia|tauto].
Qed.
Print Assumptions C46_exact.
Example C46_exact_case : Forall (fun c => 32 <= c /\ ~ In c separator_chars) (str "X-Note").
Proof. repeat constructor; try discriminate; vm_compute; intuition discriminate. Qed.
