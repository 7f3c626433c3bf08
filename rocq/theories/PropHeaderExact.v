(** C50: exactly which headers are read back. *)
From Coq Require Import Lia ZifyBool ZifyNat.
From Verif Require Import Py Iter Tables WspDec WspEnc Message MmsEnc MmsDec
  SpecWsp SpecVersion WspClaims MmsClaims PyFacts IterFacts WspFacts ContentFacts HeaderFacts
  MmsTotal MessageFacts PropVersion PropType PropHeaders.
Open Scope Z_scope.
Ltac Zify.zify_post_hook ::= Z.div_mod_to_equations.

(** Either a value with the property [P] of it and what is left, or an exception
    other than DecodeError. *)
Definition gives {A} (P : A -> list Z -> Prop) : res A -> list Z -> nat -> Prop :=
  fun r l' _ => match r with Ok v => P v l' | Err e => e <> DecodeError end.

Lemma gives_all : forall A (m : ST piter A) l v P,
  Decodes m l v -> wp m l 0 (gives P) -> P v [].
Proof. intros A m l v P D W. destruct (decodes_all _ _ _ _ _ D W) as (p & H). exact H. Qed.

Lemma gives_ret A B (m : ST piter A) (g : A -> B) l p P :
  wp m l p (gives (fun a l' => P (g a) l')) -> wp (st_bind m (fun a => st_ret (g a))) l p (gives P).
Proof.
  intros H. apply wp_bind. eapply wp_mono; [exact H|]. intros [a|e] l' p' X; wsteps; exact X.
Qed.

(** * Texts *)

Lemma text_loop_takes : forall fuel b l p,
  wp (text_loop fuel b) l p (gives (fun x l' => b :: l = x ++ 0 :: l' /\ ~ In 0 x)).
Proof.
  induction fuel as [|f IH]; intros b l p; cbn [text_loop]; destruct (b =? 0) eqn:E.
  - wsteps. cbn. split; [f_equal; lia|tauto].
  - wsteps. cbn. discriminate.
  - wsteps. cbn. split; [f_equal; lia|tauto].
  - destruct l as [|o l]; [wsteps; cbn; discriminate|]. wsteps.
    eapply wp_mono; [apply IH|]. intros [x|e] l' p' H; wsteps; [|exact H].
    destruct H as [H1 H2]. cbn [gives]. split; [cbn [app]; now rewrite H1|].
    intros [X|X]; [lia|tauto].
Qed.

(** What a text takes from the input. *)
Definition text_at (l x l' : list Z) : Prop :=
  ~ In 0 x /\ (length x + 1 + length l' <= length l)%nat /\
  ((length x + 1 + length l' = length l)%nat -> ~ starts_with (fun c => c = 127) l /\ l = x ++ 0 :: l').

Lemma text_takes : forall l p, wp decode_text_string l p (gives (text_at l)).
Proof.
  intros [|c l] p; unfold decode_text_string; [wsteps; cbn; discriminate|].
  wsteps. destruct (Z.eqb_spec c 127) as [->|N].
  - destruct l as [|o l]; [wsteps; cbn; discriminate|]. wsteps.
    eapply wp_mono; [apply text_loop_takes|]. intros [x|e] l' p' H; [|exact H].
    destruct H as [H1 H2]. apply (f_equal (@length Z)) in H1. rewrite app_length in H1. cbn [length] in H1.
    split; [exact H2|]. cbn [length]. split; [lia|]. lia.
  - wsteps. eapply wp_mono; [apply text_loop_takes|]. intros [x|e] l' p' H; [|exact H].
    destruct H as [H1 H2]. split; [exact H2|].
    pose proof (f_equal (@length Z) H1) as L. rewrite app_length in L. cbn [length] in *.
    split; [lia|]. intros _. split; [cbn; exact N|exact H1].
Qed.

Lemma text_unquoted c l p : c <> 127 ->
  wp decode_text_string (c :: l) p (gives (fun x l' => c :: l = x ++ 0 :: l' /\ ~ In 0 x)).
Proof.
  intros N. unfold decode_text_string. wsteps. replace (c =? 127) with false by lia. wsteps.
  apply text_loop_takes.
Qed.

Lemma value_length_takes : forall c l, c <= 31 ->
  wp decode_value_length (c :: l) 0 (fun r l' _ => (length l' <= length l)%nat /\ r <> Err DecodeError).
Proof.
  intros c l Hc. destruct (Z.leb_spec c 30) as [L|L].
  - unfold decode_value_length. eapply wp_mono; [apply wp_becomes_catch, decode_short_length_run; lia|].
    intros r l' p' (-> & -> & ->). split; [lia|discriminate].
  - unfold decode_value_length. apply wp_refused_catch; [apply decode_short_length_refuses; lia|].
    wsteps. replace (c =? 31) with true by lia. wsteps.
    eapply wp_mono; [apply safe_uint_var_stop|]. intros r l' p' (pre & -> & H).
    split; [rewrite app_length; lia|]. destruct r; [discriminate|]. rewrite H. discriminate.
Qed.

(** What an encoded string takes from the input. *)
Lemma encoded_takes : forall c l, wp decode_encoded_string_value (c :: l) 0 (gives (fun x l' =>
  ~ In 0 x /\ (length x + 1 + length l' <= S (length l))%nat /\
  ((length x + 1 + length l' = S (length l))%nat -> 31 < c /\ c <> 127))).
Proof.
  intros c l. unfold decode_encoded_string_value.
  destruct (Z.leb_spec c 31) as [L|L].
  - apply wp_catch. apply wp_bind. eapply wp_mono; [apply value_length_takes; exact L|].
    intros r l1 p1 [H1 H2]. destruct r as [n|e].
    + apply wp_bind. apply wp_catch. eapply wp_mono; [apply safe_well_known_charset|].
      intros r l2 p2 (pre & E & _).
      assert (L2 : (length l2 <= length l)%nat) by (apply (f_equal (@length Z)) in E; rewrite app_length in E; lia).
      destruct r as [n2|e].
      * eapply wp_mono; [apply text_takes|]. intros [x|e] l' p' H.
        -- destruct H as (A & B & _). cbn [gives]. split; [exact A|]. split; [lia|]. lia.
        -- cbn [gives] in H. destruct e; try exact H. congruence.
      * destruct e; wsteps; cbn; discriminate.
    + destruct e; try (cbn; discriminate). congruence.
  - apply wp_refused_catch.
    + apply wp_bind. eapply wp_mono; [apply decode_value_length_refuses; lia|].
      intros r l1 p1 (-> & -> & ->). repeat split.
    + eapply wp_mono; [apply text_takes|]. intros [x|e] l' p' H; [|exact H].
      destruct H as (A & B & C). cbn [length] in *. split; [exact A|]. split; [lia|].
      intros E. destruct (C ltac:(lia)) as [C1 _]. cbn in C1. split; [lia|exact C1].
Qed.

Lemma version_takes : forall l, wp decode_version_value l 0 (fun r _ _ => (forall x, r = Ok x -> ~ In 0 x) /\ r <> Err DecodeError).
Proof.
  intros l. unfold decode_version_value. apply wp_catch. apply wp_bind.
  assert (T : forall l p, wp decode_text_string l p
            (fun r _ _ => (forall x, r = Ok x -> ~ In 0 x) /\ r <> Err DecodeError)).
  { intros l1 p. eapply wp_mono; [apply text_takes|]. intros [y|e] l2 p2 H.
    - split; [|discriminate]. intros x E. assert (y = x) as <- by congruence. apply H.
    - split; [discriminate|]. cbn in H. congruence. }
  eapply wp_mono; [apply safe_short_integer|]. intros [b|e] l1 p1 (pre & _ & H).
  - wsteps. split; [|discriminate]. intros x E.
    remember (py_dec (Z.shiftr (Z.land b 112) 4) ++ str "." ++ py_dec (Z.land b 15)) as y eqn:Ey.
    assert (y = x) as <- by congruence. rewrite Ey. rewrite !in_app_iff.
    assert (P : forall n, 0 <= n -> ~ In 0 (py_dec n)).
    { intros n Hn Hi. destruct (py_dec_notation n Hn) as (_ & D & _). rewrite Forall_forall in D.
      specialize (D 0 Hi). cbn in D. lia. }
    intros [X|[X|X]].
    + revert X. apply P. apply Z.shiftr_nonneg. rewrite Z.land_nonneg. lia.
    + cbn in X. lia.
    + revert X. apply P. rewrite Z.land_nonneg. lia.
  - destruct (exn_eqb DecodeError e) eqn:X; [apply T|]. split; [discriminate|]. intros E.
    assert (e = DecodeError) as -> by congruence. discriminate.
Qed.

(** * Headers of the MMS table *)

Lemma gives_runtime A (m : ST piter A) l p P :
  wp m l p (gives P) -> wp (as_runtime_error m) l p (gives P).
Proof.
  intros H. eapply wp_then with (m := m)
    (j := fun r => match r with
                   | Ok a => st_ret a
                   | Err DecodeError => st_err DecodeError
                   | Err OutOfFuel => st_err OutOfFuel
                   | Err _ => st_err RuntimeError
                   end).
  - intros it. unfold as_runtime_error. destruct (m it) as [[a|e] it']; [reflexivity|].
    destruct e; reflexivity.
  - eapply wp_mono; [exact H|]. intros [a|e] l' p' X; [wsteps; exact X|].
    cbn in X. destruct e; wsteps; cbn; congruence.
Qed.

Lemma mms_gives n name t vb P : 0 <= n < 128 -> d_get Z.eqb n mms_field_names = Some (name, t) ->
  wp (decode_mms_value t) vb 0 (gives P) ->
  wp decode_header ((128 + n) :: vb) 0 (gives (fun x l' => fst x = name /\ P (snd x) l')).
Proof.
  intros Hn E H. unfold decode_header. apply wp_catch.
  unfold decode_mms_header. wsteps. unfold decode_short_integer_from_byte.
  rewrite land_128 by lia. replace (128 + n <? 128) with false by lia.
  rewrite land_127. replace ((128 + n) mod 128) with n by lia.
  rewrite E. wsteps. eapply wp_mono; [apply gives_runtime; exact H|].
  intros [v|e] l' p' X; wsteps; [cbn; auto|]. cbn in X. destruct e; try (cbn; discriminate). congruence.
Qed.

(** What a header of the table that is read back looks like. *)
Lemma table_inv n name t v : 0 <= n < 128 ->
  find_field name = Some (n, (name, t)) -> HeaderRoundTrip name v ->
  exists l vb, encode_mms_value t v = Ok l /\ array_of l = Ok vb /\
    Decodes decode_header ((128 + n) :: vb) (name, v).
Proof.
  intros Hn F (l & bytes & E & Ea & D). unfold mms_encode_header in E. rewrite F in E.
  rewrite encode_short_integer_ok in E by lia. cbn [bind] in E.
  destruct (encode_mms_value t v) as [b|e]; [|discriminate]. cbn [bind] in E.
  assert (l = ints [128 + n] ++ b) as -> by congruence.
  unfold array_of in Ea. cbn [ints map app mapM] in Ea. unfold array_item in Ea at 1.
  replace ((0 <=? 128 + n) && (128 + n <? 256)) with true in Ea by lia. cbn [bind] in Ea.
  destruct (mapM array_item b) as [vb|e] eqn:Eb; [|discriminate]. cbn [bind] in Ea.
  assert (bytes = (128 + n) :: vb) as -> by congruence.
  exists b, vb. auto.
Qed.

Lemma table_read n name t v : 0 <= n < 128 ->
  find_field name = Some (n, (name, t)) -> d_get Z.eqb n mms_field_names = Some (name, t) ->
  HeaderRoundTrip name v ->
  exists l vb, encode_mms_value t v = Ok l /\ array_of l = Ok vb /\
    forall P, wp (decode_mms_value t) vb 0 (gives P) -> P v [].
Proof.
  intros Hn F G H. destruct (table_inv n name t v Hn F H) as (l & vb & E & Ea & D).
  exists l, vb. split; [exact E|]. split; [exact Ea|]. intros P W.
  destruct (gives_all _ _ _ _ _ D (mms_gives n name t vb P Hn G W)) as [_ X]. exact X.
Qed.

Lemma array_octets l vb : array_of (ints l) = Ok vb -> vb = l /\ Forall is_octet l.
Proof.
  intros H. split; [exact (array_of_ints_inv l vb H)|]. revert vb H.
  induction l as [|n l IH]; intros vb H; [constructor|].
  unfold array_of in *. cbn [ints map mapM] in H. unfold array_item in H at 1.
  destruct ((0 <=? n) && (n <? 256)) eqn:E; [|discriminate]. cbn [bind] in H.
  change (map EInt l) with (ints l) in H.
  destruct (mapM array_item (ints l)) as [w|e] eqn:F; [|discriminate].
  constructor; [unfold is_octet; lia|]. exact (IH w eq_refl).
Qed.

Lemma octets_nul s : Forall is_octet (s ++ [0]) -> ~ In 0 s -> no_nul s.
Proof.
  intros H N. apply Forall_app in H. destruct H as [H _]. unfold no_nul.
  rewrite Forall_forall in *. intros x Hx. specialize (H x Hx). unfold is_octet in H.
  assert (x <> 0) by congruence. lia.
Qed.

Lemma encoded_plain s : Forall is_octet (s ++ [0]) ->
  (forall P, wp decode_encoded_string_value (s ++ [0]) 0 (gives P) -> P s []) -> plain_string s.
Proof.
  intros Ho H. destruct (s ++ [0]) as [|c l] eqn:E; [destruct s; discriminate|].
  destruct (H _ (encoded_takes c l)) as (A & _ & C).
  assert (L : (length s + 1 = S (length l))%nat).
  { apply (f_equal (@length Z)) in E. rewrite app_length in E. cbn [length] in E. lia. }
  cbn [length] in C. destruct (C ltac:(lia)) as [C1 C2]. rewrite <- E in Ho.
  split; [exact (octets_nul s Ho A)|]. destruct s as [|d s].
  - cbn in E. assert (c = 0) by congruence. lia.
  - apply (f_equal (hd 0)) in E. cbn [hd app] in E. subst d. cbn. lia.
Qed.

Lemma text_plain s : Forall is_octet (s ++ [0]) -> text_at (s ++ [0]) s [] -> plain_text s.
Proof.
  intros Ho (A & _ & C). split; [exact (octets_nul s Ho A)|].
  rewrite app_length in C. cbn [length] in C. destruct (C ltac:(lia)) as [C1 _].
  destruct s as [|c s]; [intros []|exact C1].
Qed.

(** * The size *)

Lemma big_endian_inj : forall a b, length a = length b -> Forall is_octet a -> Forall is_octet b ->
  big_endian a = big_endian b -> a = b.
Proof.
  induction a as [|x a IH] using rev_ind; intros b L Ha Hb E.
  - destruct b; [reflexivity|discriminate].
  - destruct b as [|y b _] using rev_ind; [rewrite app_length in L; cbn in L; lia|].
    rewrite !app_length in L. rewrite !big_endian_snoc in E. cbn [length] in L.
    apply Forall_app in Ha, Hb. destruct Ha as [Ha Hx], Hb as [Hb Hy].
    apply Forall_inv in Hx, Hy. unfold is_octet in *.
    assert (x = y) by lia. subst y. f_equal. apply IH; try assumption; lia.
Qed.

Lemma octets_exist : forall k n, 0 <= n < 2 ^ Z.of_nat k ->
  exists ds, Forall is_octet ds /\ minimal128 ds /\ big_endian ds = n.
Proof.
  induction k as [|k IH]; intros n H.
  - exists []. change (2 ^ Z.of_nat 0) with 1 in H. repeat split; [constructor|cbn; lia].
  - destruct (Z.eq_dec n 0) as [->|N]; [exists []; repeat split; constructor|].
    rewrite Nat2Z.inj_succ, Z.pow_succ_r in H by lia.
    pose proof (Z.div_mod n 256 ltac:(lia)) as E. pose proof (Z.mod_pos_bound n 256 ltac:(lia)) as B.
    destruct (IH (n / 256)) as (ds & H1 & H2 & H3); [split; [lia|lia]|].
    exists (ds ++ [n mod 256]). split; [apply Forall_app; split; [exact H1|constructor; [exact B|constructor]]|].
    split; [|rewrite big_endian_snoc; lia].
    destruct ds as [|d ds]; [|exact H2]. cbn in H3 |- *. lia.
Qed.

Lemma octets_of n : 0 <= n -> exists ds, Forall is_octet ds /\ minimal128 ds /\ big_endian ds = n.
Proof.
  intros H. apply (octets_exist (Z.to_nat n)). split; [exact H|]. rewrite Z2Nat.id by exact H.
  apply Z.pow_gt_lin_r; lia.
Qed.

(** * Other headers *)

Lemma token_takes : forall fuel b l p,
  wp (token_loop fuel b) l p (gives (fun x l' => exists c, b :: l = x ++ c :: l' /\
    Forall (fun c => token_char c = true) x)).
Proof.
  induction fuel as [|f IH]; intros b l p; cbn [token_loop]; destruct (token_char b) eqn:T.
  - wsteps. cbn. discriminate.
  - wsteps. exists b. split; [reflexivity|constructor].
  - destruct l as [|o l]; [wsteps; cbn; discriminate|]. wsteps.
    eapply wp_mono; [apply IH|]. intros [x|e] l' p' H; wsteps; [|exact H].
    destruct H as (c & E & F). exists c. split; [cbn [app]; now rewrite E|constructor; assumption].
  - wsteps. exists b. split; [reflexivity|constructor].
Qed.

(** The name of an application header. *)
Definition name_at (l x l' : list Z) : Prop :=
  ~ In 0 x /\ (length x + 1 + length l' <= length l)%nat.

Definition decode_name : ST piter (list Z) := st_catch decode_token_text DecodeError decode_text_string.

Lemma name_takes : forall l p, wp decode_name l p (gives (name_at l)).
Proof.
  intros l p. unfold decode_name. apply wp_catch. unfold decode_token_text.
  apply wp_bind. apply wp_preview. destruct (nth_error l p) as [b|]; [|cbn; discriminate].
  destruct (token_char b); cbn [negb].
  - destruct l as [|o l]; [wsteps; cbn; discriminate|]. wsteps.
    eapply wp_mono; [apply token_takes|]. intros [x|e] l' p' H.
    + destruct H as (c & E & F). split.
      * intros X. rewrite Forall_forall in F. specialize (F 0 X). discriminate.
      * rewrite E, app_length. cbn [length]. lia.
    + cbn [gives] in H. destruct e; try exact H. congruence.
  - wsteps. eapply wp_mono; [apply text_takes|]. intros [x|e] l' p' H; [|exact H].
    destruct H as (A & B & _). split; assumption.
Qed.

(** What an application header takes: more than its name and its value. *)
Definition header_at (k : nat) (l : list Z) (x : list Z * hval) (l' : list Z) : Prop :=
  exists s, snd x = HStr s /\ (k + length (fst x) + length s + 2 + length l' <= length l)%nat.

Lemma application_takes : forall l p,
  wp decode_application_header l p (gives (header_at 0 l)).
Proof.
  intros l p. unfold decode_application_header. apply wp_bind. fold decode_name.
  eapply wp_mono; [apply name_takes|]. intros [x|e] l1 p1 H; [|exact H].
  destruct H as [_ B]. apply wp_bind. eapply wp_mono; [apply text_takes|].
  intros [s|e] l2 p2 H; [|exact H]. destruct H as (_ & C & _). wsteps.
  exists s. cbn [fst snd]. split; [reflexivity|lia].
Qed.

Definition known (name : list Z) : Prop := In name (firstn 56 header_field_names).

(** A well-known header, or an application header where reading went on. *)
Lemma wsp_takes l p k :
  wp decode_short_integer l p (fun r l1 _ => exists pre, l = pre ++ l1 /\ (k <= length pre)%nat) ->
  wp wsp_decode_header l p (fun r l' _ => forall x, r = Ok x -> known (fst x) \/ header_at k l x l').
Proof.
  intros H0. unfold wsp_decode_header. apply wp_catch.
  assert (W : wp decode_well_known_header l p (fun r l1 _ =>
            (exists pre, l = pre ++ l1 /\ (k <= length pre)%nat) /\ forall x, r = Ok x -> known (fst x))).
  { unfold decode_well_known_header. apply wp_bind. eapply wp_mono; [exact H0|].
    intros [n|e] l1 p1 (pre & -> & Hk); [|split; [eauto|discriminate]].
    apply wp_bind. replace (get_header_field_names (str "1.2")) with (Ok (firstn 56 header_field_names))
      by reflexivity. apply wp_lift.
    destruct (nth_error (firstn 56 header_field_names) (Z.to_nat n)) as [name|] eqn:En;
      [|wsteps; split; [eauto|discriminate]].
    apply nth_error_In in En. apply wp_bind.
    assert (V : forall A (m : ST piter A) (g : A -> hval) j, safe wsp_exn j m ->
      wp (st_bind m (fun a => st_ret (g a))) l1 p1 (fun r l2 p2 => exists pre, l1 = pre ++ l2)).
    { intros A m g j S. apply wp_bind. eapply wp_mono; [apply S|].
      intros [a|e] l2 p2 (q & E & _); wsteps; eauto. }
    assert (V2 : wp (match header_field_encoding name with
            | AcceptValue => s <~ decode_accept_value ;; st_ret (HStr s)
            | PragmaValue => '(p, v) <~ decode_pragma_value ;; st_ret (HPragma p v)
            | OtherValue => s <~ decode_text_string ;; st_ret (HStr s)
            end) l1 p1 (fun r l2 p2 => exists pre, l1 = pre ++ l2)).
    { destruct (header_field_encoding name).
      - apply (V _ decode_accept_value HStr 1%nat safe_accept_value).
      - apply wp_bind. eapply wp_mono; [apply safe_pragma_value|].
        intros [[a b]|e] l2 p2 (q & E & _); wsteps; eauto.
      - apply (V _ decode_text_string HStr 1%nat safe_text_string). }
    eapply wp_mono; [exact V2|]. intros [v|e] l2 p2 (q & ->); wsteps.
    + split; [exists (pre ++ q); rewrite app_length; split; [now rewrite app_assoc|lia]|]. intros x E.
      assert (x = (name, v)) as -> by congruence. exact En.
    + split; [exists (pre ++ q); rewrite app_length; split; [now rewrite app_assoc|lia]|discriminate]. }
  eapply wp_mono; [exact W|]. intros [x|e] l1 p1 [(pre & E & Hk) H].
  - intros y Ey. left. apply H. exact Ey.
  - destruct (exn_eqb DecodeError e); [|intros x X; discriminate].
    eapply wp_mono; [apply application_takes|]. intros [x|e2] l2 p2 X y Ey; [|discriminate].
    right. assert (x = y) as <- by congruence. destruct X as (s & X1 & X2). exists s.
    split; [exact X1|]. rewrite E, app_length. lia.
Qed.

Lemma wsp_takes_any l p :
  wp wsp_decode_header l p (fun r l' _ => forall x, r = Ok x -> known (fst x) \/ header_at 0 l x l').
Proof.
  apply wsp_takes. eapply wp_mono; [apply safe_short_integer|]. intros r l1 p1 (pre & E & _).
  exists pre. split; [exact E|lia].
Qed.

Lemma wsp_takes_high l p b : nth_error l p = Some b -> 128 <= b < 256 ->
  wp wsp_decode_header l p (fun r l' _ => forall x, r = Ok x -> known (fst x) \/ header_at 1 l x l').
Proof.
  intros E Hb. apply wsp_takes. unfold decode_short_integer. apply wp_bind, wp_preview.
  rewrite E. rewrite land_128 by lia. replace (b <? 128) with false by lia.
  destruct l as [|c l]; [destruct p; discriminate|]. wsteps. exists [c]. split; [reflexivity|cbn; lia].
Qed.

Lemma known_ascii name : known name -> name <> [] /\ Forall (fun c => c < 128) name.
Proof.
  intros H. assert (F : Forall (fun n => n <> [] /\ Forall (fun c => c < 128) n) (firstn 56 header_field_names)).
  { assert (B : forallb (fun n => negb (leqb n []) && forallb (fun c => c <? 128) n) (firstn 56 header_field_names) = true)
      by (vm_compute; reflexivity).
    apply Forall_forall. intros n Hn. rewrite forallb_forall in B. specialize (B n Hn).
    apply andb_prop in B. destruct B as [B1 B2]. split; [intros ->; discriminate|].
    apply Forall_forall. intros c Hc. rewrite forallb_forall in B2. specialize (B2 c Hc). lia. }
  rewrite Forall_forall in F. exact (F name H).
Qed.

Lemma table_names n name t : d_get Z.eqb n mms_field_names = Some (name, t) -> In name mms_names.
Proof.
  intros H. apply d_get_In in H; [|intros; apply Z.eqb_eq|].
  - change mms_names with (map (fun p => fst (snd p)) mms_field_names).
    apply (in_map (fun p => fst (snd p))) in H. exact H.
  - let v := eval vm_compute in (map fst mms_field_names) in
      change (map fst mms_field_names) with v.
    repeat constructor; cbn [In]; lia.
Qed.

(** When one of the first two octets is not ASCII, the header is not read back. *)
Lemma high_lost name s v : Forall is_octet (name ++ [0] ++ s ++ [0]) ->
  (forall x, v = HStr x -> x = s) ->
  ~ Forall (fun c => c < 128) (firstn 2 (name ++ [0] ++ s ++ [0])) ->
  ~ Decodes decode_header (name ++ [0] ++ s ++ [0]) (name, v).
Proof.
  intros Ho Hv Hh D.
  assert (Hm : ~ In name mms_names).
  { intros K.
    assert (B : forallb (fun n => match n with c :: c' :: _ => (c <? 128) && (c' <? 128) | _ => false end)
              mms_names = true) by (vm_compute; reflexivity).
    rewrite forallb_forall in B. specialize (B name K). apply Hh.
    destruct name as [|c [|c' name]]; try discriminate B. apply andb_prop in B.
    cbn [app firstn]. constructor; [lia|]. constructor; [lia|constructor]. }
  assert (HN : (known name \/ header_at 1 (name ++ [0] ++ s ++ [0]) (name, v) []) -> False).
  { intros [K|(x & E & L)].
    - apply known_ascii in K. destruct K as [K1 K2]. apply Hh. rewrite firstn_app.
      destruct name as [|c [|c' name]]; [congruence| |].
      + cbn [firstn length app Nat.sub]. constructor; [exact (Forall_inv K2)|].
        constructor; [lia|constructor].
      + cbn [firstn length app Nat.sub]. constructor; [exact (Forall_inv K2)|].
        constructor; [exact (Forall_inv (Forall_inv_tail K2))|constructor].
    - cbn [fst snd] in *. assert (x = s) as -> by exact (Hv x E).
      rewrite !app_length in L. cbn [length] in L. lia. }
  remember (name ++ [0] ++ s ++ [0]) as l eqn:El.
  destruct l as [|c [|c' l]]; [destruct name; discriminate| |].
  { apply (f_equal (@length Z)) in El. rewrite !app_length in El. cbn [length] in El. lia. }
  pose proof (Forall_inv Ho) as Hc. pose proof (Forall_inv (Forall_inv_tail Ho)) as Hc'.
  unfold is_octet in Hc, Hc'. cbn [firstn] in Hh.
  assert (W : wp decode_header (c :: c' :: l) 0 (fun r l' _ => forall x, r = Ok x ->
             In (fst x) mms_names \/ known (fst x) \/ header_at 1 (c :: c' :: l) x l')).
  { unfold decode_header. apply wp_catch. unfold decode_mms_header. apply wp_bind, wp_preview.
    cbn [nth_error]. apply wp_bind, wp_lift. unfold decode_short_integer_from_byte.
    rewrite land_128 by lia. destruct (c <? 128) eqn:Lc.
    - cbn [exn_eqb]. eapply wp_mono; [apply (wsp_takes_high _ 1 c'); [reflexivity|]|].
      + split; [|lia]. destruct (Z.leb_spec 128 c') as [L|L]; [exact L|exfalso].
        apply Hh. constructor; [lia|]. constructor; [lia|constructor].
      + intros r l' p' H x Ex. right. exact (H x Ex).
    - destruct (d_get Z.eqb (Z.land c 127) mms_field_names) as [[tn t]|] eqn:Ed.
      + wsteps. assert (S : wp (as_runtime_error (decode_mms_value t)) (c' :: l) 0
            (fun r l1 p1 => exists pre, c' :: l = pre ++ l1)).
        { eapply wp_then with (m := decode_mms_value t)
            (j := fun r => match r with
                   | Ok a => st_ret a
                   | Err DecodeError => st_err DecodeError
                   | Err OutOfFuel => st_err OutOfFuel
                   | Err _ => st_err RuntimeError
                   end).
          - intros it. unfold as_runtime_error. destruct (decode_mms_value t it) as [[a|e] it']; [reflexivity|].
            destruct e; reflexivity.
          - eapply wp_mono; [apply safe_mms_value|]. intros [a|e] l1 p1 (pre & E & _);
              [|destruct e]; wsteps; eauto. }
        eapply wp_mono; [exact S|]. intros [v0|e] l1 p1 (pre & E); wsteps.
        * intros x Ex. left. assert (x = (tn, v0)) as -> by congruence. exact (table_names _ _ _ Ed).
        * destruct e; try (intros x X; discriminate).
          eapply wp_mono; [apply wsp_takes_any|]. intros r l2 p2 H x Ex. right.
          destruct (H x Ex) as [K|(v0 & V1 & V2)]; [left; exact K|right]. exists v0. split; [exact V1|].
          apply (f_equal (@length Z)) in E. rewrite app_length in E. cbn [length] in *. lia.
      + wsteps. eapply wp_mono; [apply (wsp_takes_high _ 0 c); [reflexivity|lia]|].
        intros r l' p' H x Ex. right. exact (H x Ex). }
  destruct (decodes_all _ _ _ _ _ D W) as (p & H).
  destruct (H _ eq_refl) as [K|K]; [exact (Hm K)|exact (HN K)].
Qed.

(** When both are, it is read as a name and a text. *)
Lemma name_exact name l1 : Forall (fun c => ~ In c separator_chars) name ->
  wp decode_name (name ++ 0 :: l1) 0 (gives (fun x l' => x = name ->
    l' = l1 /\ ~ In 0 name /\ (Forall (fun c => 32 <= c) name \/ starts_with (fun c => c < 32) name))).
Proof.
  intros Hs. remember (name ++ 0 :: l1) as l eqn:El. destruct l as [|b l]; [destruct name; discriminate|].
  unfold decode_name. apply wp_catch. unfold decode_token_text. wsteps.
  destruct (token_char b) eqn:T; cbn [negb].
  - wsteps. eapply wp_mono; [apply token_takes|]. intros [x|e] l' p' H.
    + destruct H as (c & E & F). cbn [gives]. intros ->. rewrite El in E. apply app_inv_head in E.
      split; [congruence|]. split.
      * intros X. rewrite Forall_forall in F. specialize (F 0 X). discriminate.
      * left. eapply Forall_impl; [|exact F]. cbv beta. intros a Ha. apply token_char_iff in Ha. lia.
    + cbn [gives] in H. destruct e; try exact H. congruence.
  - wsteps. eapply wp_mono; [apply text_unquoted|].
    { intros ->. discriminate T. }
    intros [x|e] l' p' H; [|exact H].
    destruct H as (E & A). cbn [gives]. intros ->. rewrite El in E. apply app_inv_head in E.
    assert (X : l' = l1) by congruence.
    split; [exact X|]. split; [exact A|].
    destruct name as [|d name]; [left; constructor|right]. apply (f_equal (hd 0)) in El. cbn [hd app] in El. subst d.
    cbn [starts_with]. destruct (Z.ltb_spec b 32) as [L|L]; [exact L|exfalso].
    assert (token_char b = true); [|congruence]. apply token_char_iff. split; [lia|].
    exact (Forall_inv Hs).
Qed.

Lemma token_exact name s : Forall is_octet (name ++ [0] ++ s ++ [0]) -> existsb is_separator name = false ->
  Decodes decode_header (name ++ [0] ++ s ++ [0]) (name, HStr s) -> token_name name s /\ plain_text s.
Proof.
  intros Ho Es D.
  assert (Hs : Forall (fun c => ~ In c separator_chars) name).
  { apply Forall_forall. intros c Hc Hi. apply Bool.not_true_iff_false in Es. apply Es.
    apply existsb_exists. exists c. split; [exact Hc|]. apply is_separator_iff. exact Hi. }
  destruct (Forall_dec (fun c => c < 128) (fun c => Z_lt_dec c 128) (firstn 2 (name ++ [0] ++ s ++ [0])))
    as [Ha|Hh]; [|exfalso; refine (high_lost name s _ Ho _ Hh D); unfold HStr; congruence].
  assert (W : wp decode_header (name ++ [0] ++ s ++ [0]) 0 (gives (fun x l' =>
      x = (name, HStr s) -> l' = [] -> ~ In 0 name /\
      (Forall (fun c => 32 <= c) name \/ starts_with (fun c => c < 32) name) /\ text_at (s ++ [0]) s []))).
  { pose proof (name_exact name (s ++ [0]) Hs) as Hn.
    change (0 :: s ++ [0]) with ([0] ++ s ++ [0]) in Hn.
    remember (name ++ [0] ++ s ++ [0]) as l eqn:El.
    destruct l as [|c [|c' l]]; [destruct name; discriminate| |].
    { apply (f_equal (@length Z)) in El. rewrite !app_length in El. cbn [length] in El. lia. }
    pose proof (Forall_inv Ho) as Hc. pose proof (Forall_inv (Forall_inv_tail Ho)) as Hc'.
    cbn [firstn] in Ha.
    pose proof (Forall_inv Ha) as Hc1. pose proof (Forall_inv (Forall_inv_tail Ha)) as Hc1'.
    unfold is_octet in Hc, Hc'. cbv beta in Hc1, Hc1'.
    unfold decode_header. apply wp_catch. unfold decode_mms_header.
    wsteps. unfold decode_short_integer_from_byte.
    rewrite land_128 by lia. replace (c <? 128) with true by lia. cbn [exn_eqb].
    unfold wsp_decode_header. apply wp_refused_catch.
    - unfold decode_well_known_header. apply wp_bind.
      eapply wp_mono; [apply short_integer_second; lia|].
      intros r l' p' (-> & -> & ->). repeat split.
    - unfold decode_application_header. apply wp_bind. fold decode_name.
      eapply wp_mono; [exact Hn|]. intros [x|e] l1 p1 H; [|exact H]. cbn [gives] in H.
      apply wp_bind. eapply wp_mono; [apply text_takes|].
      intros [y|e] l2 p2 T; [|exact T]. wsteps. cbn [gives]. intros E ->.
      assert (x = name) as -> by congruence.
      assert (y = s) as -> by (unfold HStr in E; congruence).
      destruct (H eq_refl) as (-> & A & B). auto. }
  destruct (gives_all _ _ _ _ _ D W eq_refl eq_refl) as (A & B & C).
  assert (Ho1 : Forall is_octet name) by (apply Forall_app in Ho; tauto).
  assert (Ho2 : Forall is_octet (s ++ [0])) by (rewrite !Forall_app in *; tauto).
  split; [|exact (text_plain s Ho2 C)].
  split; [|split; assumption].
  apply Forall_forall. intros c Hc. rewrite Forall_forall in Ho1, Hs.
  specialize (Ho1 c Hc). specialize (Hs c Hc). unfold is_octet in Ho1.
  assert (c <> 0) by congruence. split; [lia|exact Hs].
Qed.

(** A header outside the table comes back with a text as its value. *)
Lemma text_comes name s v : Forall is_octet (name ++ [0] ++ s ++ [0]) ->
  Decodes decode_header (name ++ [0] ++ s ++ [0]) (name, v) -> exists x, v = HStr x.
Proof.
  intros Ho D.
  assert (X : (exists x, v = HStr x) \/ (forall x, v = HStr x -> x = s)).
  { destruct v as [[x| | |]| | | |]; [left; exists x; reflexivity|right; intros x X; discriminate X..]. }
  destruct X as [X|Hv]; [exact X|].
  destruct (Forall_dec (fun c => c < 128) (fun c => Z_lt_dec c 128) (firstn 2 (name ++ [0] ++ s ++ [0])))
    as [Ha|Hh]; [|exfalso; exact (high_lost name s v Ho Hv Hh D)].
  assert (W : wp decode_header (name ++ [0] ++ s ++ [0]) 0 (gives (fun x l' => exists y, snd x = HStr y))).
  { remember (name ++ [0] ++ s ++ [0]) as l eqn:El.
    destruct l as [|c [|c' l]]; [destruct name; discriminate| |].
    { apply (f_equal (@length Z)) in El. rewrite !app_length in El. cbn [length] in El. lia. }
    pose proof (Forall_inv Ho) as Hc. pose proof (Forall_inv (Forall_inv_tail Ho)) as Hc'.
    cbn [firstn] in Ha.
    pose proof (Forall_inv Ha) as Hc1. pose proof (Forall_inv (Forall_inv_tail Ha)) as Hc1'.
    unfold is_octet in Hc, Hc'. cbv beta in Hc1, Hc1'.
    unfold decode_header. apply wp_catch. unfold decode_mms_header.
    wsteps. unfold decode_short_integer_from_byte.
    rewrite land_128 by lia. replace (c <? 128) with true by lia. cbn [exn_eqb].
    unfold wsp_decode_header. apply wp_refused_catch.
    - unfold decode_well_known_header. apply wp_bind.
      eapply wp_mono; [apply short_integer_second; lia|].
      intros r l' p' (-> & -> & ->). repeat split.
    - unfold decode_application_header. apply wp_bind.
      apply wp_catch. unfold decode_token_text. wsteps.
      assert (T : forall (x : list Z) l1 p1, wp (st_bind decode_text_string (fun y => st_ret (x, HStr y))) l1 p1
                (gives (fun x l' => exists y, snd x = HStr y))).
      { intros x l1 p1. apply wp_bind. eapply wp_mono; [apply text_takes|].
        intros [y|e] l2 p2 T; [|exact T]. wsteps. cbn [gives snd]. exists y. reflexivity. }
      destruct (token_char c) eqn:Tc; cbn [negb].
      + wsteps. eapply wp_mono; [apply token_takes|]. intros [x|e] l1 p1 H; [apply T|].
        cbn [gives] in H. destruct e; try exact H. congruence.
      + wsteps. eapply wp_mono; [apply text_takes|]. intros [x|e] l1 p1 H; [apply T|exact H]. }
  exact (gives_all _ _ _ _ _ D W).
Qed.

Lemma other_exact name s : ~ In name mms_names -> HeaderRoundTrip name (HStr s) ->
  other_name name s /\ plain_text s.
Proof.
  intros Hm (l & bytes & E & Ea & D). unfold mms_encode_header in E.
  rewrite find_field_none in E by exact Hm. rewrite encode_token_text_spec in E.
  destruct (existsb is_separator name) eqn:Es; [discriminate|].
  cbn [bind encode_text_string_h encode_text_string_p HStr] in E.
  assert (l = ints (name ++ [0] ++ s ++ [0])) as ->.
  { unfold encode_text_string in E. unfold ints in *. rewrite <- map_app in E.
    rewrite <- app_assoc in E. congruence. }
  clear E. apply array_octets in Ea. destruct Ea as [-> Ho].
  destruct (token_exact name s Ho Es D) as [A B]. split; [split; [exact Hm|exact A]|exact B].
Qed.

(** * C50 *)

(** C50, exactly: a header whose value is not a bool is read back just when it is one
    of the supported ones.  (A bool is refused or comes back as an int or a text.) *)
Theorem C50_exact : forall name v, (forall b, v <> HBool b) ->
  (HeaderRoundTrip name v <-> supported name v).
Proof.
  intros name v Hb. split; [|apply supported_roundtrip]. intros H.
  destruct (in_dec (list_eq_dec Z.eq_dec) name mms_names) as [Hi|Hi].
  2: { assert (X : exists s, v = HStr s).
       { destruct H as (l & bytes & E & Ea & D). unfold mms_encode_header in E.
         rewrite find_field_none in E by exact Hi. rewrite encode_token_text_spec in E.
         destruct (existsb is_separator name); [discriminate|].
         destruct v as [[s| | |]| | | |p q]; try discriminate; [exists s; reflexivity|].
         destruct p as [|a [|? ?]]; try discriminate. destruct q as [[|b [|? ?]]| | |]; try discriminate.
         cbn [bind encode_text_string_h] in E.
         assert (l = ints (name ++ [0] ++ [a; b] ++ [0])) as ->.
         { unfold encode_text_string in E. unfold ints in *. rewrite <- map_app in E.
           rewrite <- app_assoc in E. congruence. }
         destruct (array_octets _ _ Ea) as [-> Ho]. exact (text_comes name [a; b] _ Ho D). }
       destruct X as (s & ->). destruct (other_exact name s Hi H) as [A B]. apply sup_other; auto. }
  assert (HT : forall n nm t, In (n, (nm, t)) mms_field_names -> 0 <= n < 128 /\
             find_field nm = Some (n, (nm, t)) /\ d_get Z.eqb n mms_field_names = Some (nm, t)).
  { intros n nm t Hin. cbn [mms_field_names In] in Hin.
    repeat (destruct Hin as [Hin|Hin]; [apply pair_equal_spec in Hin; destruct Hin as [<- Hin];
      apply pair_equal_spec in Hin; destruct Hin as [<- <-];
      split; [lia|split; vm_compute; reflexivity]|]). destruct Hin. }
  assert (X : exists n t, In (n, (name, t)) mms_field_names).
  { change mms_names with (map (fun p => fst (snd p)) mms_field_names) in Hi.
    apply in_map_iff in Hi. destruct Hi as ([n [nm t]] & E & Hin). cbn [fst snd] in E. subst nm. eauto. }
  destruct X as (n & t & Hin). destruct (HT n name t Hin) as (Hn & F & G).
  destruct (table_read n name t v Hn F G H) as (l & vb & E & Ea & HQ).
  clear HT H F G.
  assert (Hnames : (t = MEncodedString /\
                    In name [str "To"; str "Cc"; str "Bcc"; str "Subject"; str "Response-Text"]) \/
                   (t = MFrom /\ name = str "From") \/
                   (t = MTextString /\ In name [str "Message-ID"; str "Transaction-Id"]) \/
                   (t = MMessageType /\ name = str "Message-Type") \/
                   (t = MVersion /\ name = str "MMS-Version") \/
                   (t = MStatus /\ name = str "Status") \/
                   (t = MLong /\ name = str "Message-Size") \/
                   (exists e, encode_mms_value t v = Err e)).
  { cbn [mms_field_names In] in Hin.
    repeat (destruct Hin as [Hin|Hin]; [apply pair_equal_spec in Hin; destruct Hin as [_ Hin];
      apply pair_equal_spec in Hin; destruct Hin as [<- <-]; cbn [In];
      first [ solve [left; auto 10] | solve [right; left; auto] | solve [do 2 right; left; auto]
            | solve [do 3 right; left; auto] | solve [do 4 right; left; auto]
            | solve [do 5 right; left; auto] | solve [do 6 right; left; auto]
            | solve [do 7 right; eexists; reflexivity]]|]). destruct Hin. }
  clear Hi Hin Hn n.
  destruct Hnames as [(-> & Hn)|[(-> & ->)|[(-> & Hn)|[(-> & ->)|[(-> & ->)|[(-> & ->)|[(-> & ->)|(e & Hx)]]]]]]].
  - (* encoded strings *)
    destruct v as [[s| | |]| | | |p q]; try discriminate E.
    2: { exfalso. destruct p as [|a [|? ?]]; try discriminate E.
         destruct q as [[|b [|? ?]]| | |]; try discriminate E.
         cbn [encode_mms_value encode_encoded_string_value encode_text_string_h bind] in E.
         assert (l = ints [a; b; 0]) as -> by (unfold encode_text_string in E; cbn [app] in E; congruence).
         apply array_octets in Ea. destruct Ea as [-> _].
         assert (X := HQ (fun x l' => exists y, x = HStr y)). destruct X as (y & X); [|discriminate X].
         cbn [decode_mms_value]. apply gives_ret. eapply wp_mono; [apply encoded_takes|].
         intros [y|e] l' p' Y; [exists y; reflexivity|exact Y]. }
    cbn [encode_mms_value encode_encoded_string_value encode_text_string_h encode_text_string_p bind] in E.
    assert (l = ints (s ++ [0])) as -> by (unfold encode_text_string in E; congruence).
    apply array_octets in Ea. destruct Ea as [-> Ho]. apply sup_string; [exact Hn|].
    apply encoded_plain; [exact Ho|]. intros P W.
    assert (X := HQ (fun x l' => exists y, x = HStr y /\ P y l')).
    destruct X as (y & Ey & Py).
    { cbn [decode_mms_value]. apply gives_ret. eapply wp_mono; [exact W|].
      intros [a|e] l' p' Z; [|exact Z]. exists a. auto. }
    assert (y = s) as <- by (unfold HStr in Ey; congruence). exact Py.
  - (* the sender *)
    destruct v as [[s| | |]| | | |p q]; try discriminate E.
    2: { exfalso. destruct p as [|a [|? ?]]; try discriminate E.
         destruct q as [[|b [|? ?]]| | |]; try discriminate E.
         cbn [encode_mms_value encode_from_value encode_text_string_h bind] in E.
         assert (l = ints (encode_value_length (zlen [a; b; 0] + 1) ++ [128] ++ [a; b; 0])) as ->
           by (unfold encode_text_string in E; cbn [app] in E |- *; congruence).
         apply array_octets in Ea. destruct Ea as [-> _].
         assert (X := HQ (fun x l' => exists y, x = HStr y)). destruct X as (y & X); [|discriminate X].
         cbn [decode_mms_value]. apply gives_ret. unfold decode_from_value.
         eapply wp_seq; [apply value_length_run; pose proof (zlen_nonneg [a; b; 0]); lia|].
         cbn [app]. wsteps. cbn [Z.eqb Pos.eqb]. eapply wp_mono; [apply encoded_takes|].
         intros [y|e] l' p' Y; [exists y; reflexivity|exact Y]. }
    cbn [encode_mms_value encode_from_value] in E. destruct s as [|c s].
    + exfalso. cbn [bind] in E. assert (l = ints [1; 129]) as -> by (vm_compute in E |- *; congruence).
      apply array_octets in Ea. destruct Ea as [-> _].
      assert (X := HQ (fun x l' => x = HStr (str "<not inserted>"))).
      assert (Y : HP (PStr []) = HStr (str "<not inserted>")); [|discriminate Y]. apply X.
      cbn [decode_mms_value]. apply gives_ret. unfold decode_from_value.
      change [1; 129] with (encode_value_length 1 ++ [129]).
      eapply wp_seq; [apply value_length_run; lia|]. wsteps. cbn [Z.eqb Pos.eqb]. wsteps. reflexivity.
    + apply sup_from. remember (c :: s) as t eqn:Et. cbn [bind] in E.
      assert (l = ints (encode_value_length (zlen (t ++ [0]) + 1) ++ [128] ++ t ++ [0])) as ->
        by (unfold encode_text_string in E; congruence).
      apply array_octets in Ea. destruct Ea as [-> Ho]. apply Forall_app in Ho. destruct Ho as [_ Ho].
      apply encoded_plain; [exact (Forall_inv_tail Ho)|]. intros P W.
      assert (X := HQ (fun x l' => exists y, x = HStr y /\ P y l')).
      destruct X as (y & Ey & Py).
      { cbn [decode_mms_value]. apply gives_ret. unfold decode_from_value.
        eapply wp_seq; [apply value_length_run; pose proof (zlen_nonneg (t ++ [0])); lia|].
        cbn [app]. wsteps. cbn [Z.eqb Pos.eqb]. eapply wp_mono; [exact W|].
        intros [a|e] l' p' Z; [|exact Z]. exists a. auto. }
      assert (y = t) as <- by (unfold HStr in Ey; congruence). exact Py.
  - (* identifiers *)
    destruct v as [[s| | |]| | | |p q]; try discriminate E.
    2: { exfalso. destruct p as [|a [|? ?]]; try discriminate E.
         destruct q as [[|b [|? ?]]| | |]; try discriminate E.
         cbn [encode_mms_value encode_text_string_h bind] in E.
         assert (l = ints [a; b; 0]) as -> by (unfold encode_text_string in E; cbn [app] in E; congruence).
         apply array_octets in Ea. destruct Ea as [-> _].
         assert (X := HQ (fun x l' => exists y, x = HStr y)). destruct X as (y & X); [|discriminate X].
         cbn [decode_mms_value]. apply gives_ret. eapply wp_mono; [apply text_takes|].
         intros [y|e] l' p' Y; [exists y; reflexivity|exact Y]. }
    cbn [encode_mms_value encode_text_string_h encode_text_string_p bind] in E.
    assert (l = ints (s ++ [0])) as -> by (unfold encode_text_string in E; congruence).
    apply array_octets in Ea. destruct Ea as [-> Ho]. apply sup_text; [exact Hn|].
    apply text_plain; [exact Ho|].
    assert (X := HQ (fun x l' => exists y, x = HStr y /\ text_at (s ++ [0]) y l')).
    destruct X as (y & Ey & Py).
    { cbn [decode_mms_value]. apply gives_ret. eapply wp_mono; [apply text_takes|].
      intros [a|e] l' p' Z; [|exact Z]. exists a. auto. }
    assert (y = s) as <- by (unfold HStr in Ey; congruence). exact Py.
  - (* message types *)
    cbn [encode_mms_value] in E.
    assert (X : exists n s, encode_message_type_value v = Ok [n] /\ d_get Z.eqb n message_types_dec = Some s /\
              In s [str "m-send-req"; str "m-send-conf"; str "m-notification-ind";
                str "m-notifyresp-ind"; str "m-retrieve-conf"; str "m-acknowledge-ind";
                str "m-delivery-ind"]).
    { assert (K : encode_message_type_value v = Ok [128] \/ exists s n, v = HStr s /\
                d_get leqb s message_types = Some n /\ encode_message_type_value v = Ok [n]).
      { destruct v as [[s| | |]| | | |]; try discriminate E; try (left; reflexivity).
        cbn [encode_message_type_value].
        destruct (d_get leqb s message_types) as [n|] eqn:Ed; [right; exists s, n; auto|left; reflexivity]. }
      destruct K as [K|(s & n & _ & K & K2)].
      - exists 128, (str "m-send-req"). split; [exact K|]. split; [reflexivity|left; reflexivity].
      - apply d_get_In in K; [|apply leqb_eq|].
        + exists n, s. split; [exact K2|]. cbn [message_types In] in K.
          repeat (destruct K as [K|K]; [apply pair_equal_spec in K; destruct K as [<- <-];
            split; [reflexivity|cbn [In]; auto 10]|]). destruct K.
        + repeat constructor; cbn [In fst map]; intros Y;
            repeat destruct Y as [Y|Y]; try discriminate Y; try contradiction. }
    destruct X as (n & s & K1 & K2 & K3). rewrite K1 in E. cbn [bind] in E.
    assert (l = ints [n]) as -> by congruence. apply array_octets in Ea. destruct Ea as [-> _].
    assert (v = HStr s) as ->.
    { apply (HQ (fun x l' => x = HStr s)). cbn [decode_mms_value]. apply gives_ret.
      unfold decode_message_type_value. wsteps. rewrite K2. wsteps. reflexivity. }
    apply sup_type. exact K3.
  - (* the version *)
    destruct v as [[s| | |]| | | |]; try discriminate E.
    cbn [encode_mms_value encode_version_value_h encode_version_value_p bind] in E.
    assert (l = ints (encode_version_value s)) as -> by congruence.
    apply array_octets in Ea. destruct Ea as [-> Ho].
    assert (Hn : ~ In 0 s).
    { assert (X := HQ (fun x l' => exists y, x = HStr y /\ ~ In 0 y)). destruct X as (y & Ey & Py).
      - cbn [decode_mms_value]. apply gives_ret. eapply wp_mono; [apply version_takes|].
        intros [a|e] l' p' [Z1 Z2]; [exists a; auto|]. cbn [gives]. intros ->. congruence.
      - assert (y = s) as <- by (unfold HStr in Ey; congruence). exact Py. }
    assert (HR : forall v' rest, wp decode_version_value (encode_version_value s) 0 (becomes v' rest) -> s = v').
    { intros v' rest W. assert (Y : HStr s = HStr v'); [|unfold HStr in Y; congruence].
      apply (HQ (fun x l' => x = HStr v')). cbn [decode_mms_value]. apply gives_ret.
      eapply wp_mono; [exact W|]. intros r l' p' (-> & _). reflexivity. }
    assert (H0 : encode_version_value s <> []).
    { intros X. apply (HQ (fun _ _ => False)). rewrite X. cbn [decode_mms_value]. apply gives_ret.
      unfold decode_version_value. apply wp_catch. unfold decode_short_integer. wsteps. cbn. discriminate. }
    assert (Hns : no_nul s).
    { assert (Z : forall M m, 1 <= M <= 7 -> 0 <= m <= 15 ->
                (forall v' rest, wp decode_version_value [128 + 16 * M + m] 0 (becomes v' rest) -> s = v') -> no_nul s).
      { intros M m HM Hm K. pose proof (K _ _ (version_octet_run (128 + 16 * M + m) [] ltac:(lia))) as Es.
        replace (128 + 16 * M + m - 128) with (16 * M + m) in Es by lia.
        rewrite version_octet in Es by lia. rewrite Es.
        destruct (m <? 10) eqn:L; repeat constructor; lia. }
      destruct (version_sent s) as [M m s H|M s H|s H|s H].
      - destruct H as (_ & _ & _ & _ & _ & _ & HM & Hm). apply (Z M m HM); [lia|exact HR].
      - destruct H as (_ & _ & HM). apply (Z M 15 HM); [lia|exact HR].
      - congruence.
      - exact (octets_nul s Ho Hn). }
    destruct (version_back s Hns HR H0) as [P|(O & Hc)]; [apply sup_version|apply sup_version_text]; auto.
  - (* the status *)
    destruct v as [[s| | |]| | | |]; try discriminate E; [|exfalso..].
    2-7: cbn [encode_mms_value encode_status_value] in E;
         assert (l = [EStr (str "Unrecognised")]) as -> by congruence; discriminate Ea.
    cbn [encode_mms_value encode_status_value] in E.
    destruct (d_get leqb s status_values) as [n|] eqn:Ed.
    + apply sup_status. apply d_get_In in Ed; [|apply leqb_eq|].
      * cbn [status_values In] in Ed.
        repeat (destruct Ed as [Ed|Ed]; [apply pair_equal_spec in Ed; destruct Ed as [<- _]; cbn [In]; auto 10|]).
        destruct Ed.
      * repeat constructor; cbn [In fst map]; intros Y;
          repeat destruct Y as [Y|Y]; try discriminate Y; try contradiction.
    + exfalso. assert (l = [EStr (str "Unrecognised")]) as -> by congruence. discriminate Ea.
  - (* the size *)
    destruct v as [[s|n| |]|b| | |]; try discriminate E; [|destruct (Hb b); reflexivity].
    cbn [encode_mms_value encode_long_integer_h] in E.
    destruct (is_int n) eqn:Ei.
    2: { unfold encode_long_integer in E. rewrite Ei in E. discriminate E. }
    unfold is_int in Ei. destruct (Z.ltb_spec n 0) as [L|L].
    + exfalso. assert (Y : encode_long_integer n = Ok [0]).
      { unfold encode_long_integer, is_int. rewrite Ei. cbn [negb].
        cbn [long_enc]. replace (0 <? n) with false by lia. reflexivity. }
      rewrite Y in E. cbn [bind] in E. assert (l = ints [0]) as -> by congruence.
      apply array_octets in Ea. destruct Ea as [-> _].
      assert (Y2 : HP (PInt n) = HInt 0); [|unfold HInt in Y2; assert (n = 0) by congruence; lia].
      apply (HQ (fun x l' => x = HInt 0)). cbn [decode_mms_value]. apply gives_ret.
      eapply wp_mono; [apply (decode_long_integer_run [] []); [constructor|vm_compute; discriminate]|].
      intros r l' p' (-> & _). reflexivity.
    + destruct (octets_of n L) as (ds & Hd & Hm & <-).
      assert (Hx : big_endian ds <= maxint) by lia.
      pose proof (octets_short ds Hd Hm Hx) as Hl. rewrite encode_long_integer_spec in E by assumption.
      cbn [bind] in E. assert (l = ints (zlen ds :: rev ds)) as -> by congruence.
      apply array_octets in Ea. destruct Ea as [-> _].
      assert (Y : HP (PInt (big_endian ds)) = HInt (big_endian (rev ds))).
      { apply (HQ (fun x l' => x = HInt (big_endian (rev ds)))). cbn [decode_mms_value]. apply gives_ret.
        replace (zlen ds) with (zlen (rev ds)) by (unfold zlen; rewrite rev_length; reflexivity).
        rewrite <- (app_nil_r (rev ds)) at 2.
        eapply wp_mono; [apply decode_long_integer_run; [apply Forall_rev; exact Hd|]|].
        - unfold zlen. rewrite rev_length. exact Hl.
        - intros r l' p' (-> & _). reflexivity. }
      apply sup_size; auto. apply big_endian_inj.
      * apply rev_length.
      * apply Forall_rev. exact Hd.
      * exact Hd.
      * unfold HInt in Y. congruence.
  - congruence.
Qed.
Print Assumptions C50_exact.
Example C50_exact_case : HeaderRoundTrip (str "Message-Size") (HInt 257) /\
  HeaderRoundTrip [9; 65] (HStr (str "text")) /\ ~ HeaderRoundTrip [9; 200] (HStr (str "text")) /\
  ~ HeaderRoundTrip (str "Priority") (HStr (str "High")).
Proof.
  split; [|split; [|split]].
  - apply C50_exact; [discriminate|]. apply (sup_size [1; 1]); try reflexivity.
    + repeat constructor; lia.
    + cbn. lia.
    + vm_compute. discriminate.
  - apply C50_exact; [discriminate|]. apply sup_other.
    + split; [vm_compute; intuition discriminate|]. split.
      * repeat constructor; try lia; vm_compute; intuition discriminate.
      * split; [right; cbn; lia|]. cbn. repeat constructor; lia.
    + split; [|cbn; lia]. unfold no_nul.
      let v := eval vm_compute in (str "text") in change (str "text") with v. repeat constructor; lia.
  - intros X. apply roundtrip_run in X. vm_compute in X. discriminate X.
  - intros X. apply roundtrip_run in X. vm_compute in X. exact X.
Qed.
