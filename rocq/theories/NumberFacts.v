(** Proofs about telephone numbers. *)
From Coq Require Import Lia ZifyBool ZifyNat.
From Verif Require Import Py PyFacts SpecPack SpecAddress Utils PackFacts Submit.
Open Scope Z_scope.
Ltac Zify.zify_post_hook ::= Z.div_mod_to_equations.

Lemma semi_octets_octet ds os : semi_octets ds os -> Forall octet os.
Proof.
  induction 1; repeat constructor; unfold octet; try lia; assumption.
Qed.

Lemma semi_octets_length ds os : semi_octets ds os -> zlen os = (zlen ds + 1) / 2.
Proof.
  induction 1 as [|a Ha|a b ds os Ha Hb H IH]; [reflexivity|reflexivity|].
  rewrite !zlen_cons, IH. lia.
Qed.

Lemma semi_octets_inj ds os : semi_octets ds os ->
  forall ds', semi_octets ds' os -> ds = ds'.
Proof.
  induction 1 as [|a Ha|a b ds os Ha Hb H IH]; intros ds' H'.
  - now inversion H'.
  - remember [a + 16 * 15] as o eqn:Eo.
    destruct H' as [|a' Ha'|a' b' ds2 os2 Ha' Hb' Hr]; [discriminate| |];
      [assert (a' + 16 * 15 = a + 16 * 15) by congruence; f_equal; lia|
       assert (a' + 16 * b' = a + 16 * 15) by congruence; exfalso; lia].
  - remember (a + 16 * b :: os) as o eqn:Eo.
    destruct H' as [|a' Ha'|a' b' ds2 os2 Ha' Hb' Hr]; [discriminate| |].
    + assert (a' + 16 * 15 = a + 16 * b) by congruence. exfalso; lia.
    + assert (a' + 16 * b' = a + 16 * b /\ os2 = os) as [E1 ->] by (split; congruence).
      assert (a' = a /\ b' = b) as [-> ->] by lia. f_equal. f_equal. auto.
Qed.

Lemma semi_octets_digits ds os : semi_octets ds os -> Forall (fun d => 0 <= d <= 9) ds.
Proof. induction 1; repeat constructor; try lia; assumption. Qed.

(** Two-step induction. *)
Lemma pairs_ind {A} (P : list A -> Prop) :
  P [] -> (forall a, P [a]) -> (forall a b l, P l -> P (a :: b :: l)) -> forall l, P l.
Proof.
  intros H0 H1 H2 l. cut (P l /\ forall a, P (a :: l)); [tauto|].
  induction l as [|x l [I1 I2]]; split; auto.
Qed.

Lemma semi_octets_exists ds : Forall (fun d => 0 <= d <= 9) ds -> exists os, semi_octets ds os.
Proof.
  induction ds as [|a|a b l IH] using pairs_ind; intros H.
  - exists []. constructor.
  - inversion H; subst. eexists. constructor. lia.
  - inversion H as [|? ? Ha H']; inversion H' as [|? ? Hb H'']; subst.
    destruct (IH H'') as [os Ho]. eexists. constructor; eauto.
Qed.

Lemma swapped_two a b : digit_char a -> digit_char b ->
  swapped_octet [a; b] = Ok (digit_value a + 16 * digit_value b).
Proof.
  unfold digit_char, digit_value. intros Ha Hb.
  pose proof (range_sweep 100 (fun k =>
    match swapped_octet [48 + k / 10; 48 + k mod 10] with
    | Ok o => o =? k / 10 + 16 * (k mod 10) | Err _ => false end) eq_refl
    ((a - 48) * 10 + (b - 48)) ltac:(lia)) as S. cbn beta in S.
  replace (48 + ((a - 48) * 10 + (b - 48)) / 10) with a in S by lia.
  replace (48 + ((a - 48) * 10 + (b - 48)) mod 10) with b in S by lia.
  destruct (swapped_octet [a; b]) as [o|]; [|discriminate]. f_equal. lia.
Qed.

Lemma swapped_filler a : digit_char a ->
  swapped_octet [a; 70] = Ok (digit_value a + 16 * 15).
Proof.
  unfold digit_char, digit_value. intros Ha.
  pose proof (range_sweep 10 (fun k =>
    match swapped_octet [48 + k; 70] with
    | Ok o => o =? k + 240 | Err _ => false end) eq_refl (a - 48) ltac:(lia)) as S.
  cbn beta in S. replace (48 + (a - 48)) with a in S by lia.
  destruct (swapped_octet [a; 70]) as [o|]; [|discriminate]. f_equal. lia.
Qed.

Lemma swapped_octets_spec ds : Forall digit_char ds ->
  exists os,
    mapM swapped_octet
      (chunks2 (if negb (zlen ds mod 2 =? 0) then ds ++ [70] else ds)) = Ok os /\
    semi_octets (map digit_value ds) os.
Proof.
  induction ds as [|a|a b l IH] using pairs_ind; intros H.
  - exists []. split; [reflexivity|constructor].
  - inversion H as [|? ? Ha _]; subst. cbn -[swapped_octet].
    rewrite swapped_filler by assumption. eexists. split; [reflexivity|].
    constructor. unfold digit_char, digit_value in *. lia.
  - inversion H as [|? ? Ha H']; inversion H' as [|? ? Hb H'']; subst.
    destruct (IH H'') as (os & E & S).
    replace (zlen (a :: b :: l) mod 2) with (zlen l mod 2) by (rewrite !zlen_cons; lia).
    exists (digit_value a + 16 * digit_value b :: os). split.
    + destruct (negb (zlen l mod 2 =? 0)); cbn [app chunks2 mapM];
        rewrite swapped_two by assumption; cbn [bind]; rewrite E; reflexivity.
    + cbn [map]. constructor; [| |assumption]; unfold digit_char, digit_value in *; lia.
Qed.

Lemma drop_space_keep c l : is_space c = false -> drop_space (c :: l) = c :: l.
Proof. intros H. cbn. now rewrite H. Qed.

Lemma digit_not_space c : digit_char c -> is_space c = false.
Proof. unfold digit_char, is_space. lia. Qed.

Lemma last_digit ds : Forall digit_char ds -> (0 < length ds)%nat ->
  exists i c, ds = i ++ [c] /\ digit_char c.
Proof.
  intros H Hl. destruct (exists_last (l := ds)) as (i & c & ->); [now destruct ds; cbn in *; [lia|]|].
  exists i, c. split; [reflexivity|]. apply Forall_app in H as [_ H]. now inversion H.
Qed.

Lemma clean_number_syntax intl ds s : number_syntax intl ds s ->
  clean_number s = (if intl then [43] else []) ++ ds.
Proof.
  intros (Hd & Hl & nl & Hnl & ->). unfold clean_number, py_strip.
  destruct (last_digit ds Hd) as (i & c & E & Hc); [lia|].
  set (body := (if intl then [43] else []) ++ ds).
  assert (exists b r, body = b :: r /\ is_space b = false) as (b & r & Eb & Hb).
  { unfold body. destruct intl; cbn [app]; [eexists _, _; split; reflexivity|].
    destruct ds as [|d ds']; [cbn in Hl; lia|]. eexists _, _; split; [reflexivity|].
    apply digit_not_space. now inversion Hd. }
  rewrite (app_assoc _ ds nl). fold body.
  assert (drop_space (body ++ nl) = body ++ nl) as ->.
  { rewrite Eb. cbn [app]. now apply drop_space_keep. }
  assert (drop_space (rev (body ++ nl)) = rev body) as ->.
  { assert (drop_space (rev body) = rev body) as Er.
    { unfold body. rewrite E, app_assoc, rev_app_distr. cbn [rev app].
      apply drop_space_keep. now apply digit_not_space. }
    destruct Hnl as [->| ->]; [now rewrite app_nil_r|].
    rewrite rev_app_distr. cbn [rev app]. exact Er. }
  rewrite rev_involutive.
  assert (Forall (fun x => negb (x =? 32) = true) body) as Hf.
  { unfold body. apply Forall_app. split.
    - destruct intl; repeat constructor.
    - eapply Forall_impl; [|exact Hd]. unfold digit_char. intros; lia. }
  clear -Hf. clearbody body.
  induction Hf as [|x l Hx _ IH]; cbn; [reflexivity|]. rewrite Hx. now f_equal.
Qed.

(** * Validation *)

Lemma is_digit_char c : is_digit c = true <-> digit_char c.
Proof. unfold is_digit, digit_char. lia. Qed.

Lemma forallb_digits ds : forallb is_digit ds = true <-> Forall digit_char ds.
Proof.
  rewrite forallb_forall, Forall_forall. split; intros H x Hx; apply is_digit_char; auto.
Qed.

Lemma valid_number_spec s : valid_number s = true <-> exists intl ds, number_syntax intl ds s.
Proof.
  unfold valid_number. split.
  - intros H.
    set (t := match s with c :: r => if c =? 43 then r else s | [] => s end) in *.
    assert (exists intl : bool, s = (if intl then [43] else []) ++ t) as [intl Es].
    { unfold t. destruct s as [|c r]; [exists false; reflexivity|].
      destruct (c =? 43) eqn:E; [exists true|exists false; reflexivity].
      apply Z.eqb_eq in E. now subst. }
    set (ds := match rev t with c :: r => if c =? 10 then rev r else t | [] => t end) in *.
    assert (exists nl, (nl = [] \/ nl = [10]) /\ t = ds ++ nl) as (nl & Hnl & Et).
    { unfold ds. destruct (rev t) as [|c r] eqn:E; [exists []; now rewrite app_nil_r; auto|].
      destruct (c =? 10) eqn:E10; [|exists []; now rewrite app_nil_r; auto].
      exists [10]. split; [auto|]. apply Z.eqb_eq in E10. subst c.
      rewrite <- (rev_involutive t), E. reflexivity. }
    exists intl, ds. rewrite !andb_true_iff, forallb_digits in H.
    split; [tauto|]. split; [unfold zlen in H; lia|]. exists nl. split; [assumption|].
    rewrite Es, Et. reflexivity.
  - intros (intl & ds & Hd & Hl & nl & Hnl & ->).
    destruct (last_digit ds Hd) as (i & c & E & Hc); [lia|].
    assert (match (if intl then [43] else []) ++ ds ++ nl with
            | c :: r => if c =? 43 then r else (if intl then [43] else []) ++ ds ++ nl
            | [] => (if intl then [43] else []) ++ ds ++ nl end = ds ++ nl) as ->.
    { destruct intl; [reflexivity|]. cbn [app]. destruct ds as [|d ds']; [cbn in Hl; lia|].
      cbn [app]. inversion Hd as [|? ? Hdd _]; subst. unfold digit_char in Hdd.
      now replace (d =? 43) with false by lia. }
    assert (match rev (ds ++ nl) with
            | c :: r => if c =? 10 then rev r else ds ++ nl | [] => ds ++ nl end = ds) as ->.
    { destruct Hnl as [->| ->].
      - rewrite app_nil_r, E, rev_app_distr. cbn [rev app]. unfold digit_char in Hc.
        now replace (c =? 10) with false by lia.
      - rewrite rev_app_distr. cbn [rev app]. apply rev_involutive. }
    rewrite !andb_true_iff, forallb_digits. unfold zlen. repeat split; [assumption|lia|lia].
Qed.

(** * The address parts of a PDU *)

Lemma encode_str_bytes l : encode_str l = encode_bytes l.
Proof. reflexivity. Qed.

Lemma phone_pdu_spec s intl ds n :
  s_number s = Some n -> number_syntax intl ds n ->
  exists os, semi_octets (map digit_value ds) os /\
    get_phone_pdu s = Ok (hex_of (zlen ds :: address_type intl :: os)).
Proof.
  intros En Hn. unfold get_phone_pdu. rewrite En, (clean_number_syntax _ _ _ Hn).
  destruct Hn as (Hd & Hl & _).
  destruct (swapped_octets_spec ds Hd) as (os & E & S). exists os. split; [exact S|].
  assert (Forall octet (zlen ds :: address_type intl :: os)) as Ho.
  { constructor; [unfold octet, zlen; lia|]. constructor; [unfold octet, address_type; destruct intl; lia|].
    eapply semi_octets_octet; eassumption. }
  rewrite hex_of_encode by exact Ho. destruct intl.
  - cbn [app]. replace (py_index (43 :: ds) 0) with (Ok 43) by reflexivity. cbn [bind].
    change (43 =? 43) with true. cbn iota.
    change (py_from (43 :: ds) 1) with ds. rewrite E. cbn [bind].
    rewrite py_chr_octet by (inversion Ho; assumption). reflexivity.
  - destruct ds as [|d ds']; [cbn in Hl; lia|]. cbn [app].
    replace (py_index (d :: ds') 0) with (Ok d) by reflexivity. cbn [bind].
    inversion Hd as [|? ? Hdd _]; subst. unfold digit_char in Hdd.
    replace (d =? 43) with false by lia. rewrite E. cbn [bind].
    rewrite py_chr_octet by (inversion Ho; assumption). reflexivity.
Qed.

Lemma smsc_pdu_spec s intl ds n :
  s_csca s = Some n -> number_syntax intl ds n ->
  exists os, semi_octets (map digit_value ds) os /\
    get_smsc_pdu s = Ok (hex_of (1 + zlen os :: address_type intl :: os)).
Proof.
  intros En Hn. unfold get_smsc_pdu.
  pose proof (clean_number_syntax _ _ _ Hn) as Ec. rewrite En, Ec.
  assert (n <> []) as Hne.
  { destruct Hn as (_ & Hl & nl & _ & ->). destruct ds; [cbn in Hl; lia|]. destruct intl; discriminate. }
  destruct n as [|n0 n']; [congruence|]. clear Hne.
  assert (py_strip (n0 :: n') <> []) as Hs.
  { intros C. unfold clean_number in Ec. rewrite C in Ec. cbn in Ec.
    destruct Hn as (_ & Hl & _). destruct ds; [cbn in Hl; lia|]. destruct intl; discriminate. }
  destruct (py_strip (n0 :: n')); [congruence|]. clear Hs.
  destruct Hn as (Hd & Hl & _).
  destruct (swapped_octets_spec ds Hd) as (os & E & S). exists os. split; [exact S|].
  pose proof (semi_octets_length _ _ S) as Hos. unfold zlen in Hos at 2. rewrite map_length in Hos.
  assert (Forall octet (1 + zlen os :: address_type intl :: os)) as Ho.
  { constructor; [unfold octet; lia|]. constructor; [unfold octet, address_type; destruct intl; lia|].
    eapply semi_octets_octet; eassumption. }
  rewrite hex_of_encode by exact Ho. destruct intl.
  - cbn [app]. replace (py_index (43 :: ds) 0) with (Ok 43) by reflexivity. cbn [bind].
    change (43 =? 43) with true. cbn iota.
    change (py_from (43 :: ds) 1) with ds. rewrite E. cbn [bind].
    rewrite zlen_cons, py_chr_octet by (inversion Ho; assumption). reflexivity.
  - destruct ds as [|d ds']; [cbn in Hl; lia|]. cbn [app].
    replace (py_index (d :: ds') 0) with (Ok d) by reflexivity. cbn [bind].
    inversion Hd as [|? ? Hdd _]; subst. unfold digit_char in Hdd.
    replace (d =? 43) with false by lia. rewrite E. cbn [bind].
    rewrite zlen_cons, py_chr_octet by (inversion Ho; assumption). reflexivity.
Qed.

(** * Reading numbers back *)

Lemma swap_number_semi ds os : semi_octets ds os ->
  swap_number (hex_of os) = map (fun d => 48 + d) ds.
Proof.
  unfold swap_number. induction 1 as [|a Ha|a b ds os Ha Hb H IH]; [reflexivity| |].
  - cbn [hex_of]. replace ((a + 16 * 15) / 16) with 15 by lia.
    replace ((a + 16 * 15) mod 16) with a by lia.
    change (hex_digit 15) with 102.
    unfold hex_digit. replace (a <? 10) with true by lia.
    cbn [filter]. change (negb (102 =? 102)) with false. cbn iota.
    replace (negb (48 + a =? 102)) with true by lia. reflexivity.
  - cbn [hex_of]. replace ((a + 16 * b) / 16) with b by lia.
    replace ((a + 16 * b) mod 16) with a by lia.
    unfold hex_digit. replace (a <? 10) with true by lia. replace (b <? 10) with true by lia.
    cbn [filter]. replace (negb (48 + a =? 102)) with true by lia.
    replace (negb (48 + b =? 102)) with true by lia. cbn [swap map]. now rewrite IH.
Qed.
