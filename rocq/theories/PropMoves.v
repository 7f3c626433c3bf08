(** C49: exactly when the decoders that can move on DecodeError do not. *)
From Coq Require Import Lia.
From Verif Require Import Py Iter Tables WspDec Message MmsDec SpecWsp SpecMms WspClaims
  PyFacts IterFacts MmsTotal WspFacts SpecReader ReaderFacts PropReader PropParam.
Open Scope Z_scope.

(** What [m] leaves when it raises DecodeError is what it was given just when the first
    octet of that satisfies [C]; the iterator was not looking ahead.  The octets left
    are in any case the last ones of those that were there. *)
Definition Stays_when {A} (m : ST piter A) (C : Z -> Prop) : Prop :=
  forall it, all_octets (remaining it) -> it_pos it = 0%nat ->
    fst (m it) = Err DecodeError ->
    exists b l, remaining it = b :: l /\
      (remaining (snd (m it)) = b :: l <-> C b) /\
      exists pre, b :: l = pre ++ remaining (snd (m it)).

Lemma stays_when_wp : forall A (m : ST piter A) C,
  (forall l, all_octets l -> wp m l 0 (fun r l' p' => r = Err DecodeError ->
     exists b r, l = b :: r /\ (l' = b :: r <-> C b) /\ exists pre, b :: r = pre ++ l')) ->
  Stays_when m C.
Proof.
  intros A m C H it Hl Hp E.
  destruct (H (remaining it) Hl it) as (r & it1 & l1 & p1 & Er & HR & HQ).
  { unfold R. rewrite Hp. repeat split; auto. apply Nat.le_0_l. }
  rewrite Er in *. cbn [fst snd] in *. destruct (HQ E) as (b & l & X). exists b, l.
  destruct HR as (R1 & _). unfold remaining at 2 3. rewrite R1. exact X.
Qed.

(** An octet gone is gone. *)
Lemma shorter : forall (b : Z) pre l l', l = pre ++ l' -> l' <> b :: l.
Proof.
  intros b pre l l' -> E. apply (f_equal (@length Z)) in E. cbn in E. rewrite app_length in E. lia.
Qed.

Lemma media_stays : Stays_when decode_well_known_media (fun b => 31 <= b <= 127).
Proof.
  apply stays_when_wp. intros l Hl. unfold decode_well_known_media. apply wp_bind.
  eapply wp_mono; [apply (wp_and _ _ _ _ _ _ (integer_sim l Hl) (safe_integer_value l 0%nat))|].
  cbv beta. intros r l1 p1 ((E & -> & Hl1) & pre & El & Hr).
  destruct l as [|b l].
  { cbn in E. apply out_inj in E as [-> ->]. discriminate. }
  unfold an_integer, a_long_integer in E.
  destruct r as [n|e].
  - destruct pre as [|b' pre]; [cbn in Hr; lia|]. injection El as <- El.
    assert (Hb : ~ 31 <= b <= 127).
    { intros Hb. destruct (Z.leb_spec 128 b); [lia|]. destruct (Z.leb_spec b 30); [lia|]. discriminate. }
    unfold content_type_at. destruct (n <? zlen well_known_content_types); wsteps; [discriminate|].
    intros _. exists b, l. split; [reflexivity|]. split; [|exists (b :: pre); rewrite El; reflexivity].
    split; [intros X; contradiction (shorter b pre l l1 El X)|intros X; contradiction].
  - intros [= ->]. exists b, l. split; [reflexivity|]. split; [|exists pre; exact El].
    destruct (Z.leb_spec 128 b); [discriminate|]. destruct (Z.leb_spec b 30).
    + exfalso. unfold shown, and_then, next_octets in E.
      destruct (2 ^ 63 <=? b); [discriminate|]. destruct (b <=? n_octets l); discriminate.
    + injection E as ->. split; [lia|reflexivity].
Qed.

Lemma parameter_stays : forall version,
  Stays_when (decode_well_known_parameter_in version) (fun b => 31 <= b <= 127).
Proof.
  intros version. apply stays_when_wp. intros l Hl. unfold decode_well_known_parameter_in.
  apply wp_bind.
  eapply wp_mono; [apply (wp_and _ _ _ _ _ _ (integer_sim l Hl) (safe_integer_value l 0%nat))|].
  cbv beta. intros r l1 p1 ((E & -> & Hl1) & pre & El & Hr).
  destruct l as [|b l].
  { cbn in E. apply out_inj in E as [-> ->]. discriminate. }
  unfold an_integer, a_long_integer in E.
  destruct r as [n|e].
  - destruct pre as [|b' pre]; [cbn in Hr; lia|]. injection El as <- El.
    assert (Hb : ~ 31 <= b <= 127).
    { intros Hb. destruct (Z.leb_spec 128 b); [lia|]. destruct (Z.leb_spec b 30); [lia|]. discriminate. }
    assert (G : exists b0 r, b :: l = b0 :: r /\ (l1 = b0 :: r <-> 31 <= b0 <= 127) /\
                  exists pre0, b0 :: r = pre0 ++ l1).
    { exists b, l. split; [reflexivity|]. split; [|exists (b :: pre); rewrite El; reflexivity].
      split; [intros X; contradiction (shorter b pre l l1 El X)|intros X; contradiction]. }
    apply wp_bind, wp_lift. destruct (get_well_known_parameters version) as [d|e]; [|auto].
    destruct (d_get Z.eqb n d); wsteps; auto; discriminate.
  - intros [= ->]. exists b, l. split; [reflexivity|]. split; [|exists pre; exact El].
    destruct (Z.leb_spec 128 b); [discriminate|]. destruct (Z.leb_spec b 30).
    + exfalso. unfold shown, and_then, next_octets in E.
      destruct (2 ^ 63 <=? b); [discriminate|]. destruct (b <=? n_octets l); discriminate.
    + injection E as ->. split; [lia|reflexivity].
Qed.

(** A value length that is refused costs nothing; otherwise an octet is gone. *)
Lemma length_cases : forall b l, all_octets (b :: l) ->
  wp decode_value_length (b :: l) 0 (fun r l' p' => p' = 0%nat /\
    if b <=? 31 then r <> Err DecodeError /\ exists pre, l = pre ++ l'
    else r = Err DecodeError /\ l' = b :: l).
Proof.
  intros b l Hl.
  eapply wp_mono; [apply (wp_and _ _ _ _ _ _ (value_length_sim _ Hl) (safe_value_length _ 0%nat))|].
  cbv beta. intros r l1 p1 ((E & -> & Hl1) & pre & El & Hr). split; [reflexivity|].
  unfold a_value_length in E. destruct (Z.leb_spec b 30).
  - apply out_inj in E as [-> ->]. destruct (Z.leb_spec b 31); [|lia]. split; [discriminate|].
    exists []. reflexivity.
  - destruct (Z.eqb_spec b 31) as [->|N].
    + cbn [Z.leb Z.compare Pos.compare Pos.compare_cont]. unfold a_uintvar in E.
      destruct (up_to (fun b => b <? 128) l) as [[[ds d] r0]|] eqn:U; apply out_inj in E as [-> ->].
      * split; [discriminate|]. destruct pre as [|x pre]; [cbn in Hr; lia|]. injection El as _ El.
        exists pre. exact El.
      * split; [discriminate|]. exists l. rewrite app_nil_r. reflexivity.
    + apply out_inj in E as [-> ->]. destruct (Z.leb_spec b 31); [lia|]. auto.
Qed.

Lemma accept_stays : Stays_when decode_accept_value (fun b => b = 127).
Proof.
  apply stays_when_wp. intros l Hl. unfold decode_accept_value. apply wp_catch.
  eapply wp_mono; [apply (wp_and _ _ _ _ _ _ (constrained_media_sim l Hl) (safe_constrained_media l 0%nat))|].
  cbv beta. intros r l1 p1 ((E & -> & Hl1) & pre & El & Hr).
  destruct l as [|b l].
  { cbn in E. apply out_inj in E as [-> ->]. discriminate. }
  destruct r as [a|e]; [discriminate|]. destruct e; try discriminate. cbn [exn_eqb].
  unfold constrained_media, media_by_name in E.
  assert (K : safe wsp_exn 1
    (_ <~ decode_value_length ;;
     media <~ st_catch decode_well_known_media DecodeError decode_extension_media ;;
     b <~ preview ;;
     _ <~ (if b =? 128 then
             _ <~ next ;;
             _ <~ decode_q_value ;;
             st_catch (_ <~ decode_parameter ;; st_ret tt) DecodeError
                      (st_ret tt)
           else st_ret tt) ;;
     _ <~ reset_preview ;;
     st_ret media) /\ forall n : Z, safe wsp_exn 0
    (media <~ st_catch decode_well_known_media DecodeError decode_extension_media ;;
     b <~ preview ;;
     _ <~ (if b =? 128 then
             _ <~ next ;;
             _ <~ decode_q_value ;;
             st_catch (_ <~ decode_parameter ;; st_ret tt) DecodeError
                      (st_ret tt)
           else st_ret tt) ;;
     _ <~ reset_preview ;;
     st_ret media)).
  { assert (K : forall n : Z, safe wsp_exn 1
    (media <~ st_catch decode_well_known_media DecodeError decode_extension_media ;;
     b <~ preview ;;
     _ <~ (if b =? 128 then
             _ <~ next ;;
             _ <~ decode_q_value ;;
             st_catch (_ <~ decode_parameter ;; st_ret tt) DecodeError
                      (st_ret tt)
           else st_ret tt) ;;
     _ <~ reset_preview ;;
     st_ret media)).
    { intros _. apply (safe_bind _ _ _ 1 0).
      { apply (safe_catch_wsp _ 1 1); [apply safe_well_known_media|apply safe_extension_media]. }
      intros m. apply (safe_bind _ _ _ 0 0); [safe_tac|]. intros c.
      apply (safe_bind _ _ _ 0 0).
      { destruct (c =? 128); [|apply safe_ret].
        eapply safe_weaken with (k := 1%nat) (E := wsp_exn); [|auto|lia].
        apply (safe_bind _ _ _ 1 0); [safe_tac|]. intros _.
        apply (safe_bind _ _ _ 0 0).
        - eapply safe_weaken; [apply safe_q_value|auto|lia].
        - intros _. apply (safe_catch_wsp _ 1 0); [|apply safe_ret].
          apply safe_map. apply safe_parameter. }
      intros _. apply (safe_bind _ _ _ 0 0); [safe_tac|]. intros _. safe_tac. }
    split.
    - apply (safe_bind _ _ _ 0 1); [eapply safe_weaken; [apply safe_value_length|auto|lia]|exact K].
    - intros n. eapply safe_weaken; [apply (K n)|auto|lia]. }
  destruct K as [K1 K2].
  destruct (Z.leb_spec 128 b).
  - (* the number is not assigned *)
    assert (l1 = l) as ->.
    { unfold media_by_number in E. destruct (media_shown (b - 128)); [discriminate|].
      injection E as <-. reflexivity. }
    eapply wp_mono; [apply K1|]. cbv beta. intros r l2 p2 (pre2 & E2 & _) _.
    exists b, l. split; [reflexivity|]. split; [|exists (b :: pre2); rewrite E2 at 1; reflexivity].
    split; [intros X; contradiction (shorter b pre2 l l2 E2 X)|lia].
  - destruct ((32 <=? b) && negb (b =? 127)) eqn:Q.
    { exfalso. unfold to_zero in E. destruct (up_to (Z.eqb 0) (b :: l)) as [[[s z] r0]|]; discriminate. }
    injection E as ->. apply wp_bind. eapply wp_mono; [apply length_cases; exact Hl|]. cbv beta.
    intros r l2 p2 (-> & H2). destruct (Z.leb_spec b 31).
    + destruct H2 as [N (pre2 & E2)].
      assert (G : forall l3 pre3, l2 = pre3 ++ l3 -> exists b0 r0, b :: l = b0 :: r0 /\
                (l3 = b0 :: r0 <-> b0 = 127) /\ exists pre0, b0 :: r0 = pre0 ++ l3).
      { intros l3 pre3 E3. exists b, l. subst l2. rewrite app_assoc in E2. split; [reflexivity|].
        split; [|exists (b :: pre2 ++ pre3); rewrite E2 at 1; reflexivity].
        split; [intros X; contradiction (shorter b _ l l3 E2 X)|lia]. }
      destruct r as [n|e].
      * eapply wp_mono; [apply (K2 n)|]. cbv beta. intros r l3 p3 (pre3 & E3 & _) _.
        exact (G l3 pre3 E3).
      * intros _. exact (G l2 [] eq_refl).
    + destruct H2 as [-> ->]. intros _. exists b, l. split; [reflexivity|].
      split; [|exists []; reflexivity]. split; [|reflexivity]. intros _. lia.
Qed.

Lemma pragma_stays : Stays_when decode_pragma_value (fun b => 32 <= b).
Proof.
  apply stays_when_wp. intros l Hl. unfold decode_pragma_value. apply wp_bind, wp_preview.
  destruct l as [|b l]; cbn [nth_error]; [discriminate|].
  destruct (b =? 128); [wsteps; discriminate|].
  apply wp_bind, wp_reset. apply wp_bind. eapply wp_mono; [apply length_cases; exact Hl|]. cbv beta.
  intros r l2 p2 (-> & H2). destruct (Z.leb_spec b 31).
  - destruct H2 as [N (pre2 & E2)].
    assert (G : forall l3 pre3, l2 = pre3 ++ l3 -> exists b0 r0, b :: l = b0 :: r0 /\
              (l3 = b0 :: r0 <-> 32 <= b0) /\ exists pre0, b0 :: r0 = pre0 ++ l3).
    { intros l3 pre3 E3. exists b, l. subst l2. rewrite app_assoc in E2. split; [reflexivity|].
      split; [|exists (b :: pre2 ++ pre3); rewrite E2 at 1; reflexivity].
      split; [intros X; contradiction (shorter b _ l l3 E2 X)|lia]. }
    destruct r as [n|e].
    + eapply wp_mono; [apply safe_parameter|]. cbv beta. intros r l3 p3 (pre3 & E3 & _) _.
      exact (G l3 pre3 E3).
    + intros _. exact (G l2 [] eq_refl).
  - destruct H2 as [-> ->]. intros _. exists b, l. split; [reflexivity|].
    split; [|exists []; reflexivity]. split; [lia|reflexivity].
Qed.

Lemma field_numbers : forall n,
  match d_get Z.eqb n mms_field_names with Some _ => 1 <= n <= 24 | None => ~ 1 <= n <= 24 end.
Proof.
  intros n.
  assert (D : 1 <= n <= 24 \/ ~ 1 <= n <= 24) by lia. destruct D as [D|D].
  - replace n with (Z.of_nat (Z.to_nat n)) by lia.
    assert (E : (Z.to_nat n <= 24)%nat) by lia. assert (F : (1 <= Z.to_nat n)%nat) by lia.
    set (k := Z.to_nat n) in *. clearbody k.
    do 25 (destruct k as [|k]; [try lia; vm_compute; split; discriminate|]). lia.
  - unfold mms_field_names. cbn [d_get].
    repeat match goal with |- context [if n =? ?c then _ else _] =>
      destruct (Z.eqb_spec n c); [subst; exfalso; apply D; lia|] end. exact D.
Qed.

Lemma mms_header_stays : Stays_when decode_mms_header (fun b => ~ 129 <= b <= 152).
Proof.
  apply stays_when_wp. intros l Hl. unfold decode_mms_header.
  apply wp_bind, wp_preview. destruct l as [|b l]; cbn [nth_error]; [discriminate|].
  pose proof Hl as Hl'. apply octets_cons in Hl as [Hb Hl].
  apply wp_bind, wp_lift. unfold decode_short_integer_from_byte. rewrite land_128 by exact Hb.
  destruct (Z.ltb_spec b 128).
  - intros _. exists b, l. split; [reflexivity|]. split; [|exists []; reflexivity].
    split; [lia|reflexivity].
  - rewrite land_127_octet by lia. pose proof (field_numbers (b - 128)) as F.
    destruct (d_get Z.eqb (b - 128) mms_field_names) as [[name t]|].
    + apply wp_bind, wp_next. apply wp_bind, as_runtime_error_wp.
      eapply wp_mono; [apply (safe_mms_value t l 0%nat)|]. cbv beta. intros r l1 p1 (pre & E & _).
      destruct r as [v|e]; [wsteps; discriminate|]. destruct e; try discriminate. intros _.
      exists b, l. split; [reflexivity|]. split; [|exists (b :: pre); rewrite E at 1; reflexivity].
      split; [intros X; contradiction (shorter b pre l l1 E X)|lia].
    + wsteps. intros _. exists b, l. split; [reflexivity|]. split; [|exists []; reflexivity].
      split; [lia|reflexivity].
Qed.

(** C49 for the decoders that can move: what they leave on DecodeError is all they were
    given just when the first octet is one of these.  Otherwise they leave fewer octets.
    A media type and a parameter are numbers, and a number that has been read is not
    given back; [decode_accept_value] reads one as well unless the octet is 127;
    [decode_pragma_value] does not give back a length; and [decode_mms_header] does not
    give back the number of a field (129 to 152) whose value is refused. *)
Theorem C49_exact :
  Stays_when decode_well_known_media (fun b => 31 <= b <= 127) /\
  (forall version,
   Stays_when (decode_well_known_parameter_in version) (fun b => 31 <= b <= 127)) /\
  Stays_when decode_accept_value (fun b => b = 127) /\
  Stays_when decode_pragma_value (fun b => 32 <= b) /\
  Stays_when decode_mms_header (fun b => ~ 129 <= b <= 152).
Proof.
  split; [exact media_stays|]. split; [exact parameter_stays|]. split; [exact accept_stays|].
  split; [exact pragma_stays|exact mms_header_stays].
Qed.
Print Assumptions C49_exact.
(** Both sides occur. *)
Example C49_exact_case :
  let left {A} (m : ST piter A) l := (fst (m (new_iter l)), remaining (snd (m (new_iter l)))) in
  left decode_well_known_media [65; 0] = (Err DecodeError, [65; 0]) /\
  left decode_well_known_media [255; 65] = (Err DecodeError, [65]) /\
  left decode_accept_value [127; 1] = (Err DecodeError, [127; 1]) /\
  left decode_accept_value [255; 65; 0] = (Err DecodeError, [65; 0]) /\
  left decode_pragma_value [65; 0] = (Err DecodeError, [65; 0]) /\
  left decode_pragma_value [2; 255; 1; 0] = (Err DecodeError, [1; 0]) /\
  left decode_mms_header [153; 1] = (Err DecodeError, [153; 1]) /\
  left decode_mms_header [134; 1] = (Err DecodeError, [1]).
Proof. vm_compute. repeat split. Qed.
