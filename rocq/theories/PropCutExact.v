(** Theorems of property C83: what becomes of a message cut at each place. *)
From Coq Require Import Lia ZifyBool ZifyNat.
From Verif Require Import Py Iter Tables WspDec WspEnc Message MmsEnc MmsDec SpecWsp SpecMms WspClaims GrammarClaims
  PyFacts IterFacts WspFacts MmsTotal HeaderFacts GrammarFacts CutFacts PropGrammar PropCut.
Open Scope Z_scope.

(** * Texts without an end *)

Definition runs_out {A} : res A -> list Z -> nat -> Prop :=
  fun r l' _ => r = Err StopIteration /\ l' = [].

Lemma text_runs_out : forall f b l p, (length l < f)%nat -> ~ In 0 (b :: l) ->
  wp (text_loop f b) l p runs_out.
Proof.
  induction f as [|f IH]; intros b l p Hf H; [lia|]. cbn [text_loop].
  replace (b =? 0) with false by (cbn in H; lia).
  destruct l as [|c l]; [wsteps; split; reflexivity|]. wsteps.
  eapply wp_mono; [apply IH; [cbn in Hf; lia|cbn in H |- *; tauto]|].
  intros r l' p' (-> & ->). split; reflexivity.
Qed.

Lemma token_runs_out : forall f b l p, (length l < f)%nat ->
  Forall (fun c => token_char c = true) (b :: l) -> wp (token_loop f b) l p runs_out.
Proof.
  induction f as [|f IH]; intros b l p Hf H; [lia|]. cbn [token_loop].
  rewrite (Forall_inv H). apply Forall_inv_tail in H.
  destruct l as [|c l]; [wsteps; split; reflexivity|]. wsteps.
  eapply wp_mono; [apply IH; [cbn in Hf; lia|exact H]|].
  intros r l' p' (-> & ->). split; reflexivity.
Qed.

Lemma string_runs_out : forall l p, ~ In 0 l -> wp decode_text_string l p runs_out.
Proof.
  intros l p H. unfold decode_text_string. destruct l as [|b l]; [wsteps; split; reflexivity|]. wsteps.
  destruct (b =? 127).
  - destruct l as [|c l]; [wsteps; split; reflexivity|]. wsteps. apply text_runs_out; [lia|].
    cbn in H |- *. tauto.
  - wsteps. apply text_runs_out; [lia|exact H].
Qed.

Lemma prefix_no_nul : forall s cut rest, no_nul s -> s ++ [0] = cut ++ rest -> rest <> [] -> ~ In 0 cut.
Proof.
  intros s cut rest H E Hr X. destruct (exists_last Hr) as (r' & z & ->).
  rewrite app_assoc in E. apply app_inj_tail in E. destruct E as [-> _].
  unfold no_nul in H. rewrite Forall_app in H. destruct H as [H _].
  rewrite Forall_forall in H. apply H in X. lia.
Qed.

Lemma string_cut : forall s l cut rest, Text_string s l -> l = cut ++ rest -> rest <> [] -> ~ In 0 cut.
Proof.
  intros s l cut rest H E Hr. destruct H as [s [H _] _|s [H _] _].
  - eapply prefix_no_nul; eauto.
  - destruct cut as [|c cut]; [intros []|]. injection E as <- E. intros [X|X]; [discriminate|].
    revert X. eapply prefix_no_nul; eauto.
Qed.

(** * Fields cut short *)

Lemma application_head : forall c c' r Q, 32 < c < 127 -> 0 <= c' < 127 ->
  wp decode_application_header (c :: c' :: r) 0 Q -> wp decode_header (c :: c' :: r) 0 Q.
Proof.
  intros c c' r Q Hc Hc' H. unfold decode_header. apply wp_catch. unfold decode_mms_header.
  wsteps. unfold decode_short_integer_from_byte.
  rewrite land_128 by lia. replace (c <? 128) with true by lia. cbn [exn_eqb].
  unfold wsp_decode_header. apply wp_refused_catch; [|exact H].
  unfold decode_well_known_header. apply wp_bind.
  eapply wp_mono; [apply short_integer_second; lia|].
  intros r' l' p' (-> & -> & ->). repeat split.
Qed.

Lemma application_cut : forall name t s l cut rest, Token_text name t -> Text_string s l ->
  t ++ l = cut ++ rest -> rest <> [] -> (2 <= length cut)%nat -> wp decode_header cut 0 runs_out.
Proof.
  intros name t s l cut rest Ht Hs E Hr H2.
  destruct (token_text_head _ _ Ht) as (c & c' & r & E' & Hc & Hc').
  destruct cut as [|d [|d' cut]]; try (cbn in H2; lia). rewrite E' in E. cbn [app] in E.
  assert (d = c) by congruence. assert (d' = c') by congruence. subst d d'.
  apply application_head; [exact Hc|exact Hc'|].
  assert (E2 : t ++ l = (c :: c' :: cut) ++ rest) by (rewrite E'; exact E). clear E H2.
  remember (c :: c' :: cut) as u eqn:Eu.
  unfold decode_application_header. destruct Ht as [s0 Ht]. destruct (token_chars s0 Ht) as (_ & Htc & Htr).
  rewrite <- app_assoc in E2. destruct (app_eq_app _ _ _ _ E2) as (v & [[Es Ev]|[Es Ev]]).
  - rewrite Es, Forall_app in Htc. destruct Htc as [Htc _].
    apply wp_bind. apply wp_catch. subst u. unfold decode_token_text. wsteps.
    rewrite (Forall_inv Htc). cbn [negb]. wsteps.
    eapply wp_mono; [apply token_runs_out; [lia|exact Htc]|].
    intros r0 l' p' (-> & ->). cbn. split; reflexivity.
  - destruct v as [|z u'].
    + rewrite app_nil_r in Es. rewrite Es in *. clear Es.
      apply wp_bind. apply wp_catch. subst s0. unfold decode_token_text. wsteps.
      rewrite (Forall_inv Htc). cbn [negb]. wsteps.
      eapply wp_mono; [apply token_runs_out; [lia|exact Htc]|].
      intros r0 l' p' (-> & ->). cbn. split; reflexivity.
    + cbn [app] in Ev. assert (z = 0) by congruence. subst z.
      assert (El : l = u' ++ rest) by congruence.
      assert (Hu : u = (s0 ++ [0]) ++ u') by (rewrite <- app_assoc; exact Es).
      rewrite Hu. eapply wp_seq; [apply wp_becomes_catch; apply token_text_read; constructor; exact Ht|].
      apply wp_bind. eapply wp_mono; [apply string_runs_out; eapply string_cut; eauto|].
      intros r0 l' p' (-> & ->). split; reflexivity.
Qed.

Lemma cut_mms_header : cut_ok ends_field decode_mms_header.
Proof.
  unfold decode_mms_header. apply cut_bind; [apply cut_preview; left; reflexivity|]. intros q.
  apply cut_bind; [apply cut_lift|]. intros b. destruct (d_get Z.eqb b mms_field_names) as [[name t]|].
  - apply cut_bind; [apply cut_next; left; reflexivity|]. intros _.
    apply cut_bind; [apply cut_runtime, cut_mms_value|]. intros. apply cut_ret.
  - apply cut_bind; [apply cut_reset|]. intros _. apply cut_err.
Qed.

Lemma numbered_no_stop : forall c l, 128 <= c ->
  wp decode_mms_header (c :: l) 0 (fun r _ _ => r <> Err StopIteration).
Proof.
  intros c l Hc. unfold decode_mms_header. wsteps. unfold decode_short_integer_from_byte.
  destruct (Z.land c 128 =? 0); [wsteps; discriminate|]. wsteps.
  destruct (d_get Z.eqb (Z.land c 127) mms_field_names) as [[name t]|]; [|wsteps; discriminate].
  wsteps. eapply wp_mono; [apply safe_runtime, safe_mms_value|].
  intros r l' p' (pre & _ & H). destruct r as [v|e]; [wsteps; discriminate|].
  destruct H as [->| ->]; discriminate.
Qed.

Lemma numbered_cut : forall c l h cut rest,
  wp decode_mms_header ((c :: l) ++ []) 0 (becomes h []) -> 128 <= c ->
  l = cut ++ rest -> rest <> [] ->
  wp decode_header (c :: cut) 0 (fun r _ _ => r = Err RuntimeError).
Proof.
  intros c l h cut rest W Hc -> Hr. unfold decode_header. apply wp_catch. intros it HR.
  destruct (numbered_no_stop c cut Hc it HR) as (r & it' & l' & p' & E & HR' & Hns).
  exists r, it', l', p'. split; [exact E|]. split; [exact HR'|].
  assert (R1 : R (new_iter (c :: cut ++ rest)) (c :: cut ++ rest) 0) by apply R_new.
  destruct (cut_mms_header rest (c :: cut) 0%nat _ it R1 HR)
    as [(e & i & E1 & He)|(r1 & i1 & i2 & l1 & p1 & E1 & E2 & S1 & S2)].
  - rewrite E in E1. injection E1 as -> <-. destruct He as [->| ->]; [congruence|]. cbn [exn_eqb]. reflexivity.
  - exfalso. rewrite app_nil_r in W. destruct (W _ R1) as (r2 & i3 & l2 & p2 & E3 & S3 & -> & -> & ->).
    rewrite E1 in E3. injection E3 as -> ->. destruct (R_det _ _ _ _ _ S1 S3) as [X _].
    apply app_eq_nil in X. tauto.
Qed.

(** * The header *)

Lemma head_tail : forall fs fl, Sequence Read_field fs fl -> exists D,
  shows_dict shows (fun k => d_get leqb k default_headers) fs D /\
  forall tail Q, (forall g, wp decode_header tail 0 (fun r l1 p1 => wp (after_header g D r) l1 p1 Q)) ->
    wp decode_message_header (fl ++ tail) 0 Q.
Proof.
  intros fs fl H. destruct (fields_read fs fl H) as (L & HL & Hw).
  exists (put L default_headers). split; [exact (put_shows _ _ _ _ _ default_headers HL)|].
  intros tail Q HQ. unfold decode_message_header. apply wp_fuelled.
  assert (Hl : (length fs <= length fl)%nat).
  { eapply sequence_length; [|exact H]. intros ? ? ? [X _]. eapply field_ne. exact X. }
  replace (S (length (fl ++ tail))) with (length fs + S (length (fl ++ tail) - length fs))%nat
    by (rewrite app_length; lia).
  apply Hw. apply header_step. apply HQ.
Qed.

Lemma header_raises : forall fs fl tail, Sequence Read_field fs fl ->
  wp decode_header tail 0 (fun r _ _ => r = Err RuntimeError) ->
  decode_data (fl ++ tail) = Err RuntimeError.
Proof.
  intros fs fl tail H W. destruct (head_tail fs fl H) as (D & _ & Hw).
  rewrite decode_data_run. unfold decoding.
  match goal with |- fst (?m _) = _ =>
    destruct (wp_fst _ m (fl ++ tail) (fun r _ _ => r = Err RuntimeError)) as (r & l & p & E & ->) end;
    [|exact E].
  apply wp_bind. apply Hw. intros g. eapply wp_mono; [exact W|]. intros r l p ->. cbn [after_header].
  wsteps. reflexivity.
Qed.

Lemma body_runs_out : forall p, wp decode_message_body [] p (becomes [] []).
Proof.
  intros p. eapply wp_then with (m := decode_uint_var)
    (j := fun r => match r with
                   | Err StopIteration => st_ret []
                   | Err e => st_err e
                   | Ok n => _ <~ xrange_check n ;; fuelled (fun f => parts_loop f n)
                   end).
  - intros it. unfold decode_message_body.
    destruct (decode_uint_var it) as [[n|e] it']; [reflexivity|destruct e; reflexivity].
  - unfold decode_uint_var. wsteps. apply becomes_intro.
Qed.

Lemma text_field_cut : forall fs fl tail, Sequence Read_field fs fl ->
  wp decode_header tail 0 runs_out ->
  exists m, decode_data (fl ++ tail) = Ok m /\ shows_message fs [] m.
Proof.
  intros fs fl tail H W. destruct (head_tail fs fl H) as (D & HD & Hw).
  exists (Message D [] [] 176 220). split; [|split; [exact HD|split; [constructor|reflexivity]]].
  assert (X : wp decoding (fl ++ tail) 0 (becomes (Message D [] [] 176 220) [])).
  { apply wp_bind. apply Hw. intros g. eapply wp_mono; [exact W|]. intros r l p (-> & ->). cbn [after_header].
    wsteps. eapply wp_mono; [apply body_runs_out|]. intros r l' p' (-> & -> & ->). wsteps. apply becomes_intro. }
  rewrite decode_data_run. destruct (wp_fst _ _ _ _ X) as (r & l & p & E & -> & _). exact E.
Qed.

(** One octet of a name is taken for the number of parts. *)
Lemma first_octet : forall fs fl c, Sequence Read_field fs fl -> 32 < c < 127 ->
  decode_data (fl ++ [c]) = Err StopIteration.
Proof.
  intros fs fl c H Hc. destruct (head_tail fs fl H) as (D & _ & Hw).
  assert (X : wp decoding (fl ++ [c]) 0 (fun r _ _ => r = Err StopIteration)).
  { apply wp_bind. apply Hw. intros g. unfold decode_header. apply wp_catch. unfold decode_mms_header.
    wsteps. unfold decode_short_integer_from_byte.
    rewrite land_128 by lia. replace (c <? 128) with true by lia. cbn [exn_eqb].
    unfold wsp_decode_header. apply wp_catch. unfold decode_well_known_header, decode_short_integer.
    wsteps. cbn [exn_eqb]. wsteps. cbn [after_header]. wsteps.
    eapply wp_then with (m := decode_uint_var)
      (j := fun r => match r with
                     | Err StopIteration => st_ret []
                     | Err e => st_err e
                     | Ok n => _ <~ xrange_check n ;; fuelled (fun f => parts_loop f n)
                     end).
    { intros it. unfold decode_message_body.
      destruct (decode_uint_var it) as [[n|e] it']; [reflexivity|destruct e; reflexivity]. }
    unfold decode_uint_var. wsteps. cbn [length uint_var_loop]. cbv zeta.
    rewrite Z.shiftr_div_pow2 by lia. change (2 ^ 7) with 128. rewrite Z.div_small by lia. cbn [Z.eqb].
    rewrite land_127. rewrite Z.shiftl_0_l, Z.lor_0_l, Z.mod_small by lia.
    wsteps. unfold xrange_check. replace (maxint <? c) with false by (unfold maxint; lia). wsteps.
    cbn [length parts_loop]. replace (0 <? c) with true by lia.
    unfold decode_part, decode_uint_var. wsteps. reflexivity. }
  rewrite decode_data_run. destruct (wp_fst _ _ _ _ X) as (r & l & p & E & ->). exact E.
Qed.

Lemma count_cut : forall fs fl media ps ct n nl n1 n2,
  Sequence Read_field fs fl -> Read_type media ps ct -> n_octets ct <= maxint ->
  Uintvar n nl -> nl = n1 ++ n2 -> n2 <> [] ->
  exists m, decode_data (fl ++ (132 :: ct) ++ n1) = Ok m /\
    shows_message (fs ++ [(str "Content-Type", Media_type media ps)]) [] m.
Proof.
  intros fs fl media ps ct n nl n1 n2 Hf Hc L1 Hn En Hne.
  destruct (head_runs fs fl media ps ct Hf Hc L1) as (D & HD & Hw).
  exists (Message D [] [] 176 220). split; [|split; [exact HD|split; [constructor|reflexivity]]].
  rewrite decode_data_run. unfold decoding, st_bind at 1.
  destruct (Hw n1 _ (R_new _)) as (r & it & l & p & E1 & R1 & -> & -> & ->). rewrite E1.
  unfold st_bind, decode_message_body.
  assert (R2 : R (new_iter (n1 ++ n2)) (n1 ++ n2) 0) by apply R_new.
  destruct (cut_uint_var n2 n1 0%nat _ it R2 R1) as [(e & i & E4 & ->)|(r & i1 & i2 & l & p & E4 & E5 & R4 & R5)].
  - rewrite E4. reflexivity.
  - exfalso. rewrite <- En in R2.
    assert (W := uintvar_read n nl 0%nat [] Hn). rewrite app_nil_r in W.
    destruct (W _ R2) as (r' & i1' & l' & p' & E6 & R6 & -> & -> & ->).
    rewrite <- En in E4. rewrite E4 in E6. injection E6 as -> ->. destruct (R_det _ _ _ _ _ R4 R6) as [X _].
    apply app_eq_nil in X. tauto.
Qed.

Lemma type_cut : forall fs fl media ps ct c1 c2,
  Sequence Read_field fs fl -> Read_type media ps ct -> n_octets ct <= maxint -> ct = c1 ++ c2 -> c2 <> [] ->
  decode_data (fl ++ 132 :: c1) = Err RuntimeError.
Proof.
  intros fs fl media ps ct c1 c2 Hf Hc Hl E Hne. apply header_raises with fs; [exact Hf|].
  destruct (content_type_read _ _ _ Hc Hl) as (d & Hd & Hcw).
  eapply numbered_cut with (rest := c2) (h := (str "Content-Type", HType media d)); [|lia|exact E|exact Hne].
  eapply (field_at_both 132 (str "Content-Type") MContentType (HType media d) ct []); [lia|reflexivity| |cbn; lia].
  cbn [decode_mms_value]. eapply wp_seq; [apply Hcw|]. cbv beta iota. wsteps. apply becomes_intro.
Qed.

Lemma field_cut_numbered : forall fs fl name v f1 f2,
  Sequence Read_field fs fl -> Read_field name v (f1 ++ f2) -> f1 <> [] -> f2 <> [] -> 128 <= hd 0 f1 ->
  decode_data (fl ++ f1) = Err RuntimeError.
Proof.
  intros fs fl name v f1 f2 Hf H H1 H2 Hh. apply header_raises with fs; [exact Hf|].
  destruct f1 as [|c f1]; [congruence|]. cbn [hd] in Hh.
  destruct (field_runs _ _ _ H) as (h & _ & Hw). destruct (Hw []) as [_ W].
  eapply numbered_cut with (rest := f2) (l := f1 ++ f2) (h := (name, h));
    [apply W; exact Hh|exact Hh|reflexivity|exact H2].
Qed.

(** A field of the standard begins with a number from 128 up or is an
    application header. *)
Lemma field_kinds : forall name v l, Field name v l -> 128 <= hd 0 l \/
  exists s t l', Token_text name t /\ Text_string s l' /\ l = t ++ l'.
Proof.
  intros name v l H. destruct H as [name c s l Hn _|name c s l Hn _|t l _|name c b Hn
    |name c t l n vl Hn _ _ _|name c k l n vl Hn _ _ _|s l n vl _ _ _|vl _|name c table b s Hn _|s l _|s l Hv
    |n l _|name s l t Ht Hn Hs]; try (left; cbn [hd]; lia).
  all: try (left; each Hn; cbn [hd]; lia).
  right. eauto 8.
Qed.

Lemma sequence_cut : forall fs l, Sequence Read_field fs l -> forall cut rest, l = cut ++ rest ->
  (exists fs1 fs2, fs = fs1 ++ fs2 /\ Sequence Read_field fs1 cut /\ Sequence Read_field fs2 rest) \/
  (exists fs1 name v fs2 fl1 f1 f2 fl2, fs = fs1 ++ (name, v) :: fs2 /\ Sequence Read_field fs1 fl1 /\
     Read_field name v (f1 ++ f2) /\ Sequence Read_field fs2 fl2 /\ f1 <> [] /\ f2 <> [] /\
     cut = fl1 ++ f1 /\ rest = f2 ++ fl2).
Proof.
  intros fs l H. induction H as [|name v l fs r H Hs IH]; intros cut rest E.
  - symmetry in E. apply app_eq_nil in E. destruct E as [-> ->]. left. exists [], [].
    repeat split; constructor.
  - destruct (app_eq_app _ _ _ _ E) as (w & [[El Er]|[El Er]]).
    + subst l rest. destruct cut as [|c cut].
      { left. exists [], ((name, v) :: fs). split; [reflexivity|]. split; [constructor|].
        cbn [app] in *. constructor; assumption. }
      destruct w as [|z w].
      { left. exists [(name, v)], fs. rewrite app_nil_r in H. split; [reflexivity|]. split; [|exact Hs].
        rewrite <- (app_nil_r (c :: cut)). constructor; [exact H|constructor]. }
      right. exists [], name, v, fs, [], (c :: cut), (z :: w), r.
      repeat split; try discriminate; try exact (proj1 H); try exact (proj2 H); try constructor; exact Hs.
    + subst cut. destruct (IH w rest Er) as
        [(fs1 & fs2 & -> & H1 & H2)|(fs1 & name' & v' & fs2 & fl1 & f1 & f2 & fl2 & -> & H1 & H2 & H3 & N1 & N2 & -> & ->)].
      * left. exists ((name, v) :: fs1), fs2. split; [reflexivity|]. split; [|exact H2]. constructor; assumption.
      * right. exists ((name, v) :: fs1), name', v', fs2, (l ++ fl1), f1, f2, fl2.
        split; [reflexivity|]. split; [constructor; assumption|]. rewrite <- app_assoc. auto 8.
Qed.

(** * C83: every place to cut a message at *)

(** A message of the fields [fs] (octets [fl]), the content type [media] with the
    parameters [ps] (octets [ct]) and the number of parts (octets [nl]), and the
    places to cut it at where it will be accepted, with the fields that are left:
    between two fields; in a field with a textual name, after its second octet; in
    or right before the number of parts. *)
Inductive accepted_cut fs fl media ps ct nl : list (list Z * value) -> list Z -> Prop :=
| ac_between : forall fs1 fs2 fl1 fl2, fs = fs1 ++ fs2 -> fl = fl1 ++ fl2 ->
    Sequence Read_field fs1 fl1 -> Sequence Read_field fs2 fl2 ->
    accepted_cut fs fl media ps ct nl fs1 fl1
| ac_name : forall fs1 name v fs2 fl1 f1 f2 fl2,
    fs = fs1 ++ (name, v) :: fs2 -> fl = fl1 ++ (f1 ++ f2) ++ fl2 ->
    Sequence Read_field fs1 fl1 -> Read_field name v (f1 ++ f2) -> Sequence Read_field fs2 fl2 ->
    (2 <= length f1)%nat -> hd 0 f1 < 128 -> f2 <> [] ->
    accepted_cut fs fl media ps ct nl fs1 (fl1 ++ f1)
| ac_number : forall n1 n2, nl = n1 ++ n2 -> n2 <> [] ->
    accepted_cut fs fl media ps ct nl (fs ++ [(str "Content-Type", Media_type media ps)])
      (fl ++ (132 :: ct) ++ n1).

(** A cut message is accepted in just these places, shown without parts and with
    just the fields before the cut; in all other places it is refused with
    StopIteration or RuntimeError. *)
Theorem C83_exact : forall fs fl media ps ct n nl es el cut rest,
  Sequence Read_field fs fl -> Read_type media ps ct -> Uintvar n nl -> n = Z.of_nat (length es) ->
  Entries (Multipart_entry Read_type Read_part_header) es el ->
  n_octets (fl ++ (132 :: ct) ++ nl ++ el) <= maxint ->
  fl ++ (132 :: ct) ++ nl ++ el = cut ++ rest -> rest <> [] ->
  (exists left, accepted_cut fs fl media ps ct nl left cut /\
     exists m, decode_data cut = Ok m /\ shows_message left [] m) \/
  ((forall left, ~ accepted_cut fs fl media ps ct nl left cut) /\
     (decode_data cut = Err StopIteration \/ decode_data cut = Err RuntimeError)).
Proof.
  intros fs fl media ps ct n nl es el cut rest Hf Hc Hn En He Hl El Hr.
  assert (L1 : n_octets ct <= maxint).
  { unfold n_octets in *. rewrite !app_length in Hl. cbn [length] in Hl. lia. }
  assert (Acc : forall left, accepted_cut fs fl media ps ct nl left cut ->
    exists m, decode_data cut = Ok m /\ shows_message left [] m).
  { intros left H. destruct H as [fs1 fs2 fl1 fl2 -> -> H1 H2|fs1 name v fs2 fl1 f1 f2 fl2 -> -> H1 H2 H3 L N1 N2|n1 n2 E N].
    - apply bare_read. exact H1.
    - apply text_field_cut; [exact H1|]. destruct (field_kinds _ _ _ (proj1 H2)) as [X|(s & t & l' & Ht & Hs & E)].
      + destruct f1; cbn in *; lia.
      + eapply application_cut; eauto.
    - eapply count_cut; eauto. }
  assert (D : (exists left, accepted_cut fs fl media ps ct nl left cut) \/
    (decode_data cut = Err StopIteration \/ decode_data cut = Err RuntimeError)).
  { destruct (app_eq_app _ _ _ _ El) as (w & [[E1 E2]|[E1 E2]]).
    - destruct (sequence_cut _ _ Hf _ _ E1) as
        [(fs1 & fs2 & E & H1 & H2)|(fs1 & name & v & fs2 & fl1 & f1 & f2 & fl2 & E & H1 & H2 & H3 & N1 & N2 & Ec & Er)].
      + left. exists fs1. eapply ac_between; eauto.
      + subst cut. destruct (Z.leb_spec 128 (hd 0 f1)) as [X|X].
        { right. right. eapply field_cut_numbered; eauto. }
        destruct f1 as [|c [|c' f1]]; [congruence| |].
        * right. left. eapply first_octet; [exact H1|].
          destruct (field_kinds _ _ _ (proj1 H2)) as [Y|(s & t & l' & Ht & Hs & Et)]; [cbn in *; lia|].
          destruct (token_text_head _ _ Ht) as (d & d' & r & -> & Hd & _). cbn [app] in Et.
          assert (c = d) by congruence. lia.
        * left. exists fs1. eapply ac_name; eauto; [|cbn; lia].
          subst fl w. rewrite <- !app_assoc. reflexivity.
    - destruct w as [|z w].
      { left. exists fs. rewrite app_nil_r in E1. subst cut.
        apply ac_between with (fs2 := []) (fl2 := []); [now rewrite app_nil_r|now rewrite app_nil_r|exact Hf|constructor]. }
      cbn [app] in E2. assert (z = 132) by congruence. subst z.
      assert (E3 : ct ++ nl ++ el = w ++ rest) by congruence. clear E2.
      assert (Hnl : nl <> []).
      { intros ->. assert (W := uintvar_read n [] 0%nat [] Hn). destruct (W _ (R_new _)) as (? & ? & ? & ? & X & _ & Y & _).
        subst. discriminate X. }
      destruct (app_eq_app _ _ _ _ E3) as (x & [[F1 F2]|[F1 F2]]).
      + destruct x as [|y x].
        * rewrite app_nil_r in F1. subst w. left.
          exists (fs ++ [(str "Content-Type", Media_type media ps)]). subst cut.
          rewrite <- (app_nil_r (132 :: ct)). apply ac_number with nl; [reflexivity|exact Hnl].
        * right. right. subst cut. eapply type_cut; eauto. discriminate.
      + destruct (app_eq_app _ _ _ _ F2) as (y & [[G1 G2]|[G1 G2]]).
        * destruct y as [|y0 y].
          { rewrite app_nil_r in G1. subst x w cut. right. left. cbn [app] in G2.
            rewrite <- (app_nil_r (132 :: ct ++ nl)).
            change (132 :: ct ++ nl) with ((132 :: ct) ++ nl). rewrite <- !app_assoc.
            eapply C83_body_partial; eauto. }
          left. exists (fs ++ [(str "Content-Type", Media_type media ps)]). subst w cut.
          change (132 :: ct ++ x) with ((132 :: ct) ++ x). apply ac_number with (y0 :: y); [exact G1|discriminate].
        * right. left. subst x w cut.
          change (132 :: ct ++ nl ++ y) with ((132 :: ct) ++ nl ++ y).
          eapply C83_body_partial; eauto. }
  destruct D as [(left & H)|D].
  - left. exists left. split; [exact H|apply Acc; exact H].
  - right. split; [|exact D]. intros left H. destruct (Acc left H) as (m & E & _).
    destruct D as [D|D]; rewrite D in E; discriminate.
Qed.
Print Assumptions C83_exact.

(** A message with an application header and no parts: cut in the value of that
    header it is accepted with the field before it, cut after the first octet of
    its name it is refused. *)
Definition traced : list (list Z * value) :=
  [(str "Message-Type", Text (str "m-retrieve-conf")); (str "X-Trace", Text (str "12"))].
Definition traced_octets : list Z := [140; 132] ++ ((str "X-Trace" ++ [0]) ++ (str "12" ++ [0])) ++ [].
Example C83_exact_case :
  Sequence Read_field traced traced_octets /\
  accepted_cut traced traced_octets (str "application/vnd.wap.multipart.mixed") [] [163] [0]
    [(str "Message-Type", Text (str "m-retrieve-conf"))] ([140; 132] ++ (str "X-Trace" ++ [0; 49])) /\
  (exists m, decode_data ([140; 132] ++ (str "X-Trace" ++ [0; 49])) = Ok m /\
     h_get (str "X-Trace") (m_headers m) = None) /\
  decode_data ([140; 132] ++ str "X") = Err StopIteration /\
  decode_data [140] = Err RuntimeError /\
  decode_data (traced_octets ++ [132]) = Err RuntimeError.
Proof.
  assert (F1 : Read_field (str "Message-Type") (Text (str "m-retrieve-conf")) [140; 132]).
  { split; [|apply not_misread; [cbn; lia|discriminate]].
    eapply f_code with (table := message_type_names); cbn; tauto. }
  assert (F2 : Read_field (str "X-Trace") (Text (str "12")) ((str "X-Trace" ++ [0]) ++ (str "12" ++ [0]))).
  { split; [|apply not_misread; [cbn; lia|discriminate]].
    apply f_application; [constructor; split; [discriminate|chars]|vm_compute; discriminate|plain]. }
  split; [|split; [|split; [|repeat split; vm_compute; reflexivity]]].
  - apply seq_cons; [exact F1|]. apply seq_cons; [exact F2|constructor].
  - apply ac_name with (name := str "X-Trace") (v := Text (str "12")) (fs2 := []) (f2 := [50; 0]) (fl2 := []);
      [reflexivity|reflexivity| |exact F2|constructor|cbn; lia|cbn; lia|discriminate].
    rewrite <- (app_nil_r [140; 132]). apply seq_cons; [exact F1|constructor].
  - eexists. split; [vm_compute; reflexivity|]. vm_compute. reflexivity.
Qed.
