(** Decoders on data that was cut: what a decoder does on a prefix of the data is
    what it does on the whole data, unless it runs into the end. *)
From Coq Require Import Lia ZifyBool ZifyNat.
From Verif Require Import Py Iter Tables WspDec Message MmsDec SpecWsp WspClaims
  PyFacts IterFacts MmsTotal.
Open Scope Z_scope.

(** [m1] on [l ++ x] and [m2] on [l]: the second raises an exception of [E], or
    both end alike and leave [x] where it was. *)
Definition cuts {A} (E : exn -> Prop) (x l : list Z) (p : nat) (m1 m2 : ST piter A) : Prop :=
  forall it1 it2, R it1 (l ++ x) p -> R it2 l p ->
    (exists e it2', m2 it2 = (Err e, it2') /\ E e) \/
    (exists r it1' it2' l' p', m1 it1 = (r, it1') /\ m2 it2 = (r, it2') /\
       R it1' (l' ++ x) p' /\ R it2' l' p').

Definition cut_ok {A} (E : exn -> Prop) (m : ST piter A) : Prop :=
  forall x l p, cuts E x l p m m.

Definition ends (e : exn) : Prop := e = StopIteration.
Definition ends_field (e : exn) : Prop := e = StopIteration \/ e = RuntimeError.

Lemma R_det it l l' p p' : R it l p -> R it l' p' -> l = l' /\ p = p'.
Proof. intros (E & P & _) (E' & P' & _). split; congruence. Qed.

Lemma R_shorter it1 it2 l x p : R it1 (l ++ x) p -> R it2 l p -> (p <= length l)%nat.
Proof. intros _ (E & _ & H). rewrite <- E, app_length. lia. Qed.

Lemma cut_weaken A (E E' : exn -> Prop) (m : ST piter A) :
  (forall e, E e -> E' e) -> cut_ok E m -> cut_ok E' m.
Proof.
  intros HE H x l p it1 it2 H1 H2. destruct (H x l p it1 it2 H1 H2) as [(e & it & Em & He)|X];
    [left; eauto 6|right; exact X].
Qed.

Lemma cut_ret A E (a : A) : cut_ok E (st_ret a).
Proof. intros x l p it1 it2 H1 H2. right. exists (Ok a), it1, it2, l, p. auto. Qed.
Lemma cut_err A E e : cut_ok E (@st_err _ A e).
Proof. intros x l p it1 it2 H1 H2. right. exists (Err e), it1, it2, l, p. auto. Qed.
Lemma cut_lift A E (r : res A) : cut_ok E (st_lift r).
Proof. intros x l p it1 it2 H1 H2. right. exists r, it1, it2, l, p. auto. Qed.

Lemma cuts_bind A B E x l p (m1 m2 : ST piter A) (k1 k2 : A -> ST piter B) :
  cuts E x l p m1 m2 -> (forall a l' p', cuts E x l' p' (k1 a) (k2 a)) ->
  cuts E x l p (st_bind m1 k1) (st_bind m2 k2).
Proof.
  intros Hm Hk it1 it2 H1 H2. unfold st_bind.
  destruct (Hm it1 it2 H1 H2) as [(e & it & Em & He)|(r & i1 & i2 & l' & p' & E1 & E2 & R1 & R2)].
  - left. rewrite Em. eauto.
  - rewrite E1, E2. destruct r as [a|e].
    + exact (Hk a l' p' i1 i2 R1 R2).
    + right. exists (Err e), i1, i2, l', p'. auto.
Qed.

Lemma cut_bind A B E (m : ST piter A) (k : A -> ST piter B) :
  cut_ok E m -> (forall a, cut_ok E (k a)) -> cut_ok E (st_bind m k).
Proof. intros Hm Hk x l p. apply cuts_bind; [apply Hm|]. intros a l' p'. apply Hk. Qed.

Lemma next_run it l p : R it l p -> exists it',
  next it = (match l with [] => Err StopIteration | b :: _ => Ok b end, it') /\ R it' (tl l) 0.
Proof.
  intros H. destruct (wp_next l p (fun r l' p' => r = match l with [] => Err StopIteration | b :: _ => Ok b end
    /\ l' = tl l /\ p' = 0%nat)) with (it := it) as (r & it' & l' & p' & E & HR & -> & -> & ->); auto.
  - destruct l; auto.
  - eauto.
Qed.

Lemma cuts_next_bind B (E : exn -> Prop) x l p (k1 k2 : Z -> ST piter B) : E StopIteration ->
  (forall b l', l = b :: l' -> cuts E x l' 0 (k1 b) (k2 b)) ->
  cuts E x l p (st_bind next k1) (st_bind next k2).
Proof.
  intros HE Hk it1 it2 H1 H2. unfold st_bind.
  destruct (next_run _ _ _ H1) as (i1 & E1 & R1). destruct (next_run _ _ _ H2) as (i2 & E2 & R2).
  rewrite E1, E2. destruct l as [|b l]; [left; eauto|].
  cbn [app tl] in *. exact (Hk b l eq_refl i1 i2 R1 R2).
Qed.

Lemma cut_next (E : exn -> Prop) : E StopIteration -> cut_ok E next.
Proof.
  intros HE x l p it1 it2 H1 H2.
  destruct (next_run _ _ _ H1) as (i1 & E1 & R1). destruct (next_run _ _ _ H2) as (i2 & E2 & R2).
  rewrite E1, E2. destruct l as [|b l]; [left; eauto|]. right. exists (Ok b), i1, i2, l, 0%nat. auto.
Qed.

Lemma preview_run it l p : R it l p -> exists it',
  preview it = (match nth_error l p with None => Err StopIteration | Some b => Ok b end, it') /\
  R it' l (match nth_error l p with None => p | Some _ => S p end).
Proof.
  intros H. destruct (wp_preview l p (fun r l' p' => r = match nth_error l p with None => Err StopIteration | Some b => Ok b end
    /\ l' = l /\ p' = match nth_error l p with None => p | Some _ => S p end)) with (it := it) as (r & it' & l' & p' & E & HR & -> & -> & ->); auto.
  - destruct (nth_error l p); auto.
  - eauto.
Qed.

Lemma cut_preview (E : exn -> Prop) : E StopIteration -> cut_ok E preview.
Proof.
  intros HE x l p it1 it2 H1 H2.
  destruct (preview_run _ _ _ H1) as (i1 & E1 & R1). destruct (preview_run _ _ _ H2) as (i2 & E2 & R2).
  rewrite E1, E2. destruct (nth_error l p) as [b|] eqn:N; [|left; eauto].
  assert (p < length l)%nat by (apply nth_error_Some; congruence).
  rewrite nth_error_app1, N in E1, R1 |- * by assumption.
  right. exists (Ok b), i1, i2, l, (S p). auto.
Qed.

Lemma cut_reset E : cut_ok E reset_preview.
Proof.
  intros x l p it1 it2 (E1 & _ & _) (E2 & _ & _). right.
  exists (Ok tt), (Piter (it_rest it1) (it_cache it1) 0), (Piter (it_rest it2) (it_cache it2) 0), l, 0%nat.
  unfold R. cbn. repeat split; auto; lia.
Qed.

Lemma cut_catch A (E : exn -> Prop) (m h : ST piter A) : ~ E DecodeError ->
  cut_ok E m -> cut_ok E h -> cut_ok E (st_catch m DecodeError h).
Proof.
  intros HE Hm Hh x l p it1 it2 H1 H2. unfold st_catch.
  destruct (Hm x l p it1 it2 H1 H2) as [(e & it & Em & He)|(r & i1 & i2 & l' & p' & E1 & E2 & R1 & R2)].
  - left. rewrite Em. destruct e; cbn [exn_eqb]; eauto. contradiction.
  - rewrite E1, E2. destruct r as [a|e].
    + right. exists (Ok a), i1, i2, l', p'. auto.
    + destruct (exn_eqb DecodeError e).
      * exact (Hh x l' p' i1 i2 R1 R2).
      * right. exists (Err e), i1, i2, l', p'. auto.
Qed.

Lemma cut_fuelled A E (loop : nat -> ST piter A) :
  (forall f1 f2 x l p, (length l < f2)%nat -> (length (l ++ x) < f1)%nat ->
     cuts E x l p (loop f1) (loop f2)) -> cut_ok E (fuelled loop).
Proof.
  intros H x l p it1 it2 H1 H2. unfold fuelled.
  rewrite (R_left _ _ _ H1), (R_left _ _ _ H2). apply (H _ _ x l p); auto.
Qed.

Lemma cut_if A E (b : bool) (m1 m2 : ST piter A) : cut_ok E m1 -> cut_ok E m2 ->
  cut_ok E (if b then m1 else m2).
Proof. destruct b; auto. Qed.

Lemma cut_option A B E (o : option B) (m1 : B -> ST piter A) (m2 : ST piter A) :
  (forall b, cut_ok E (m1 b)) -> cut_ok E m2 ->
  cut_ok E (match o with Some b => m1 b | None => m2 end).
Proof. destruct o; auto. Qed.

(** ** The loops *)

Lemma cut_read_loop n : cut_ok ends (fuelled (fun f => read_loop f n)).
Proof.
  apply cut_fuelled. intros f1 f2. revert f1 n. induction f2 as [|f2 IH]; intros f1 n x l p H2 H1; [lia|].
  destruct f1 as [|f1]; [lia|]. cbn [read_loop]. destruct (0 <? n); [|apply cut_ret].
  apply cuts_next_bind; [reflexivity|]. intros b l' ->. cbn in H1, H2.
  apply cuts_bind; [apply IH; lia|]. intros. apply cut_ret.
Qed.

Lemma cut_read_n n : cut_ok ends (read_n n).
Proof.
  unfold read_n, xrange_check. apply cut_bind; [|intros; apply cut_read_loop].
  apply cut_if; [apply cut_err|apply cut_ret].
Qed.

Lemma cut_uint_var_loop u b : cut_ok ends (fuelled (fun f => uint_var_loop f u b)).
Proof.
  apply cut_fuelled. intros f1 f2. revert f1 u b. induction f2 as [|f2 IH]; intros f1 u b x l p H2 H1; [lia|].
  destruct f1 as [|f1]; [lia|]. cbn [uint_var_loop]. cbv zeta. destruct (Z.shiftr b 7 =? 1); [|apply cut_ret].
  apply cuts_next_bind; [reflexivity|]. intros b' l' ->. cbn in H1, H2. apply IH; lia.
Qed.

Lemma cut_text_loop b : cut_ok ends (fuelled (fun f => text_loop f b)).
Proof.
  apply cut_fuelled. intros f1 f2. revert f1 b. induction f2 as [|f2 IH]; intros f1 b x l p H2 H1; [lia|].
  destruct f1 as [|f1]; [lia|]. cbn [text_loop]. destruct (b =? 0); [apply cut_ret|].
  apply cuts_next_bind; [reflexivity|]. intros b' l' ->. cbn in H1, H2.
  apply cuts_bind; [apply IH; lia|]. intros. apply cut_ret.
Qed.

Lemma cut_token_loop b : cut_ok ends (fuelled (fun f => token_loop f b)).
Proof.
  apply cut_fuelled. intros f1 f2. revert f1 b. induction f2 as [|f2 IH]; intros f1 b x l p H2 H1; [lia|].
  destruct f1 as [|f1]; [lia|]. cbn [token_loop]. destruct (token_char b); [|apply cut_ret].
  apply cuts_next_bind; [reflexivity|]. intros b' l' ->. cbn in H1, H2.
  apply cuts_bind; [apply IH; lia|]. intros. apply cut_ret.
Qed.

(** ** The decoders of WSP *)

Create HintDb cut.
#[local] Hint Resolve cut_read_n cut_uint_var_loop cut_text_loop cut_token_loop : cut.

Ltac cut_tac :=
  match goal with
  | |- cut_ok _ (st_bind _ _) => apply cut_bind; [cut_tac | intros ?; cut_tac]
  | |- cut_ok _ (st_ret _) => apply cut_ret
  | |- cut_ok _ (st_err _) => apply cut_err
  | |- cut_ok _ (st_lift _) => apply cut_lift
  | |- cut_ok _ next => apply cut_next; reflexivity
  | |- cut_ok _ preview => apply cut_preview; reflexivity
  | |- cut_ok _ reset_preview => apply cut_reset
  | |- cut_ok _ (st_catch _ DecodeError _) => apply cut_catch; [discriminate|cut_tac|cut_tac]
  | |- cut_ok _ (if _ then _ else _) => apply cut_if; cut_tac
  | |- cut_ok _ (match ?o with _ => _ end) => destruct o; cut_tac
  | _ => solve [auto with cut]
  end.

Lemma cut_uint_var : cut_ok ends decode_uint_var.
Proof. unfold decode_uint_var. cut_tac. Qed.
Lemma cut_short_integer : cut_ok ends decode_short_integer.
Proof. unfold decode_short_integer. cut_tac. Qed.
Lemma cut_short_length : cut_ok ends decode_short_length.
Proof. unfold decode_short_length. cut_tac. Qed.
#[local] Hint Resolve cut_uint_var cut_short_integer cut_short_length : cut.
Lemma cut_long_integer : cut_ok ends decode_long_integer.
Proof. unfold decode_long_integer. cut_tac. Qed.
Lemma cut_text_string : cut_ok ends decode_text_string.
Proof. unfold decode_text_string. cut_tac. Qed.
#[local] Hint Resolve cut_long_integer cut_text_string : cut.
Lemma cut_quoted_string : cut_ok ends decode_quoted_string.
Proof. unfold decode_quoted_string. cut_tac. Qed.
Lemma cut_token_text : cut_ok ends decode_token_text.
Proof. unfold decode_token_text. cut_tac. Qed.
Lemma cut_extension_media : cut_ok ends decode_extension_media.
Proof. unfold decode_extension_media. cut_tac. Qed.
#[local] Hint Resolve cut_quoted_string cut_token_text cut_extension_media : cut.
Lemma cut_constrained_encoding : cut_ok ends decode_constrained_encoding.
Proof. unfold decode_constrained_encoding. cut_tac. Qed.
Lemma cut_value_length : cut_ok ends decode_value_length.
Proof. unfold decode_value_length. cut_tac. Qed.
Lemma cut_integer_value : cut_ok ends decode_integer_value.
Proof. unfold decode_integer_value. cut_tac. Qed.
Lemma cut_content_type_at n : cut_ok ends (content_type_at n).
Proof. unfold content_type_at. cut_tac. Qed.
#[local] Hint Resolve cut_constrained_encoding cut_value_length cut_integer_value cut_content_type_at : cut.
Lemma cut_well_known_media : cut_ok ends decode_well_known_media.
Proof. unfold decode_well_known_media. cut_tac. Qed.
#[local] Hint Resolve cut_well_known_media : cut.
Lemma cut_media_type : cut_ok ends decode_media_type.
Proof. unfold decode_media_type. cut_tac. Qed.
Lemma cut_constrained_media : cut_ok ends decode_constrained_media.
Proof. unfold decode_constrained_media. cut_tac. Qed.
Lemma cut_date_value : cut_ok ends decode_date_value.
Proof. unfold decode_date_value. cut_tac. Qed.
Lemma cut_q_value : cut_ok ends decode_q_value.
Proof. unfold decode_q_value. cut_tac. Qed.
Lemma cut_version_value : cut_ok ends decode_version_value.
Proof. unfold decode_version_value. cut_tac. Qed.
Lemma cut_text_value : cut_ok ends decode_text_value.
Proof. unfold decode_text_value. cut_tac. Qed.
Lemma cut_well_known_charset : cut_ok ends decode_well_known_charset.
Proof. unfold decode_well_known_charset. cut_tac. Qed.
#[local] Hint Resolve cut_media_type cut_constrained_media cut_date_value cut_q_value cut_version_value
  cut_text_value cut_well_known_charset : cut.
Lemma cut_untyped_value : cut_ok ends decode_untyped_value.
Proof. unfold decode_untyped_value. cut_tac. Qed.
Lemma cut_well_known_parameter : cut_ok ends decode_well_known_parameter.
Proof. unfold decode_well_known_parameter, decode_well_known_parameter_in. cut_tac. Qed.
Lemma cut_by_type t : cut_ok ends (decode_by_type t).
Proof. unfold decode_delta_seconds_value, decode_no_value. destruct t; cbn [decode_by_type];
  unfold decode_delta_seconds_value, decode_no_value; cut_tac. Qed.
#[local] Hint Resolve cut_untyped_value cut_well_known_parameter cut_by_type : cut.
Lemma cut_parameter : cut_ok ends decode_parameter.
Proof. unfold decode_parameter, decode_typed_parameter, decode_untyped_parameter. cut_tac. Qed.
#[local] Hint Resolve cut_parameter : cut.
Lemma cut_content_type_value : cut_ok ends decode_content_type_value.
Proof. unfold decode_content_type_value, decode_content_general_form. cut_tac. Qed.
Lemma cut_accept_value : cut_ok ends decode_accept_value.
Proof. unfold decode_accept_value. cut_tac. Qed.
Lemma cut_pragma_value : cut_ok ends decode_pragma_value.
Proof. unfold decode_pragma_value. cut_tac. Qed.
#[local] Hint Resolve cut_content_type_value cut_accept_value cut_pragma_value : cut.
Lemma cut_wsp_header : cut_ok ends wsp_decode_header.
Proof.
  unfold wsp_decode_header, decode_well_known_header, decode_application_header. cut_tac.
Qed.

(** ** The decoders of MMS *)

Lemma cut_encoded_string : cut_ok ends decode_encoded_string_value.
Proof. unfold decode_encoded_string_value. cut_tac. Qed.
#[local] Hint Resolve cut_encoded_string : cut.
Lemma cut_mms_value t : cut_ok ends (decode_mms_value t).
Proof.
  destruct t; cbn [decode_mms_value];
    unfold decode_uri_value, decode_boolean_value, decode_delivery_time_value, decode_expiry_value,
      decode_from_value, decode_message_class_value, decode_message_type_value, decode_priority_value,
      decode_response_status_value, decode_sender_visibility_value, decode_status_value,
      decode_delta_seconds_value; cut_tac.
Qed.

Lemma cut_runtime A (m : ST piter A) : cut_ok ends m -> cut_ok ends_field (as_runtime_error m).
Proof.
  intros H x l p it1 it2 H1 H2. unfold as_runtime_error.
  destruct (H x l p it1 it2 H1 H2) as [(e & it & Em & ->)|(r & i1 & i2 & l' & p' & E1 & E2 & R1 & R2)].
  - left. rewrite Em. exists RuntimeError, it. split; [reflexivity|right; reflexivity].
  - rewrite E1, E2. right. destruct r as [a|e]; [|destruct e];
      (do 5 eexists; split; [reflexivity|split; [reflexivity|split; eassumption]]).
Qed.

Lemma cut_header : cut_ok ends_field decode_header.
Proof.
  unfold decode_header. apply cut_catch; [intros [|]; discriminate| |].
  - unfold decode_mms_header. apply cut_bind; [apply cut_preview; left; reflexivity|]. intros q.
    apply cut_bind; [apply cut_lift|]. intros b. destruct (d_get Z.eqb b mms_field_names) as [[name t]|].
    + apply cut_bind; [apply cut_next; left; reflexivity|]. intros _.
      apply cut_bind; [apply cut_runtime, cut_mms_value|]. intros. apply cut_ret.
    + apply cut_bind; [apply cut_reset|]. intros _. apply cut_err.
  - eapply cut_weaken; [|apply cut_wsp_header]. intros e He. left. exact He.
Qed.

Lemma cut_part : cut_ok ends decode_part.
Proof. unfold decode_part. cut_tac. Qed.

(** What a run leaves, when the data is not exhausted. *)
Lemma safe_left A E k (m : ST piter A) it l p r it' : safe E k m -> R it l p -> m it = (r, it') ->
  exists l' p' pre, R it' l' p' /\ l = pre ++ l' /\
    match r with Ok _ => (k <= length pre)%nat | Err e => E e end.
Proof.
  intros H HR Em. destruct (H l p it HR) as (r0 & i & l' & p' & E0 & HR' & pre & El & Hr).
  rewrite Em in E0. injection E0 as <- <-. eauto 6.
Qed.

Lemma cuts_bind_safe A B E E' k x l p (m : ST piter A) (k1 k2 : A -> ST piter B) :
  cut_ok E m -> safe E' k m ->
  (forall a l' p', (length l' + k <= length l)%nat -> cuts E x l' p' (k1 a) (k2 a)) ->
  cuts E x l p (st_bind m k1) (st_bind m k2).
Proof.
  intros Hm Hs Hk it1 it2 H1 H2. unfold st_bind.
  destruct (Hm x l p it1 it2 H1 H2) as [(e & it & Em & He)|(r & i1 & i2 & l' & p' & E1 & E2 & R1 & R2)].
  - left. rewrite Em. eauto.
  - rewrite E1, E2. destruct r as [a|e].
    + destruct (safe_left _ _ _ _ _ _ _ _ _ Hs H2 E2) as (l2 & p2 & pre & R2' & El & Hp).
      destruct (R_det _ _ _ _ _ R2 R2') as [<- <-].
      refine (Hk a l' p' _ i1 i2 R1 R2). rewrite El, app_length. lia.
    + right. exists (Err e), i1, i2, l', p'. auto.
Qed.

Lemma cut_parts_loop n : cut_ok ends (fuelled (fun f => parts_loop f n)).
Proof.
  apply cut_fuelled. intros f1 f2. revert f1 n. induction f2 as [|f2 IH]; intros f1 n x l p H2 H1; [lia|].
  destruct f1 as [|f1]; [lia|]. cbn [parts_loop]. destruct (0 <? n); [|apply cut_ret].
  eapply cuts_bind_safe; [apply cut_part|apply safe_part|]. intros a l' p' Hl.
  rewrite app_length in H1.
  apply cuts_bind; [apply IH; rewrite ?app_length; lia|]. intros. apply cut_ret.
Qed.

(** ** The look-ahead *)

(** Started with a look-ahead of at most [j], [m] ends with one of at most [i], or
    of at most [e] when it raises DecodeError; and if [b] at most one octet is left
    when it runs into the end. *)
Definition low {A} (b : bool) (j i e : nat) (m : ST piter A) : Prop :=
  forall l p, (p <= j)%nat -> (p <= length l)%nat -> wp m l p (fun r l' p' => (p' <= length l')%nat /\
    match r with
    | Err StopIteration => b = true -> (length l' <= 1)%nat
    | Ok _ => (p' <= i)%nat
    | Err DecodeError => (p' <= e)%nat
    | _ => True
    end).

Lemma low_weaken A b j i e b' j' i' e' (m : ST piter A) : low b j i e m ->
  (b' = true -> b = true) -> (j' <= j)%nat -> (i <= i')%nat -> (e <= e')%nat -> low b' j' i' e' m.
Proof.
  intros H Hb Hj Hi He l p Hp Hl. eapply wp_mono; [apply H; lia|].
  intros r l' p' [Hp' X]. split; [exact Hp'|]. destruct r as [a|x]; [lia|destruct x; auto; lia].
Qed.
Lemma low_ret A b j i e (a : A) : (j <= i)%nat -> low b j i e (st_ret a).
Proof. intros H l p Hp Hl. wsteps. split; lia. Qed.
Lemma low_err A b j i e x : x <> StopIteration -> (x = DecodeError -> (j <= e)%nat) -> low b j i e (@st_err _ A x).
Proof. intros Hx He l p Hp Hl. wsteps. split; [exact Hl|]. destruct x; auto; try (specialize (He eq_refl); lia). congruence. Qed.
Lemma low_lift A j i e (r : res A) : (j <= i)%nat -> (j <= e)%nat -> low false j i e (st_lift r).
Proof.
  intros Hi He l p Hp Hl. wsteps. split; [exact Hl|]. destruct r as [|x]; [lia|destruct x; auto; try lia; discriminate].
Qed.
Lemma low_next b j e : low b j 0 e next.
Proof. intros l p Hp Hl. wsteps. destruct l; cbn; split; auto; intros; lia. Qed.
Lemma low_reset b j e : low b j 0 e reset_preview.
Proof. intros l p Hp Hl. wsteps. split; lia. Qed.
Lemma low_bind A B b j i i' e (m : ST piter A) (k : A -> ST piter B) :
  low b j i e m -> (forall a, low b i i' e (k a)) -> low b j i' e (st_bind m k).
Proof.
  intros Hm Hk l p Hp Hl. apply wp_bind. eapply wp_mono; [apply Hm; assumption|].
  intros r l' p' [Hp' X]. destruct r as [a|x]; [|auto]. apply Hk; assumption.
Qed.
Lemma low_preview b j e : (j <= 1)%nat -> low b j (S j) e preview.
Proof.
  intros Hj l p Hp Hl. wsteps. destruct (nth_error l p) eqn:N.
  - assert (p < length l)%nat by (apply nth_error_Some; congruence). split; lia.
  - apply nth_error_None in N. split; intros; lia.
Qed.
Lemma low_catch A b j i e e' (m h : ST piter A) : low b j i e m -> low b e i e' h ->
  low b j i e' (st_catch m DecodeError h).
Proof.
  intros Hm Hh l p Hp Hl. apply wp_catch. eapply wp_mono; [apply Hm; assumption|].
  intros r l' p' [Hp' X]. destruct r as [a|x]; [auto|]. destruct x; cbn [exn_eqb]; auto.
Qed.
Lemma low_if A b j i e (c : bool) (m1 m2 : ST piter A) : low b j i e m1 -> low b j i e m2 ->
  low b j i e (if c then m1 else m2).
Proof. destruct c; auto. Qed.
Lemma low_fuelled A b j i e (loop : nat -> ST piter A) :
  (forall f, low b j i e (loop f)) -> low b j i e (fuelled loop).
Proof. intros H l p Hp Hl. apply wp_fuelled. apply H; assumption. Qed.

Lemma low_read_loop b : forall f n, low b 0 0 0 (read_loop f n).
Proof.
  induction f as [|f IH]; intros n; cbn [read_loop]; apply low_if;
    try (apply low_err; [discriminate|first [discriminate|lia]]); try (apply low_ret; lia).
  eapply low_bind; [apply low_next|]. intros. eapply low_bind; [apply IH|]. intros. apply low_ret. lia.
Qed.
Lemma low_uint_loop b : forall f u c, low b 0 0 0 (uint_var_loop f u c).
Proof.
  induction f as [|f IH]; intros u c; cbn [uint_var_loop]; cbv zeta; apply low_if;
    try (apply low_err; [discriminate|first [discriminate|lia]]); try (apply low_ret; lia).
  eapply low_bind; [apply low_next|]. intros. apply IH.
Qed.
Lemma low_text_loop b : forall f c, low b 0 0 0 (text_loop f c).
Proof.
  induction f as [|f IH]; intros c; cbn [text_loop]; apply low_if;
    try (apply low_err; [discriminate|first [discriminate|lia]]); try (apply low_ret; lia).
  eapply low_bind; [apply low_next|]. intros. eapply low_bind; [apply IH|]. intros. apply low_ret. lia.
Qed.
Lemma low_token_loop b : forall f c, low b 0 0 0 (token_loop f c).
Proof.
  induction f as [|f IH]; intros c; cbn [token_loop]; apply low_if;
    try (apply low_err; [discriminate|first [discriminate|lia]]); try (apply low_ret; lia).
  eapply low_bind; [apply low_next|]. intros. eapply low_bind; [apply IH|]. intros. apply low_ret. lia.
Qed.

#[local] Hint Resolve low_read_loop low_uint_loop low_text_loop low_token_loop : cut.

(** For the shape 0 or 1 before, 0 after. *)
Ltac low_tac :=
  match goal with
  | |- low _ _ _ _ (st_bind _ _) => eapply low_bind; [low_tac | intros ?; low_tac]
  | |- low _ _ _ _ next => apply low_next
  | |- low _ _ _ _ reset_preview => apply low_reset
  | |- low _ _ _ _ preview => apply low_preview; lia
  | |- low _ _ _ _ (st_ret _) => apply low_ret; reflexivity || apply le_n || lia
  | |- low _ _ _ _ (st_err _) => apply low_err; [discriminate|first [discriminate|lia]]
  | |- low false _ _ _ (st_lift _) => apply low_lift; apply le_n || lia
  | |- low _ _ _ _ (st_catch _ DecodeError _) => eapply low_catch with (e := 0%nat); low_tac
  | |- low _ _ _ _ (if _ then _ else _) => apply low_if; low_tac
  | |- low _ _ _ _ (fuelled _) => apply low_fuelled; intros ?; low_tac
  | |- low _ _ _ _ (match ?o with _ => _ end) => destruct o; low_tac
  | _ => solve [eauto with cut
               | match goal with |- low ?bb _ _ _ _ =>
                   eapply low_weaken with (b := bb) (j := 1%nat) (i := 0%nat) (e := 0%nat);
                   [auto with cut|auto|lia|apply le_n|lia] end]
  end.

Lemma low_read_n b n : low b 0 0 0 (read_n n).
Proof. unfold read_n, xrange_check. low_tac. Qed.
Lemma low_uint_var b : low b 2 0 0 decode_uint_var.
Proof. unfold decode_uint_var. low_tac. Qed.
Lemma low_uint_var1 b : low b 1 0 0 decode_uint_var.
Proof. eapply low_weaken; [apply low_uint_var|auto|lia|lia|lia]. Qed.
Lemma low_short_integer b : low b 1 0 0 decode_short_integer.
Proof. unfold decode_short_integer. low_tac. Qed.
Lemma low_short_length b : low b 1 0 0 decode_short_length.
Proof. unfold decode_short_length. low_tac. Qed.
#[local] Hint Resolve low_read_n low_uint_var low_uint_var1 low_short_integer low_short_length : cut.
Lemma low_long_integer b : low b 1 0 0 decode_long_integer.
Proof. unfold decode_long_integer. low_tac. Qed.
Lemma low_text_string b : low b 1 0 0 decode_text_string.
Proof. unfold decode_text_string. low_tac. Qed.
#[local] Hint Resolve low_long_integer low_text_string : cut.
Lemma low_quoted_string b : low b 1 0 0 decode_quoted_string.
Proof. unfold decode_quoted_string. low_tac. Qed.
Lemma low_token_text b : low b 1 0 0 decode_token_text.
Proof. unfold decode_token_text. low_tac. Qed.
Lemma low_extension_media b : low b 1 0 0 decode_extension_media.
Proof. unfold decode_extension_media. low_tac. Qed.
#[local] Hint Resolve low_quoted_string low_token_text low_extension_media : cut.
Lemma low_constrained_encoding b : low b 1 0 0 decode_constrained_encoding.
Proof. unfold decode_constrained_encoding. low_tac. Qed.
Lemma low_value_length b : low b 1 0 0 decode_value_length.
Proof. unfold decode_value_length. low_tac. Qed.
Lemma low_integer_value b : low b 1 0 0 decode_integer_value.
Proof. unfold decode_integer_value. low_tac. Qed.
Lemma low_content_type_at b n : low b 0 0 0 (content_type_at n).
Proof. unfold content_type_at. low_tac. Qed.
#[local] Hint Resolve low_constrained_encoding low_value_length low_integer_value low_content_type_at : cut.
Lemma low_well_known_media b : low b 1 0 0 decode_well_known_media.
Proof. unfold decode_well_known_media. low_tac. Qed.
Lemma low_constrained_media b : low b 1 0 0 decode_constrained_media.
Proof. unfold decode_constrained_media. low_tac. Qed.
Lemma low_date_value b : low b 1 0 0 decode_date_value.
Proof. unfold decode_date_value. low_tac. Qed.
Lemma low_q_value b : low b 1 0 0 decode_q_value.
Proof. unfold decode_q_value. low_tac. Qed.
Lemma low_version_value b : low b 1 0 0 decode_version_value.
Proof. unfold decode_version_value. low_tac. Qed.
Lemma low_text_value b : low b 1 0 0 decode_text_value.
Proof. unfold decode_text_value. low_tac. Qed.
Lemma low_well_known_charset b : low b 1 0 0 decode_well_known_charset.
Proof. unfold decode_well_known_charset. low_tac. Qed.
#[local] Hint Resolve low_well_known_media low_constrained_media low_date_value low_q_value low_version_value
  low_text_value low_well_known_charset : cut.
Lemma low_untyped_value b : low b 1 0 0 decode_untyped_value.
Proof. unfold decode_untyped_value. low_tac. Qed.
Lemma low_well_known_parameter b : low b 1 0 0 decode_well_known_parameter.
Proof.
  unfold decode_well_known_parameter, decode_well_known_parameter_in. rewrite params12_ok. eapply low_bind; [low_tac|]. intros n.
  eapply low_bind; [apply (low_ret _ b 0 0 0 params12); lia|]. intros d. low_tac.
Qed.
Lemma low_by_type b t : low b 1 0 0 (decode_by_type t).
Proof.
  destruct t; cbn [decode_by_type]; unfold decode_delta_seconds_value, decode_no_value; low_tac.
Qed.
#[local] Hint Resolve low_untyped_value low_well_known_parameter low_by_type : cut.
Lemma low_parameter b : low b 1 0 0 decode_parameter.
Proof. unfold decode_parameter, decode_typed_parameter, decode_untyped_parameter. low_tac. Qed.
#[local] Hint Resolve low_parameter : cut.
Lemma low_content_type_value : low false 1 0 0 decode_content_type_value.
Proof. unfold decode_content_type_value, decode_content_general_form. low_tac. Qed.
Lemma low_accept_value b : low b 1 0 0 decode_accept_value.
Proof.
  unfold decode_accept_value. apply low_catch with (e := 0%nat); [low_tac|]. eapply low_bind; [low_tac|]. intros _.
  eapply low_bind; [low_tac|]. intros media. eapply low_bind; [apply low_preview; lia|]. intros c.
  destruct (c =? 128); [low_tac|]. intros l p Hp Hl. wsteps. split; lia.
Qed.
Lemma low_pragma_value b : low b 1 0 0 decode_pragma_value.
Proof. unfold decode_pragma_value. low_tac. Qed.
#[local] Hint Resolve low_content_type_value low_accept_value low_pragma_value : cut.
Lemma low_wsp_header b : low b 1 0 0 wsp_decode_header.
Proof.
  unfold wsp_decode_header, decode_well_known_header, decode_application_header.
  apply low_catch with (e := 0%nat); [|low_tac]. eapply low_bind; [low_tac|]. intros n. rewrite names12_ok.
  eapply low_bind; [apply (low_ret _ b 0 0 0 names12); lia|]. intros d. low_tac.
Qed.
Lemma low_encoded_string b : low b 1 0 0 decode_encoded_string_value.
Proof. unfold decode_encoded_string_value. low_tac. Qed.
#[local] Hint Resolve low_encoded_string : cut.
Lemma low_mms_value t : low false 1 0 0 (decode_mms_value t).
Proof.
  destruct t; cbn [decode_mms_value];
    unfold decode_uri_value, decode_boolean_value, decode_delivery_time_value, decode_expiry_value,
      decode_from_value, decode_message_class_value, decode_message_type_value, decode_priority_value,
      decode_response_status_value, decode_sender_visibility_value, decode_status_value,
      decode_delta_seconds_value; low_tac.
Qed.
Lemma low_runtime A j (m : ST piter A) : low false j 0 0 m -> low true j 0 0 (as_runtime_error m).
Proof.
  intros H l p Hp Hl it HR. destruct (H l p Hp Hl it HR) as (r & it' & l' & p' & E & HR' & Hp' & X).
  unfold as_runtime_error. rewrite E.
  destruct r as [a|e]; [|destruct e]; (do 4 eexists; split; [reflexivity|split; [exact HR'|auto]]).
Qed.
(** A header is begun and left without look-ahead. *)
Lemma low_header : low true 0 0 0 decode_header.
Proof.
  unfold decode_header. apply low_catch with (e := 1%nat); [|apply low_wsp_header].
  unfold decode_mms_header. eapply low_bind; [apply low_preview; lia|]. intros z.
  apply low_bind with (i := 1%nat).
  { unfold decode_short_integer_from_byte. destruct (Z.land z 128 =? 0).
    - apply (low_err Z); [discriminate|lia].
    - apply (low_ret Z). lia. }
  intros b. destruct (d_get Z.eqb b mms_field_names) as [[name t]|].
  - eapply low_bind; [apply low_next|]. intros _.
    eapply low_bind with (i := 0%nat); [|intros; apply low_ret; lia].
    eapply low_weaken; [apply low_runtime, low_mms_value|auto|lia|lia|lia].
  - eapply low_bind; [apply low_reset|]. intros _. apply low_err; [discriminate|first [discriminate|lia]].
Qed.

(** ** Messages *)

Lemma d_set_keys A k (v : A) d q : In q (map fst d) -> In q (map fst (d_set leqb k v d)).
Proof.
  induction d as [|[k' v'] d IH]; cbn; [auto|]. destruct (leqb k k') eqn:E; cbn; [|tauto].
  apply leqb_eq in E. subst. tauto.
Qed.

Lemma header_loop_keys : forall fuel d it d' it', header_loop fuel d it = (Ok d', it') ->
  forall q, In q (map fst d) -> In q (map fst d').
Proof.
  induction fuel as [|f IH]; intros d it d' it' E q H; cbn [header_loop] in E; [discriminate|].
  destruct (decode_header it) as [[[h v]|e] i].
  - destruct (leqb h _).
    + injection E as <- _. now apply d_set_keys.
    + eapply IH; [exact E|]. now apply d_set_keys.
  - destruct e; try discriminate. injection E as <- _. exact H.
Qed.

(** Headers of data that was cut: an exception, or the same headers up to the
    content type, or some of the headers and hardly anything left. *)
Lemma cut_header_loop : forall f2 f1 d x l it1 it2,
  (length l < f2)%nat -> (length (l ++ x) < f1)%nat -> R it1 (l ++ x) 0 -> R it2 l 0 ->
  (exists e it2', header_loop f2 d it2 = (Err e, it2')) \/
  (exists d' it1' it2' l' p', header_loop f1 d it1 = (Ok d', it1') /\
     header_loop f2 d it2 = (Ok d', it2') /\ R it1' (l' ++ x) p' /\ R it2' l' p') \/
  (exists d' it2' l' p', header_loop f2 d it2 = (Ok d', it2') /\ R it2' l' p' /\
     (length l' <= 1)%nat /\
     forall d1 it1', header_loop f1 d it1 = (Ok d1, it1') ->
       forall q, In q (map fst d') -> In q (map fst d1)).
Proof.
  induction f2 as [|f2 IH]; intros f1 d x l it1 it2 H2 H1 R1 R2; [lia|].
  destruct f1 as [|f1]; [lia|].
  destruct (low_header l 0%nat (le_n _) (Nat.le_0_l _) it2 R2) as (r2 & i2 & l2 & p2 & E2 & R2' & Hp2 & X).
  destruct (cut_header x l 0%nat it1 it2 R1 R2)
    as [(e & it & Em & He)|(r & i1 & i2' & l' & p' & E1 & E2' & R1' & R2'')].
  - rewrite E2 in Em. injection Em as -> <-. destruct He as [->| ->].
    + right. right. exists d, i2, l2, p2. split; [cbn [header_loop]; rewrite E2; reflexivity|].
      split; [exact R2'|]. split; [apply X; reflexivity|]. intros d1 it1' E q Hq.
      eapply header_loop_keys; eauto.
    + left. exists RuntimeError, i2. cbn [header_loop]. rewrite E2. reflexivity.
  - rewrite E2 in E2'. injection E2' as -> <-.
    destruct (R_det _ _ _ _ _ R2' R2'') as [<- <-].
    destruct (safe_left _ _ _ _ _ _ _ _ _ safe_decode_header R2 E2) as (l3 & p3 & pre & R3 & El & Hk).
    destruct (R_det _ _ _ _ _ R2' R3) as [<- <-].
    cbn [header_loop]. rewrite E1, E2. destruct r as [[h v]|e].
    + destruct (leqb h (str "Content-Type")).
      * right. left. exists (d_set leqb h v d), i1, i2, l2, p2. auto.
      * assert (p2 = 0%nat) by (clear - X; lia). subst p2 l.
        rewrite !app_length in *. apply (IH f1 (d_set leqb h v d) x l2 i1 i2); auto; rewrite ?app_length; lia.
    + destruct e; try (left; eauto; fail).
      right. left. exists d, i1, i2, l2, p2. auto.
Qed.

Lemma short_body l p : (length l <= 1)%nat ->
  wp decode_message_body l p (fun r l' p' => forall ps, r = Ok ps -> ps = []).
Proof.
  intros Hl.
  eapply wp_then with (m := decode_uint_var)
    (j := fun r => match r with
                   | Err StopIteration => st_ret []
                   | Err e => st_err e
                   | Ok n => (_ <~ xrange_check n ;; fuelled (fun f => parts_loop f n))
                   end).
  { intros it. unfold decode_message_body.
    destruct (decode_uint_var it) as [[n|e] it']; [reflexivity|destruct e; reflexivity]. }
  unfold decode_uint_var. wsteps. destruct l as [|b [|c l]]; [wsteps; congruence| |cbn in Hl; lia].
  wsteps. cbn [length uint_var_loop]. cbv zeta. destruct (Z.shiftr b 7 =? 1); [wsteps; congruence|].
  wsteps. unfold xrange_check. destruct (maxint <? _); wsteps; [congruence|].
  cbn [length parts_loop]. destruct (0 <? _); [|wsteps; congruence].
  wsteps. unfold decode_part, decode_uint_var. wsteps. congruence.
Qed.

(** The program behind [decode_data]. *)
Definition decoding : ST piter message :=
  d <~ decode_message_header ;;
  ps <~ decode_message_body ;;
  st_ret (Message d [] ps 176 220).
Lemma decode_data_run data : decode_data data = fst (decoding (new_iter data)).
Proof. reflexivity. Qed.

(** Data that decodes to a message with parts decodes to the same message when
    something follows it. *)
Lemma decoding_followed d x m it' : decoding (new_iter d) = (Ok m, it') -> m_parts m <> [] ->
  exists it1' l' p', decoding (new_iter (d ++ x)) = (Ok m, it1') /\ R it1' (l' ++ x) p'.
Proof.
  unfold decoding, decode_message_header, fuelled, st_bind. intros E Hne.
  assert (B : forall l, bytes_left (new_iter l) = length l) by reflexivity. rewrite !B in *.
  destruct (cut_header_loop (S (length d)) (S (length (d ++ x))) default_headers x d
              (new_iter (d ++ x)) (new_iter d)) as
    [(e & i & Eh)|[(d' & i1 & i2 & l' & p' & E1 & E2 & R1 & R2)|(d' & i2 & l' & p' & E2 & R2 & Hl & _)]];
    [lia|lia|apply R_new|apply R_new| | |].
  - rewrite Eh in E. discriminate.
  - rewrite E2 in E. rewrite E1.
    unfold decode_message_body in E |- *.
    destruct (cut_uint_var x l' p' i1 i2 R1 R2) as [(e & i & Em & ->)|(r & j1 & j2 & l2 & p2 & F1 & F2 & S1 & S2)].
    + rewrite Em in E. injection E as <- _. cbn in Hne. congruence.
    + rewrite F1. rewrite F2 in E. destruct r as [n|e].
      2:{ destruct e; try discriminate. injection E as <- _. cbn in Hne. congruence. }
      destruct (cut_bind _ _ ends (xrange_check n) (fun _ => fuelled (fun f => parts_loop f n))) with
        (x := x) (l := l2) (p := p2) (it1 := j1) (it2 := j2)
        as [(e & i & Em & ->)|(r & k1 & k2 & l3 & p3 & G1 & G2 & T1 & T2)]; auto.
      { unfold xrange_check. apply cut_if; [apply cut_err|apply cut_ret]. }
      { intros _. apply cut_parts_loop. }
      * rewrite Em in E. discriminate.
      * rewrite G1. rewrite G2 in E. destruct r as [ps|e]; [|discriminate].
        injection E as <- _. exists k1, l3, p3. auto.
  - rewrite E2 in E. exfalso.
    destruct (short_body l' p' Hl i2 R2) as (r & j & l2 & p2 & Eb & _ & Hb).
    rewrite Eb in E. destruct r as [ps|e]; [|discriminate]. injection E as <- _.
    specialize (Hb ps eq_refl). cbn in Hne. congruence.
Qed.

Lemma decoding_names d x m m' it it' : decoding (new_iter d) = (Ok m, it) ->
  decoding (new_iter (d ++ x)) = (Ok m', it') ->
  forall q, In q (map fst (m_headers m)) -> In q (map fst (m_headers m')).
Proof.
  unfold decoding, decode_message_header, fuelled, st_bind. intros E E' q Hq.
  assert (B : forall l, bytes_left (new_iter l) = length l) by reflexivity. rewrite !B in *.
  destruct (header_loop (S (length (d ++ x))) default_headers (new_iter (d ++ x))) as [[d1|e] i1] eqn:H1;
    [|discriminate].
  destruct (decode_message_body i1) as [[ps|e] i1'] eqn:B1; [|discriminate]. injection E' as <- _.
  destruct (header_loop (S (length d)) default_headers (new_iter d)) as [[d2|e] i2] eqn:H2; [|discriminate].
  destruct (decode_message_body i2) as [[qs|e] i2'] eqn:B2; [|discriminate]. injection E as <- _.
  cbn [m_headers] in *.
  destruct (cut_header_loop (S (length d)) (S (length (d ++ x))) default_headers x d
              (new_iter (d ++ x)) (new_iter d)) as
    [(e & i & Eh)|[(d' & j1 & j2 & l' & p' & E1 & E2 & R1 & R2)|(d' & j2 & l' & p' & E2 & R2 & Hl & Hn)]];
    [lia|lia|apply R_new|apply R_new| | |]; rewrite H2 in *.
  - discriminate.
  - rewrite H1 in E1. congruence.
  - injection E2 as -> ->. eapply Hn; eauto.
Qed.

(** ** Where the data of the parts comes from *)

Lemma read_loop_data : forall fuel n l p, (length l < fuel)%nat ->
  wp (read_loop fuel n) l p (fun r l' p' => forall a, r = Ok a -> l = a ++ l').
Proof.
  induction fuel as [|fuel IH]; intros n l p Hl; [lia|]. cbn [read_loop].
  destruct (0 <? n).
  - wsteps. destruct l as [|b l]; [congruence|]. cbn in Hl.
    apply wp_bind. eapply wp_mono; [apply IH; lia|]. intros r l' p' H. destruct r as [a|e]; [|congruence].
    wsteps. intros a' E. injection E as <-. cbn. f_equal. auto.
  - wsteps. intros a E. injection E as <-. reflexivity.
Qed.
Lemma read_n_data n l p : wp (read_n n) l p (fun r l' p' => forall a, r = Ok a -> l = a ++ l').
Proof.
  unfold read_n, xrange_check. destruct (maxint <? n); wsteps; [congruence|].
  apply read_loop_data. lia.
Qed.

Lemma part_data l p : wp decode_part l p (fun r l' p' => forall q, r = Ok q ->
  exists g d, dp_data q = Some d /\ (3 <= length g)%nat /\ l = g ++ d ++ l').
Proof.
  unfold decode_part. apply wp_bind. eapply wp_mono; [apply safe_uint_var|].
  intros r l1 p1 (pre1 & -> & H1). destruct r as [n|e]; [|congruence].
  apply wp_bind. eapply wp_mono; [apply safe_uint_var|].
  intros r l2 p2 (pre2 & -> & H2). destruct r as [k|e]; [|congruence].
  apply wp_bind. eapply wp_mono; [apply read_n_data|].
  intros r l3 p3 H3. destruct r as [hs|e]; [|congruence]. rewrite (H3 hs eq_refl).
  wsteps. destruct (decode_part_headers hs) as [[ps d]|e] eqn:Eh; [|congruence].
  apply wp_bind. eapply wp_mono; [apply read_n_data|].
  intros r l4 p4 H4. destruct r as [data|e]; [|congruence]. rewrite (H4 data eq_refl).
  wsteps. intros q E. injection E as <-. exists (pre1 ++ pre2 ++ hs), data.
  split; [reflexivity|]. split; [|rewrite <- !app_assoc; reflexivity].
  rewrite !app_length. destruct hs as [|h hs]; [|cbn [length]; lia].
  exfalso. vm_compute in Eh. discriminate.
Qed.
