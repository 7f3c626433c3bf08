(** Every decoder ends on every input, consumes a prefix of it and raises only
    certain exceptions. *)
From Coq Require Import Lia ZifyBool ZifyNat.
From Verif Require Import Py Iter Tables WspDec Message MmsDec SpecWsp WspClaims
  PyFacts IterFacts.
Open Scope Z_scope.

(** [m] ends on every iterator; what is left is a suffix of what was there; a
    value costs at least [k] bytes; an exception satisfies [E]. *)
Definition safe {A} (E : exn -> Prop) (k : nat) (m : ST piter A) : Prop :=
  forall l p, wp m l p (fun r l' p' =>
    exists pre, l = pre ++ l' /\
      match r with Ok _ => (k <= length pre)%nat | Err e => E e end).

Lemma safe_weaken : forall A (E E' : exn -> Prop) k k' (m : ST piter A),
  safe E k m -> (forall e, E e -> E' e) -> (k' <= k)%nat -> safe E' k' m.
Proof.
  intros A E E' k k' m H HE Hk l p. eapply wp_mono; [apply H|].
  intros r l' p' (pre & -> & Hr). exists pre. split; auto.
  destruct r; [lia|auto].
Qed.

Lemma safe_ret : forall A E (a : A), safe E 0 (st_ret a).
Proof. intros A E a l p. wsteps. exists []. cbn. auto. Qed.

Lemma safe_err : forall A (E : exn -> Prop) k e, E e -> safe E k (@st_err _ A e).
Proof. intros A E k e He l p. wsteps. exists []. cbn. auto. Qed.

Lemma safe_lift : forall A (E : exn -> Prop) (r : res A),
  match r with Ok _ => True | Err e => E e end -> safe E 0 (st_lift r).
Proof. intros A E r H l p. wsteps. exists []. cbn. destruct r; auto with arith. Qed.

Lemma safe_bind : forall A B E k j (m : ST piter A) (f : A -> ST piter B),
  safe E k m -> (forall a, safe E j (f a)) -> safe E (k + j) (st_bind m f).
Proof.
  intros A B E k j m f Hm Hf l p. apply wp_bind.
  eapply wp_mono; [apply Hm|]. intros r l1 p1 (pre & -> & Hr). destruct r as [a|e].
  - eapply wp_mono; [apply Hf|]. intros r l2 p2 (pre2 & -> & Hr2).
    exists (pre ++ pre2). rewrite app_assoc. split; auto.
    destruct r; [rewrite app_length; lia|auto].
  - exists pre. auto.
Qed.

(** The same when the continuation only matters for some values. *)
Lemma safe_next : forall (E : exn -> Prop), E StopIteration -> safe E 1 next.
Proof.
  intros E HE l p. wsteps. destruct l as [|b l].
  - exists []. cbn. auto.
  - exists [b]. cbn. auto.
Qed.

Lemma safe_preview : forall (E : exn -> Prop), E StopIteration -> safe E 0 preview.
Proof.
  intros E HE l p. wsteps. destruct (nth_error l p); exists []; cbn; auto.
Qed.

Lemma safe_reset : forall E, safe E 0 reset_preview.
Proof. intros E l p. wsteps. exists []. cbn. auto. Qed.

Lemma safe_catch : forall A (E E' : exn -> Prop) k j (m h : ST piter A),
  safe E' k m -> (forall e, E' e -> e = DecodeError \/ E e) ->
  safe E j h -> safe E (Nat.min k j) (st_catch m DecodeError h).
Proof.
  intros A E E' k j m h Hm HE Hh l p. apply wp_catch.
  eapply wp_mono; [apply Hm|]. intros r l1 p1 (pre & -> & Hr). destruct r as [a|e].
  - exists pre. split; auto. lia.
  - destruct (exn_eqb DecodeError e) eqn:X.
    + eapply wp_mono; [apply Hh|]. intros r l2 p2 (pre2 & -> & Hr2).
      exists (pre ++ pre2). rewrite app_assoc. split; auto.
      destruct r; [rewrite app_length; lia|auto].
    + exists pre. split; auto. destruct (HE e Hr) as [->|]; [discriminate|auto].
Qed.

Lemma safe_fuelled : forall A E k (loop : nat -> ST piter A),
  (forall fuel l p, (length l < fuel)%nat ->
     wp (loop fuel) l p (fun r l' p' =>
       exists pre, l = pre ++ l' /\
         match r with Ok _ => (k <= length pre)%nat | Err e => E e end)) ->
  safe E k (fuelled loop).
Proof. intros A E k loop H l p. apply wp_fuelled. apply H. lia. Qed.

Definition wsp_exn (e : exn) : Prop :=
  e = StopIteration \/ e = DecodeError \/ e = OverflowError \/ e = AttributeError.

Ltac exn_case := unfold wsp_exn; auto 6.

(** A step reading one byte inside a loop. *)
Lemma wp_next_then : forall B (f : Z -> ST piter B) l p (E : exn -> Prop) k,
  E StopIteration ->
  (forall b l', l = b :: l' ->
     wp (f b) l' 0 (fun r l2 p2 => exists pre, l' = pre ++ l2 /\
        match r with Ok _ => (k <= length pre)%nat | Err e => E e end)) ->
  wp (st_bind next f) l p (fun r l2 p2 => exists pre, l = pre ++ l2 /\
        match r with Ok _ => (S k <= length pre)%nat | Err e => E e end).
Proof.
  intros B f l p E k HE H. wsteps. destruct l as [|b l'].
  - exists []. auto.
  - eapply wp_mono; [apply (H b l' eq_refl)|].
    intros r l2 p2 (pre & -> & Hr). exists (b :: pre). split; [reflexivity|].
    destruct r; cbn; [lia|auto].
Qed.

Lemma wp_le : forall A (m : ST piter A) l p (E : exn -> Prop) k k', (k' <= k)%nat ->
  wp m l p (fun r l2 p2 => exists pre, l = pre ++ l2 /\
        match r with Ok _ => (k <= length pre)%nat | Err e => E e end) ->
  wp m l p (fun r l2 p2 => exists pre, l = pre ++ l2 /\
        match r with Ok _ => (k' <= length pre)%nat | Err e => E e end).
Proof.
  intros A m l p E k k' Hk H. eapply wp_mono; [exact H|].
  intros r l2 p2 (pre & -> & Hr). exists pre. split; auto. destruct r; [lia|auto].
Qed.

Lemma wp_then_ret : forall A B (m : ST piter A) (g : A -> B) l p (E : exn -> Prop) k,
  wp m l p (fun r l2 p2 => exists pre, l = pre ++ l2 /\
        match r with Ok _ => (k <= length pre)%nat | Err e => E e end) ->
  wp (st_bind m (fun a => st_ret (g a))) l p (fun r l2 p2 => exists pre, l = pre ++ l2 /\
        match r with Ok _ => (k <= length pre)%nat | Err e => E e end).
Proof.
  intros A B m g l p E k H. apply wp_bind. eapply wp_mono; [exact H|].
  intros r l2 p2 (pre & -> & Hr). destruct r; wsteps; exists pre; auto.
Qed.

Lemma read_loop_safe : forall fuel n l p, (length l < fuel)%nat ->
  wp (read_loop fuel n) l p (fun r l' p' => exists pre, l = pre ++ l' /\
     match r with Ok _ => (0 <= length pre)%nat | Err e => wsp_exn e end).
Proof.
  induction fuel as [|fuel IH]; intros n l p Hl; [lia|]. cbn [read_loop].
  destruct (0 <? n).
  - apply wp_le with (k := 1%nat); [lia|]. apply wp_next_then; [exn_case|].
    intros b l' ->. cbn in Hl. apply wp_then_ret. apply IH. lia.
  - wsteps. exists []. auto.
Qed.

Lemma safe_read_n : forall n, safe wsp_exn 0 (read_n n).
Proof.
  intros n. unfold read_n, xrange_check.
  change 0%nat with (0 + 0)%nat. apply safe_bind.
  - destruct (maxint <? n); [apply safe_err; exn_case|apply safe_ret].
  - intros _. apply safe_fuelled. intros. apply read_loop_safe. assumption.
Qed.

Lemma uint_var_loop_safe : forall fuel u b l p, (length l < fuel)%nat ->
  wp (uint_var_loop fuel u b) l p (fun r l' p' => exists pre, l = pre ++ l' /\
     match r with Ok _ => (0 <= length pre)%nat | Err e => e = StopIteration end).
Proof.
  induction fuel as [|fuel IH]; intros u b l p Hl; [lia|]. cbn [uint_var_loop].
  destruct (Z.shiftr b 7 =? 1).
  - apply wp_le with (k := 1%nat); [lia|]. apply wp_next_then; [reflexivity|].
    intros b' l' ->. cbn in Hl. apply IH. lia.
  - wsteps. exists []. auto.
Qed.

Lemma safe_uint_var_stop : safe (fun e => e = StopIteration) 1 decode_uint_var.
Proof.
  unfold decode_uint_var. change 1%nat with (1 + 0)%nat. apply safe_bind.
  - apply safe_next. reflexivity.
  - intros b. apply safe_fuelled. intros. apply uint_var_loop_safe. assumption.
Qed.

Lemma safe_uint_var : safe wsp_exn 1 decode_uint_var.
Proof. eapply safe_weaken; [apply safe_uint_var_stop| |lia]. intros e ->. exn_case. Qed.

Lemma text_loop_safe : forall fuel b l p, (length l < fuel)%nat ->
  wp (text_loop fuel b) l p (fun r l' p' => exists pre, l = pre ++ l' /\
     match r with Ok _ => (0 <= length pre)%nat | Err e => wsp_exn e end).
Proof.
  induction fuel as [|fuel IH]; intros b l p Hl; [lia|]. cbn [text_loop].
  destruct (b =? 0).
  - wsteps. exists []. auto.
  - apply wp_le with (k := 1%nat); [lia|]. apply wp_next_then; [exn_case|].
    intros b' l' ->. cbn in Hl. apply wp_then_ret. apply IH. lia.
Qed.

Lemma token_loop_safe : forall fuel b l p, (length l < fuel)%nat ->
  wp (token_loop fuel b) l p (fun r l' p' => exists pre, l = pre ++ l' /\
     match r with Ok _ => ((if token_char b then 1 else 0) <= length pre)%nat
             | Err e => wsp_exn e end).
Proof.
  induction fuel as [|fuel IH]; intros b l p Hl; [lia|]. cbn [token_loop].
  destruct (token_char b).
  - apply wp_next_then; [exn_case|].
    intros b' l' ->. cbn in Hl. apply wp_then_ret.
    eapply wp_le; [|apply IH; lia]. lia.
  - wsteps. exists []. auto.
Qed.

(** Compositional search for [safe]. *)
Ltac safe_tac :=
  match goal with
  | |- safe _ _ (st_bind _ _) =>
      eapply safe_bind; [safe_tac | intros ?; safe_tac]
  | |- safe _ _ (st_ret _) => apply safe_ret
  | |- safe _ _ (st_err _) => apply safe_err; exn_case
  | |- safe _ _ next => apply safe_next; exn_case
  | |- safe _ _ preview => apply safe_preview; exn_case
  | |- safe _ _ reset_preview => apply safe_reset
  | |- safe _ _ (if ?b then _ else _) => destruct b; safe_tac
  | _ => eauto with safe
  end.

Lemma safe_text_loop : forall b, safe wsp_exn 0 (fuelled (fun f => text_loop f b)).
Proof. intros b. apply safe_fuelled. intros. apply text_loop_safe. assumption. Qed.

Lemma safe_token_loop : forall b, safe wsp_exn 0 (fuelled (fun f => token_loop f b)).
Proof.
  intros b. apply safe_fuelled. intros. eapply wp_le; [|apply token_loop_safe; assumption].
  lia.
Qed.

Lemma safe_short_integer : safe wsp_exn 1 decode_short_integer.
Proof.
  unfold decode_short_integer. apply (safe_bind _ _ _ 0 1); [safe_tac|].
  intros b. destruct (Z.land b 128 =? 0).
  - apply (safe_bind _ _ _ 0 1); [safe_tac|]. intros _. safe_tac.
  - apply (safe_bind _ _ _ 1 0); [safe_tac|]. intros. safe_tac.
Qed.

Lemma safe_short_length : safe wsp_exn 1 decode_short_length.
Proof.
  unfold decode_short_length. apply (safe_bind _ _ _ 0 1); [safe_tac|].
  intros b. destruct (30 <? b).
  - apply (safe_bind _ _ _ 0 1); [safe_tac|]. intros _. safe_tac.
  - safe_tac.
Qed.

Lemma safe_long_integer : safe wsp_exn 1 decode_long_integer.
Proof.
  unfold decode_long_integer. apply (safe_bind _ _ _ 1 0); [apply safe_short_length|].
  intros n. apply (safe_bind _ _ _ 0 0); [apply safe_read_n|]. intros. safe_tac.
Qed.

Lemma safe_text_string : safe wsp_exn 1 decode_text_string.
Proof.
  unfold decode_text_string. apply (safe_bind _ _ _ 1 0); [safe_tac|].
  intros b. apply (safe_bind _ _ _ 0 0); [|intros; apply safe_text_loop].
  destruct (b =? 127); [|safe_tac].
  eapply safe_weaken; [apply safe_next with (E := wsp_exn); exn_case|auto|lia].
Qed.

Lemma safe_quoted_string : safe wsp_exn 2 decode_quoted_string.
Proof.
  unfold decode_quoted_string. apply (safe_bind _ _ _ 0 2); [safe_tac|].
  intros b. destruct (negb (b =? 34)).
  - apply (safe_bind _ _ _ 0 2); [safe_tac|]. intros _. safe_tac.
  - apply (safe_bind _ _ _ 1 1); [safe_tac|]. intros _. apply safe_text_string.
Qed.

Lemma safe_token_text : safe wsp_exn 1 decode_token_text.
Proof.
  unfold decode_token_text. apply (safe_bind _ _ _ 0 1); [safe_tac|].
  intros b. destruct (negb (token_char b)).
  - apply (safe_bind _ _ _ 0 1); [safe_tac|]. intros _. safe_tac.
  - apply (safe_bind _ _ _ 1 0); [safe_tac|]. intros b'. apply safe_token_loop.
Qed.

Lemma safe_extension_media : safe wsp_exn 1 decode_extension_media.
Proof.
  unfold decode_extension_media. apply (safe_bind _ _ _ 0 1); [safe_tac|].
  intros b. destruct ((b <? 32) || (b =? 127)).
  - apply (safe_bind _ _ _ 0 1); [safe_tac|]. intros _. safe_tac.
  - apply (safe_bind _ _ _ 1 0); [safe_tac|]. intros b'. apply safe_text_loop.
Qed.

Lemma safe_catch_wsp : forall A k j (m h : ST piter A),
  safe wsp_exn k m -> safe wsp_exn j h ->
  safe wsp_exn (Nat.min k j) (st_catch m DecodeError h).
Proof. intros. eapply safe_catch; eauto. Qed.

Lemma safe_map : forall A B E k (m : ST piter A) (g : A -> B),
  safe E k m -> safe E k (st_bind m (fun a => st_ret (g a))).
Proof.
  intros A B E k m g H. replace k with (k + 0)%nat by lia.
  apply safe_bind; auto. intros. apply safe_ret.
Qed.

Lemma safe_constrained_encoding : safe wsp_exn 1 decode_constrained_encoding.
Proof.
  apply (safe_catch_wsp _ 1 1); apply safe_map;
    [apply safe_short_integer|apply safe_extension_media].
Qed.

Lemma safe_value_length : safe wsp_exn 1 decode_value_length.
Proof.
  apply (safe_catch_wsp _ 1 1); [apply safe_short_length|].
  apply (safe_bind _ _ _ 0 1); [safe_tac|]. intros b. destruct (b =? 31).
  - apply (safe_bind _ _ _ 0 1).
    + eapply safe_weaken; [apply safe_next with (E := wsp_exn); exn_case|auto|lia].
    + intros _. apply safe_uint_var.
  - apply (safe_bind _ _ _ 0 1); [safe_tac|]. intros _. safe_tac.
Qed.

Lemma safe_integer_value : safe wsp_exn 1 decode_integer_value.
Proof. apply (safe_catch_wsp _ 1 1); [apply safe_short_integer|apply safe_long_integer]. Qed.

Lemma safe_content_type_at : forall n, safe wsp_exn 0 (content_type_at n).
Proof.
  intros n. unfold content_type_at. destruct (n <? zlen well_known_content_types);
    [apply safe_ret|apply safe_err; exn_case].
Qed.

Lemma safe_well_known_media : safe wsp_exn 1 decode_well_known_media.
Proof.
  apply (safe_bind _ _ _ 1 0); [apply safe_integer_value|apply safe_content_type_at].
Qed.

Lemma safe_media_type : safe wsp_exn 1 decode_media_type.
Proof.
  apply (safe_catch_wsp _ 1 1); [apply safe_well_known_media|apply safe_extension_media].
Qed.

Lemma safe_constrained_media : safe wsp_exn 1 decode_constrained_media.
Proof.
  apply (safe_bind _ _ _ 1 0); [apply safe_constrained_encoding|].
  intros v. destruct v; try (apply safe_err; exn_case);
    [apply safe_ret|apply safe_content_type_at].
Qed.

Lemma safe_q_value : safe wsp_exn 1 decode_q_value.
Proof.
  unfold decode_q_value. apply (safe_bind _ _ _ 1 0); [apply safe_uint_var|]. intros q.
  destruct (100 <? q); [|apply safe_ret].
  destruct (beyond_float (q - 100)); [apply safe_err; exn_case|apply safe_ret].
Qed.

Lemma safe_version_value : safe wsp_exn 1 decode_version_value.
Proof.
  apply (safe_catch_wsp _ 1 1); [|apply safe_text_string].
  apply safe_map. apply safe_short_integer.
Qed.

Lemma safe_text_value : safe wsp_exn 0 decode_text_value.
Proof.
  apply (safe_catch_wsp _ 1 0); [apply safe_token_text|].
  apply (safe_catch_wsp _ 2 0); [apply safe_quoted_string|apply safe_ret].
Qed.

Lemma safe_well_known_charset : safe wsp_exn 1 decode_well_known_charset.
Proof.
  unfold decode_well_known_charset. apply (safe_bind _ _ _ 0 1); [safe_tac|].
  intros b. apply (safe_bind _ _ _ 0 1); [safe_tac|]. intros _.
  destruct (b =? 127).
  - apply safe_map. safe_tac.
  - apply safe_map. apply safe_integer_value.
Qed.

Lemma safe_untyped_value : safe wsp_exn 0 decode_untyped_value.
Proof.
  apply (safe_catch_wsp _ 1 0); apply safe_map;
    [apply safe_integer_value|apply safe_text_value].
Qed.

(** The parameters of version 1.2. *)
Definition params12 : list (Z * (list Z * vtype)) :=
  match get_well_known_parameters (str "1.2") with Ok d => d | Err _ => [] end.
Lemma params12_ok : get_well_known_parameters (str "1.2") = Ok params12.
Proof. vm_compute. reflexivity. Qed.

Definition type12 (t : vtype) : Prop :=
  t <> TDelta /\ t <> TNo /\ t <> TTextValue /\ t <> TDate.
Lemma params12_types : Forall (fun p => type12 (snd (snd p))) params12.
Proof.
  let v := eval vm_compute in params12 in change params12 with v.
  repeat (apply Forall_cons; [repeat split; discriminate|]). apply Forall_nil.
Qed.

Lemma well_known_parameter_wp : forall l p,
  wp decode_well_known_parameter l p (fun r l' p' => exists pre, l = pre ++ l' /\
    match r with
    | Ok (name, t) => (1 <= length pre)%nat /\ type12 t
    | Err e => wsp_exn e
    end).
Proof.
  intros l p. unfold decode_well_known_parameter, decode_well_known_parameter_in. apply wp_bind.
  eapply wp_mono; [apply safe_integer_value|]. intros r l1 p1 (pre & -> & Hr).
  destruct r as [n|e]; [|exists pre; auto].
  rewrite params12_ok. wsteps.
  destruct (d_get Z.eqb n params12) as [[name t]|] eqn:G; wsteps.
  - exists pre. split; auto. split; auto.
    assert (In (n, (name, t)) params12).
    { revert G. clear. induction params12 as [|[k v] d IH]; [discriminate|].
      cbn. destruct (Z.eqb n k) eqn:E; intros H.
      - apply Z.eqb_eq in E. left. congruence.
      - right. auto. }
    pose proof params12_types as F. rewrite Forall_forall in F. apply (F _ H).
  - exists pre. split; auto. exn_case.
Qed.

Lemma safe_by_type : forall t, type12 t -> safe wsp_exn 1 (decode_by_type t).
Proof.
  intros t (H1 & H2 & H3 & H4). destruct t; try congruence; cbn [decode_by_type];
    try (apply safe_err; exn_case);
    try apply safe_q_value; try apply safe_constrained_encoding; apply safe_map;
    first [ apply safe_q_value | apply safe_well_known_charset | apply safe_version_value
          | apply safe_integer_value | apply safe_text_string | apply safe_short_integer
          | apply safe_constrained_encoding ].
Qed.

Lemma safe_typed_parameter : safe wsp_exn 2 decode_typed_parameter.
Proof.
  intros l p. unfold decode_typed_parameter. apply wp_bind.
  eapply wp_mono; [apply well_known_parameter_wp|].
  intros r l1 p1 (pre & -> & Hr). destruct r as [[name t]|e].
  - destruct Hr as [Hp Ht]. apply wp_bind. eapply wp_mono; [apply (safe_by_type t Ht)|].
    intros r l2 p2 (pre2 & -> & Hr2). destruct r.
    + wsteps. exists (pre ++ pre2). rewrite app_assoc, app_length. split; auto. lia.
    + exists (pre ++ pre2). rewrite app_assoc. auto.
  - exists pre. auto.
Qed.

Lemma safe_untyped_parameter : safe wsp_exn 1 decode_untyped_parameter.
Proof.
  apply (safe_bind _ _ _ 1 0); [apply safe_token_text|]. intros s. apply safe_map.
  apply safe_untyped_value.
Qed.

Lemma safe_parameter : safe wsp_exn 1 decode_parameter.
Proof.
  apply (safe_catch_wsp _ 2 1); [apply safe_typed_parameter|apply safe_untyped_parameter].
Qed.

Lemma parameter_loop_safe : forall fuel ps l p, (length l < fuel)%nat ->
  wp (parameter_loop fuel ps) l p (fun r l' p' => exists pre, l = pre ++ l' /\
     match r with Ok _ => (0 <= length pre)%nat | Err e => wsp_exn e end).
Proof.
  induction fuel as [|fuel IH]; intros ps l p Hl; [lia|].
  eapply wp_then with (m := decode_parameter)
    (j := fun r => match r with
                   | Ok (q, v) => parameter_loop fuel (d_set leqb q v ps)
                   | Err StopIteration => st_ret ps
                   | Err e => st_err e
                   end).
  - intros it. cbn [parameter_loop]. destruct (decode_parameter it) as [[[q v]|e] it'];
      [reflexivity|destruct e; reflexivity].
  - eapply wp_mono; [apply safe_parameter|].
    intros r l1 p1 (pre & -> & Hr). destruct r as [[q v]|e].
    + rewrite app_length in Hl.
      eapply wp_mono; [apply IH; lia|]. intros r l2 p2 (pre2 & -> & Hr2).
      exists (pre ++ pre2). rewrite app_assoc. split; auto.
      destruct r; [lia|auto].
    + destruct Hr as [->|[->|[->| ->]]]; wsteps; exists pre;
        (split; [reflexivity|try exn_case; lia]).
Qed.

Lemma safe_parameters : forall ps, safe wsp_exn 0 (fuelled (fun f => parameter_loop f ps)).
Proof. intros ps. apply safe_fuelled. intros. apply parameter_loop_safe. assumption. Qed.

Lemma safe_fst : forall A (E : exn -> Prop) k (m : ST piter A) l, safe E k m ->
  match fst (m (new_iter l)) with Ok _ => True | Err e => E e end.
Proof.
  intros A E k m l H. destruct (wp_fst _ m l _ (H l 0%nat)) as (r & l' & p' & -> & pre & _ & Hr).
  destruct r; auto.
Qed.

Lemma media_and_params_exn : forall l,
  match decode_media_and_params l with Ok _ => True | Err e => wsp_exn e end.
Proof.
  intros l. unfold decode_media_and_params. apply safe_fst with (k := 1%nat).
  apply (safe_bind _ _ _ 1 0); [apply safe_media_type|]. intros m. apply safe_map.
  apply safe_parameters.
Qed.

Lemma safe_content_general_form : safe wsp_exn 1 decode_content_general_form.
Proof.
  apply (safe_bind _ _ _ 1 0); [apply safe_value_length|]. intros n.
  apply (safe_bind _ _ _ 0 0); [apply safe_read_n|]. intros l.
  apply safe_lift. apply media_and_params_exn.
Qed.

Lemma safe_content_type_value : safe wsp_exn 1 decode_content_type_value.
Proof.
  apply (safe_catch_wsp _ 1 1); [|apply safe_content_general_form].
  apply safe_map. apply safe_constrained_media.
Qed.

Lemma safe_accept_value : safe wsp_exn 1 decode_accept_value.
Proof.
  apply (safe_catch_wsp _ 1 1); [apply safe_constrained_media|].
  apply (safe_bind _ _ _ 0 1).
  { eapply safe_weaken; [apply safe_value_length|auto|lia]. }
  intros _. apply (safe_bind _ _ _ 1 0).
  { apply (safe_catch_wsp _ 1 1); [apply safe_well_known_media|apply safe_extension_media]. }
  intros m. apply (safe_bind _ _ _ 0 0); [safe_tac|]. intros b.
  apply (safe_bind _ _ _ 0 0).
  { destruct (b =? 128); [|apply safe_ret].
    eapply safe_weaken with (k := 1%nat) (E := wsp_exn); [|auto|lia].
    apply (safe_bind _ _ _ 1 0); [safe_tac|]. intros _.
    apply (safe_bind _ _ _ 0 0).
    - eapply safe_weaken; [apply safe_q_value|auto|lia].
    - intros _. apply (safe_catch_wsp _ 1 0); [|apply safe_ret].
      apply safe_map. apply safe_parameter. }
  intros _. apply (safe_bind _ _ _ 0 0); [safe_tac|]. intros _. safe_tac.
Qed.

Lemma safe_pragma_value : safe wsp_exn 1 decode_pragma_value.
Proof.
  unfold decode_pragma_value. apply (safe_bind _ _ _ 0 1); [safe_tac|].
  intros b. destruct (b =? 128).
  - apply safe_map. safe_tac.
  - apply (safe_bind _ _ _ 0 1); [safe_tac|]. intros _.
    apply (safe_bind _ _ _ 1 0); [apply safe_value_length|]. intros _.
    eapply safe_weaken; [apply safe_parameter|auto|lia].
Qed.

Definition names12 : list (list Z) :=
  match get_header_field_names (str "1.2") with Ok d => d | Err _ => [] end.
Lemma names12_ok : get_header_field_names (str "1.2") = Ok names12.
Proof. vm_compute. reflexivity. Qed.

Lemma safe_well_known_header : safe wsp_exn 1 decode_well_known_header.
Proof.
  unfold decode_well_known_header.
  apply (safe_bind _ _ _ 1 0); [apply safe_short_integer|]. intros n.
  apply (safe_bind _ _ _ 0 0).
  { rewrite names12_ok. apply safe_lift. exact I. }
  intros names. destruct (nth_error names (Z.to_nat n)) as [name|];
    [|apply safe_err; exn_case].
  apply safe_map. eapply safe_weaken with (k := 1%nat) (E := wsp_exn); [|auto|lia].
  destruct (header_field_encoding name).
  - apply safe_map. apply safe_accept_value.
  - apply (safe_bind _ _ _ 1 0); [apply safe_pragma_value|]. intros [q v]. apply safe_ret.
  - apply safe_map. apply safe_text_string.
Qed.

Lemma safe_application_header : safe wsp_exn 2 decode_application_header.
Proof.
  unfold decode_application_header. apply (safe_bind _ _ _ 1 1).
  - apply (safe_catch_wsp _ 1 1); [apply safe_token_text|apply safe_text_string].
  - intros h. apply safe_map. apply safe_text_string.
Qed.

Lemma safe_wsp_header : safe wsp_exn 1 wsp_decode_header.
Proof.
  apply (safe_catch_wsp _ 1 2); [apply safe_well_known_header|apply safe_application_header].
Qed.

(** * MMS values: nothing runs out of fuel *)

Definition sane (e : exn) : Prop := e <> OutOfFuel.

Lemma wsp_sane : forall A k (m : ST piter A), safe wsp_exn k m -> safe sane k m.
Proof.
  intros A k m H. eapply safe_weaken; [exact H| |lia].
  intros e [->|[->|[->| ->]]]; discriminate.
Qed.

Lemma safe_catch_sane : forall A k j (m h : ST piter A),
  safe sane k m -> safe sane j h ->
  safe sane (Nat.min k j) (st_catch m DecodeError h).
Proof. intros. eapply safe_catch; eauto. Qed.

Ltac sane_prim :=
  first [ apply safe_ret
        | apply safe_err; discriminate
        | apply safe_next; discriminate
        | apply safe_preview; discriminate
        | apply safe_reset ].

Lemma safe_encoded_string : safe sane 1 decode_encoded_string_value.
Proof.
  apply (safe_catch_sane _ 1 1); [|apply wsp_sane, safe_text_string].
  apply (safe_bind _ _ _ 0 1).
  { eapply safe_weaken; [apply wsp_sane, safe_value_length|auto|lia]. }
  intros _. apply (safe_bind _ _ _ 0 1).
  { apply (safe_catch_sane _ 1 0); [apply wsp_sane, safe_well_known_charset|sane_prim]. }
  intros _. apply wsp_sane, safe_text_string.
Qed.

Lemma safe_boolean : safe sane 1 decode_boolean_value.
Proof.
  unfold decode_boolean_value. apply (safe_bind _ _ _ 0 1); [sane_prim|].
  intros b. destruct (negb _).
  - apply (safe_bind _ _ _ 0 1); [sane_prim|]. intros _. sane_prim.
  - apply safe_map. sane_prim.
Qed.

Lemma safe_date_value : safe sane 1 decode_date_value.
Proof.
  unfold decode_date_value. apply (safe_bind _ _ _ 1 0);
    [apply wsp_sane, safe_long_integer|].
  intros t. destruct (t <=? _); sane_prim.
Qed.

Lemma safe_delivery_time : safe sane 1 decode_delivery_time_value.
Proof.
  unfold decode_delivery_time_value.
  apply (safe_bind _ _ _ 1 0); [apply wsp_sane, safe_value_length|]. intros _.
  apply (safe_bind _ _ _ 0 0).
  { eapply safe_weaken; [apply safe_next with (E := sane); discriminate|auto|lia]. }
  intros token. apply (safe_bind _ _ _ 0 0).
  { eapply safe_weaken; [apply wsp_sane, safe_long_integer|auto|lia]. }
  intros v. destruct (token =? 128); [sane_prim|]. destruct (token =? 129); sane_prim.
Qed.

Lemma safe_from_value : safe sane 1 decode_from_value.
Proof.
  unfold decode_from_value.
  apply (safe_bind _ _ _ 1 0); [apply wsp_sane, safe_value_length|]. intros _.
  apply (safe_bind _ _ _ 0 0).
  { eapply safe_weaken; [apply safe_next with (E := sane); discriminate|auto|lia]. }
  intros b. destruct (b =? 129); [sane_prim|].
  eapply safe_weaken; [apply safe_encoded_string|auto|lia].
Qed.

Lemma safe_message_class : safe sane 1 decode_message_class_value.
Proof.
  unfold decode_message_class_value. apply (safe_bind _ _ _ 0 1); [sane_prim|].
  intros b. destruct (d_get Z.eqb b class_identifiers).
  - apply safe_map. sane_prim.
  - apply (safe_bind _ _ _ 0 1); [sane_prim|]. intros _. apply wsp_sane, safe_token_text.
Qed.

Lemma safe_message_type : safe sane 0 decode_message_type_value.
Proof.
  unfold decode_message_type_value. apply (safe_bind _ _ _ 0 0); [sane_prim|].
  intros b. destruct (d_get Z.eqb b message_types_dec).
  - apply safe_map. eapply safe_weaken with (k := 1%nat) (E := sane); [sane_prim|auto|lia].
  - apply (safe_bind _ _ _ 0 0); [sane_prim|]. intros _. sane_prim.
Qed.

Lemma safe_priority : safe sane 1 decode_priority_value.
Proof.
  unfold decode_priority_value. apply (safe_bind _ _ _ 0 1); [sane_prim|].
  intros b. destruct (d_get Z.eqb b priorities).
  - apply safe_map. sane_prim.
  - apply (safe_bind _ _ _ 0 1); [sane_prim|]. intros _. sane_prim.
Qed.

Lemma safe_sender_visibility : safe sane 1 decode_sender_visibility_value.
Proof.
  unfold decode_sender_visibility_value. apply (safe_bind _ _ _ 0 1); [sane_prim|].
  intros b. destruct (negb _).
  - apply (safe_bind _ _ _ 0 1); [sane_prim|]. intros _. sane_prim.
  - apply safe_map. sane_prim.
Qed.

Lemma safe_response_status : safe sane 1 decode_response_status_value.
Proof.
  unfold decode_response_status_value. apply (safe_bind _ _ _ 0 1); [sane_prim|].
  intros b. apply safe_map. sane_prim.
Qed.

Lemma safe_status : safe sane 1 decode_status_value.
Proof. unfold decode_status_value. apply safe_map. sane_prim. Qed.

Lemma safe_expiry : safe sane 1 decode_expiry_value.
Proof.
  unfold decode_expiry_value.
  apply (safe_bind _ _ _ 1 0); [apply wsp_sane, safe_value_length|]. intros _.
  apply (safe_bind _ _ _ 0 0).
  { eapply safe_weaken; [apply safe_next with (E := sane); discriminate|auto|lia]. }
  intros token. destruct (token =? 128).
  { apply safe_map. eapply safe_weaken; [apply safe_date_value|auto|lia]. }
  destruct (token =? 129); [|sane_prim].
  apply safe_map. eapply safe_weaken; [apply wsp_sane, safe_integer_value|auto|lia].
Qed.

Lemma safe_pair : forall A B C E k (m : ST piter (A * B)) (g : A -> B -> C),
  safe E k m -> safe E k (st_bind m (fun x => let '(a, b) := x in st_ret (g a b))).
Proof.
  intros A B C E k m g H. replace k with (k + 0)%nat by lia.
  apply safe_bind; auto. intros [a b]. apply safe_ret.
Qed.

Lemma safe_mms_value : forall t, safe sane 0 (decode_mms_value t).
Proof.
  intros t. destruct t; cbn [decode_mms_value];
    first [apply safe_map | apply safe_pair];
    (eapply safe_weaken with (E := sane); [|auto|]);
    try first [ eapply safe_encoded_string | eapply safe_boolean | eapply safe_date_value
          | eapply safe_delivery_time | eapply safe_from_value | eapply safe_message_class
          | eapply safe_message_type | eapply safe_priority | eapply safe_sender_visibility
          | eapply safe_response_status | eapply safe_status | eapply safe_expiry
          | eapply wsp_sane; apply safe_text_string | eapply wsp_sane; apply safe_content_type_value
          | eapply wsp_sane; apply safe_version_value | eapply wsp_sane; apply safe_long_integer
           ]; lia.
Qed.

(** * Headers, parts, messages *)

Definition mms_exn (e : exn) : Prop := wsp_exn e \/ e = RuntimeError.

Lemma safe_runtime : forall A k (m : ST piter A), safe sane k m ->
  safe (fun e => e = DecodeError \/ e = RuntimeError) k (as_runtime_error m).
Proof.
  intros A k m H l p.
  eapply wp_then with (m := m)
    (j := fun r => match r with
                   | Ok a => st_ret a
                   | Err DecodeError => st_err DecodeError
                   | Err OutOfFuel => st_err OutOfFuel
                   | Err _ => st_err RuntimeError
                   end).
  - intros it. unfold as_runtime_error. destruct (m it) as [[a|e] it']; [reflexivity|].
    destruct e; reflexivity.
  - eapply wp_mono; [apply H|]. intros r l1 p1 (pre & -> & Hr).
    destruct r as [a|e]; [wsteps; exists pre; auto|].
    destruct e; wsteps; exists pre; (split; [reflexivity|]); auto;
      exfalso; apply Hr; reflexivity.
Qed.

Lemma safe_mms_header : safe mms_exn 1 decode_mms_header.
Proof.
  unfold decode_mms_header. unfold mms_exn.
  apply (safe_bind _ _ _ 0 1); [apply safe_preview; exn_case|]. intros q.
  apply (safe_bind _ _ _ 0 1).
  { apply safe_lift. unfold decode_short_integer_from_byte.
    destruct (Z.land q 128 =? 0); [exn_case|exact I]. }
  intros b. destruct (d_get Z.eqb b mms_field_names) as [[name t]|].
  - apply (safe_bind _ _ _ 1 0); [apply safe_next; exn_case|]. intros _.
    apply safe_map. eapply safe_weaken; [apply safe_runtime, safe_mms_value| |lia].
    intros e [->| ->]; exn_case.
  - apply (safe_bind _ _ _ 0 1); [apply safe_reset|]. intros _.
    apply safe_err. exn_case.
Qed.

Lemma safe_decode_header : safe mms_exn 1 decode_header.
Proof.
  change 1%nat with (Nat.min 1 1). eapply safe_catch; [apply safe_mms_header|auto|].
  eapply safe_weaken; [apply safe_wsp_header| |lia]. unfold mms_exn. auto.
Qed.

Lemma header_loop_safe : forall fuel d l p, (length l < fuel)%nat ->
  wp (header_loop fuel d) l p (fun r l' p' => exists pre, l = pre ++ l' /\
     match r with Ok _ => (0 <= length pre)%nat | Err e => mms_exn e end).
Proof.
  induction fuel as [|fuel IH]; intros d l p Hl; [lia|].
  eapply wp_then with (m := decode_header)
    (j := fun r => match r with
                   | Ok (h, v) =>
                       if leqb h (str "Content-Type") then st_ret (d_set leqb h v d)
                       else header_loop fuel (d_set leqb h v d)
                   | Err StopIteration => st_ret d
                   | Err e => st_err e
                   end).
  - intros it. cbn [header_loop]. destruct (decode_header it) as [[[h v]|e] it'].
    + cbn [fst snd]. destruct (leqb h (str "Content-Type")); reflexivity.
    + destruct e; reflexivity.
  - eapply wp_mono; [apply safe_decode_header|].
    intros r l1 p1 (pre & -> & Hr). destruct r as [[h v]|e].
    + destruct (leqb h (str "Content-Type")); [wsteps; exists pre; split; [auto|lia]|].
      rewrite app_length in Hl.
      eapply wp_mono; [apply IH; lia|]. intros r l2 p2 (pre2 & -> & Hr2).
      exists (pre ++ pre2). rewrite app_assoc. split; auto.
      destruct r; [lia|auto].
    + destruct e; wsteps; exists pre; (split; [reflexivity|]); auto; lia.
Qed.

Lemma part_header_loop_safe : forall fuel d l p, (length l < fuel)%nat ->
  wp (part_header_loop fuel d) l p (fun r l' p' => exists pre, l = pre ++ l' /\
     match r with Ok _ => (0 <= length pre)%nat | Err e => mms_exn e end).
Proof.
  induction fuel as [|fuel IH]; intros d l p Hl; [lia|].
  eapply wp_then with (m := decode_header)
    (j := fun r => match r with
                   | Ok (h, v) => part_header_loop fuel (d_set leqb h v d)
                   | Err StopIteration => st_ret d
                   | Err e => st_err e
                   end).
  - intros it. cbn [part_header_loop]. destruct (decode_header it) as [[[h v]|e] it'].
    + reflexivity.
    + destruct e; reflexivity.
  - eapply wp_mono; [apply safe_decode_header|].
    intros r l1 p1 (pre & -> & Hr). destruct r as [[h v]|e].
    + rewrite app_length in Hl.
      eapply wp_mono; [apply IH; lia|]. intros r l2 p2 (pre2 & -> & Hr2).
      exists (pre ++ pre2). rewrite app_assoc. split; auto.
      destruct r; [lia|auto].
    + destruct e; wsteps; exists pre; (split; [reflexivity|]); auto; lia.
Qed.

Lemma wsp_mms : forall A k (m : ST piter A), safe wsp_exn k m -> safe mms_exn k m.
Proof. intros A k m H. eapply safe_weaken; [exact H| |lia]. unfold mms_exn. auto. Qed.

Lemma part_headers_exn : forall l,
  match decode_part_headers l with Ok _ => True | Err e => mms_exn e end.
Proof.
  intros l. unfold decode_part_headers. apply safe_fst with (k := 1%nat).
  apply (safe_bind _ _ _ 1 0); [apply wsp_mms, safe_content_type_value|]. intros [m ps].
  apply safe_map. apply safe_fuelled. intros. apply part_header_loop_safe. assumption.
Qed.

Lemma safe_part : safe mms_exn 2 decode_part.
Proof.
  unfold decode_part.
  apply (safe_bind _ _ _ 1 1); [apply wsp_mms, safe_uint_var|]. intros a.
  apply (safe_bind _ _ _ 1 0); [apply wsp_mms, safe_uint_var|]. intros b.
  apply (safe_bind _ _ _ 0 0); [apply wsp_mms, safe_read_n|]. intros l.
  apply (safe_bind _ _ _ 0 0); [apply safe_lift, part_headers_exn|]. intros [ps d].
  apply safe_map. apply wsp_mms, safe_read_n.
Qed.

Lemma parts_loop_safe : forall fuel n l p, (length l < fuel)%nat ->
  wp (parts_loop fuel n) l p (fun r l' p' => exists pre, l = pre ++ l' /\
     match r with Ok _ => (0 <= length pre)%nat | Err e => mms_exn e end).
Proof.
  induction fuel as [|fuel IH]; intros n l p Hl; [lia|]. cbn [parts_loop].
  destruct (0 <? n); [|wsteps; exists []; auto].
  apply wp_bind. eapply wp_mono; [apply safe_part|].
  intros r l1 p1 (pre & -> & Hr). destruct r as [a|e]; [|exists pre; auto].
  rewrite app_length in Hl. apply wp_bind. eapply wp_mono; [apply IH; lia|].
  intros r l2 p2 (pre2 & -> & Hr2).
  destruct r; [wsteps|]; exists (pre ++ pre2); rewrite app_assoc; split; auto; lia.
Qed.

Lemma safe_message_body : safe mms_exn 0 decode_message_body.
Proof.
  intros l p.
  eapply wp_then with (m := decode_uint_var)
    (j := fun r => match r with
                   | Err StopIteration => st_ret []
                   | Err e => st_err e
                   | Ok n => (_ <~ xrange_check n ;; fuelled (fun f => parts_loop f n))
                   end).
  - intros it. unfold decode_message_body.
    destruct (decode_uint_var it) as [[n|e] it']; [reflexivity|destruct e; reflexivity].
  - eapply wp_mono; [apply safe_uint_var_stop|].
    intros r l1 p1 (pre & -> & Hr). destruct r as [n|e].
    + unfold xrange_check. destruct (maxint <? n).
      * wsteps. exists pre. split; auto. unfold mms_exn. exn_case.
      * wsteps. eapply wp_mono; [apply parts_loop_safe; lia|].
        intros r l2 p2 (pre2 & -> & Hr2). exists (pre ++ pre2). rewrite app_assoc.
        split; auto. destruct r; [lia|auto].
    + subst e. wsteps. exists pre. split; [auto|lia].
Qed.

Lemma decode_data_exn : forall data,
  match decode_data data with Ok _ => True | Err e => mms_exn e end.
Proof.
  intros data. unfold decode_data. apply safe_fst with (k := 0%nat).
  apply (safe_bind _ _ _ 0 0).
  - apply safe_fuelled. intros. apply header_loop_safe. assumption.
  - intros d. apply safe_map. apply safe_message_body.
Qed.
