(** Facts about content types, look-ahead after errors, and nested lists. *)
From Coq Require Import Lia ZifyBool ZifyNat.
From Verif Require Import Py Iter Tables WspDec WspEnc Message MmsEnc MmsDec
  SpecWsp WspClaims PyFacts IterFacts WspFacts MmsTotal.
Open Scope Z_scope.

(** * Content types with parameters *)

Lemma flatten_ints : forall l, flatten_list (ints l) = ints l.
Proof. unfold flatten_list, ints. induction l as [|b l IH]; [reflexivity|]. cbn. f_equal. exact IH. Qed.

Lemma flatten_app : forall a b, flatten_list (a ++ b) = flatten_list a ++ flatten_list b.
Proof. intros. unfold flatten_list. apply flat_map_app. Qed.

Lemma array_of_app : forall a b bytes, array_of (a ++ b) = Ok bytes ->
  exists x y, array_of a = Ok x /\ array_of b = Ok y /\ bytes = x ++ y.
Proof.
  intros a. induction a as [|e a IH]; intros b bytes H.
  - exists [], bytes. auto.
  - unfold array_of in *. cbn [app mapM] in H. destruct (array_item e) as [n|] eqn:E;
      [|discriminate]. cbn in H.
    destruct (mapM array_item (a ++ b)) as [l|] eqn:El; [|discriminate].
    injection H as <-. destruct (IH b l El) as (x & y & E1 & E2 & ->).
    exists (n :: x), y. cbn. rewrite E, E1. cbn. auto.
Qed.

Lemma array_of_ints_inv : forall l bytes, array_of (ints l) = Ok bytes -> bytes = l.
Proof.
  induction l as [|b l IH]; intros bytes H.
  - injection H as <-. reflexivity.
  - unfold array_of, ints in *. cbn [map mapM array_item] in H.
    destruct ((0 <=? b) && (b <? 256)); [|discriminate]. cbn in H.
    destruct (mapM array_item (map EInt l)) as [r|] eqn:E; [|discriminate].
    injection H as <-. f_equal. apply IH. reflexivity.
Qed.

Lemma wp_and : forall A (m : ST piter A) l p (Q Q' : res A -> list Z -> nat -> Prop),
  wp m l p Q -> wp m l p Q' -> wp m l p (fun r l' p' => Q r l' p' /\ Q' r l' p').
Proof.
  intros A m l p Q Q' H H' it HR.
  destruct (H it HR) as (r & it1 & l1 & p1 & E & (R1 & R2 & R3) & HQ).
  destruct (H' it HR) as (r' & it2 & l2 & p2 & E' & (R1' & R2' & _) & HQ').
  rewrite E in E'. injection E' as <- <-. subst l2 p2 l1 p1.
  exists r, it1, (it_cache it1 ++ it_rest it1), (it_pos it1). repeat split; auto.
Qed.

Lemma untyped_value_empty : forall p,
  wp decode_untyped_value [] p (fun r l' p' => r = Err StopIteration).
Proof.
  intros p. unfold decode_untyped_value, decode_integer_value. apply wp_catch.
  apply wp_bind. apply wp_catch. unfold decode_short_integer. wsteps.
  destruct (nth_error [] p) as [b|] eqn:E; [destruct p; discriminate|]. wsteps. reflexivity.
Qed.

(** A parameter costs at least one byte and is never the last byte alone. *)
Lemma parameter_cost : forall l p,
  wp decode_parameter l p (fun r l' p' => exists pre, l = pre ++ l' /\
    match r with
    | Ok _ => (1 <= length pre /\ 2 <= length l)%nat
    | Err e => wsp_exn e
    end).
Proof.
  intros l p. unfold decode_parameter. apply wp_catch.
  eapply wp_mono; [apply safe_typed_parameter|].
  intros r l1 p1 (pre & -> & Hr). destruct r as [v|e].
  - exists pre. rewrite app_length. split; auto. lia.
  - destruct (exn_eqb DecodeError e); [|exists pre; auto].
    unfold decode_untyped_parameter. apply wp_bind.
    eapply wp_mono; [apply safe_token_text|].
    intros r l2 p2 (pre2 & -> & Hr2). destruct r as [tok|e2].
    + apply wp_bind.
      assert (H : wp decode_untyped_value l2 p2 (fun r l' p' =>
                (exists pre, l2 = pre ++ l' /\
                   match r with Ok _ => (0 <= length pre)%nat | Err e => wsp_exn e end) /\
                (l2 = [] -> r = Err StopIteration))).
      { apply wp_and; [apply safe_untyped_value|]. destruct l2 as [|b l2].
        - eapply wp_mono; [apply untyped_value_empty|]. auto.
        - eapply wp_mono; [apply safe_untyped_value|]. intros; discriminate. }
      eapply wp_mono; [exact H|]. intros r l3 p3 [(pre3 & -> & Hr3) He].
      destruct r as [v|e3].
      * wsteps. exists (pre ++ pre2 ++ pre3). rewrite <- !app_assoc. split; auto.
        rewrite !app_length. split; [lia|].
        destruct (pre3 ++ l3) as [|b l4] eqn:X; [specialize (He eq_refl); discriminate|].
        assert (length (pre3 ++ l3) = S (length l4)) by (rewrite X; reflexivity).
        rewrite app_length in H0. lia.
      * exists (pre ++ pre2 ++ pre3). rewrite <- !app_assoc. auto.
    + exists (pre ++ pre2). rewrite app_assoc. auto.
Qed.

Lemma d_set_length : forall V k (v : V) d, (length (d_set leqb k v d) <= S (length d))%nat.
Proof.
  intros V k v d. induction d as [|[k' v'] d IH]; cbn; [lia|].
  destruct (leqb k k'); cbn; lia.
Qed.

(** [n] bytes hold at most [n - 1] parameters. *)
Lemma parameter_loop_count : forall fuel ps l p, (length l < fuel)%nat ->
  wp (parameter_loop fuel ps) l p (fun r l' p' =>
    match r with
    | Ok ps' => (length ps' <= length ps + (length l - 1))%nat
    | Err _ => True
    end).
Proof.
  induction fuel as [|fuel IH]; intros ps l p Hl; [lia|].
  eapply wp_then with (m := decode_parameter)
    (j := fun r => match r with
                   | Ok (q, v) => parameter_loop fuel (d_set leqb q v ps)
                   | Err StopIteration => st_ret ps
                   | Err e => st_err e
                   end).
  - intros it. cbn [parameter_loop]. destruct (decode_parameter it) as [[[q v]|e] it'];
      [reflexivity|destruct e; reflexivity].
  - eapply wp_mono; [apply parameter_cost|].
    intros r l1 p1 (pre & -> & Hr). rewrite app_length in *. destruct r as [[q v]|e].
    + eapply wp_mono; [apply IH; lia|]. intros r l2 p2 H. destruct r as [ps'|]; auto.
      pose proof (d_set_length _ q v ps). lia.
    + destruct e; wsteps; auto. lia.
Qed.

Lemma media_and_params_count : forall l m ps,
  decode_media_and_params l = Ok (m, ps) -> (length ps <= length l - 2)%nat.
Proof.
  intros l m ps E. unfold decode_media_and_params in E.
  match type of E with fst (?f _) = _ =>
    destruct (wp_fst _ f l (fun r l' p' => match r with
      | Ok (m, ps) => (length ps <= length l - 2)%nat | Err _ => True end))
      as (r & l' & p' & E' & H) end.
  - apply wp_bind. eapply wp_mono; [apply safe_media_type|].
    intros r l1 p1 (pre & -> & Hr). destruct r as [x|e]; [|exact I].
    apply wp_bind. eapply wp_mono.
    + apply wp_fuelled. apply parameter_loop_count. lia.
    + intros r l2 p2 H. destruct r as [q|e]; wsteps; auto.
      cbn [length] in H. rewrite app_length. lia.
  - rewrite E in E'. subst r. exact H.
Qed.

Lemma constrained_media_refuses : forall b rest, 0 <= b < 32 ->
  wp decode_constrained_media (b :: rest) 0 (refuses (b :: rest)).
Proof.
  intros b rest Hb. unfold decode_constrained_media, decode_constrained_encoding.
  apply wp_bind. apply wp_refused_catch with (Q := fun r l1 p1 => _).
  - apply wp_bind. eapply wp_mono; [apply decode_short_integer_refuses; [reflexivity|lia]|].
    intros r l p (-> & -> & ->). repeat split.
  - apply wp_bind. unfold decode_extension_media. wsteps.
    replace ((b <? 32) || (b =? 127)) with true by lia. wsteps. repeat split.
Qed.

Lemma value_length_first : forall n, 0 <= n -> exists b r,
  encode_value_length n = b :: r /\ 0 <= b < 32.
Proof.
  intros n Hn. unfold encode_value_length, encode_short_length.
  destruct ((n <? 0) || (30 <? n)) eqn:E; [exists 31, (encode_uint_var n)|exists n, []];
    split; auto; lia.
Qed.

Lemma read_loop_length : forall fuel n l p, (length l < fuel)%nat -> 0 <= n ->
  wp (read_loop fuel n) l p (fun r l' p' =>
    match r with Ok x => zlen x = n | Err _ => True end).
Proof.
  induction fuel as [|fuel IH]; intros n l p Hl Hn; [lia|]. cbn [read_loop].
  destruct (0 <? n) eqn:E; wsteps.
  - destruct l as [|b l]; [exact I|]. cbn in Hl. apply wp_bind.
    eapply wp_mono; [apply (IH (n - 1)); lia|].
    intros r l2 p2 H. destruct r; wsteps; auto. rewrite zlen_cons. lia.
  - change (zlen (@nil Z)) with 0. lia.
Qed.

Lemma read_n_length : forall n l p, 0 <= n ->
  wp (read_n n) l p (fun r l' p' => match r with Ok x => zlen x = n | Err _ => True end).
Proof.
  intros n l p Hn. unfold read_n, xrange_check. destruct (maxint <? n); wsteps; auto.
  apply read_loop_length; lia.
Qed.

Lemma content_type_param_count : forall k more rest, 0 < k ->
  wp decode_content_type_value (encode_value_length (1 + k) ++ more ++ rest) 0
    (fun r l' p' => match r with
                    | Ok (m, ps) => zlen ps < k
                    | Err _ => True
                    end).
Proof.
  intros k more rest Hk. unfold decode_content_type_value.
  destruct (value_length_first (1 + k)) as (b & r & E & Hb); [lia|].
  apply wp_refused_catch.
  - rewrite E. cbn [app]. apply wp_bind.
    eapply wp_mono; [apply constrained_media_refuses; auto|].
    intros r' l p (-> & -> & ->). repeat split.
  - unfold decode_content_general_form.
    eapply wp_seq; [apply value_length_run; lia|]. apply wp_bind.
    eapply wp_mono; [apply read_n_length; lia|].
    intros x l p H. destruct x as [x|]; wsteps; auto.
    destruct (decode_media_and_params x) as [[m ps]|] eqn:D; auto.
    apply media_and_params_count in D. unfold zlen in *. lia.
Qed.

Lemma mapM_length : forall A B (f : A -> res B) l r, mapM f l = Ok r -> length r = length l.
Proof.
  intros A B f l. induction l as [|a l IH]; intros r H; cbn in H.
  - injection H as <-. reflexivity.
  - destruct (f a) as [b|]; [|discriminate]. cbn in H.
    destruct (mapM f l) as [bs|]; [|discriminate]. injection H as <-.
    cbn. f_equal. apply IH. reflexivity.
Qed.

(** The encoding of a content type with parameters announces one item for the
    media type and one for every parameter. *)
Lemma content_type_params_shape : forall media params l bytes, params <> [] ->
  encode_content_type_value media params = Ok l ->
  array_of (flatten_list l) = Ok bytes ->
  exists more, bytes = encode_value_length (1 + zlen params) ++ more.
Proof.
  intros media params l bytes Hp H Hb. unfold encode_content_type_value in H.
  destruct params as [|q params]; [congruence|]. cbn [on_encode_error] in H.
  unfold encode_content_general_form in H. unfold encode_media_type in H.
  destruct (match index_of media well_known_content_types with
            | Some i => encode_short_integer i
            | None => Ok (encode_text_string media) end) as [v|]; [|discriminate].
  cbn [bind] in H.
  destruct (mapM (fun p => encode_parameter (fst p) (snd p)) (q :: params)) as [ps|] eqn:E;
    [|discriminate].
  cbn [bind] in H. cbv zeta in H.
  assert (X : forall (a b : list elt), Ok a = Ok b -> a = b) by (intros; congruence).
  apply X in H. subst l.
  apply mapM_length in E.
  replace (zlen [EList (ints v)] + zlen ps) with (1 + zlen (q :: params)) in Hb
    by (unfold zlen; rewrite E; cbn [length]; lia).
  rewrite flatten_app, flatten_ints in Hb.
  apply array_of_app in Hb as (x & y & E1 & _ & ->).
  apply array_of_ints_inv in E1. subst x. eauto.
Qed.

(** * Look-ahead after errors *)

Definition stays {A} (m : ST piter A) : Prop :=
  forall l p, wp m l p (fun r l' p' => r = Err DecodeError -> l' = l).

Lemma unmoved_wp : forall A (m : ST piter A), stays m -> Unmoved m.
Proof.
  intros A m H it Hr E. destruct (reachable_R it Hr) as (l & p & HR).
  destruct (H l p it HR) as (r & it' & l' & p' & E' & HR' & HQ).
  rewrite E' in E |- *. cbn [fst snd] in E |- *. rewrite (HQ E) in HR'.
  split; [destruct HR as (R1 & _), HR' as (R2 & _); unfold remaining; congruence|].
  destruct (wp_next_eq it l p HR) as (i1 & -> & _).
  destruct (wp_next_eq it' l p' HR') as (i2 & -> & _). reflexivity.
Qed.

Lemma stays_never : forall A (E : exn -> Prop) k (m : ST piter A),
  safe E k m -> ~ E DecodeError -> stays m.
Proof.
  intros A E k m H HE l p. eapply wp_mono; [apply H|].
  intros r l' p' (pre & -> & Hr) ->. contradiction.
Qed.

(** First try, and then something that raises DecodeError only in place. *)
Lemma stays_catch : forall A (m h : ST piter A),
  stays m -> stays h -> stays (st_catch m DecodeError h).
Proof.
  intros A m h Hm Hh l p. apply wp_catch. eapply wp_mono; [apply Hm|].
  intros r l' p' H. destruct r as [a|e]; [discriminate|].
  destruct (exn_eqb DecodeError e) eqn:E.
  - destruct e; try discriminate. rewrite (H eq_refl). apply Hh.
  - intros X. injection X as ->. discriminate.
Qed.

(** A byte is looked at; what follows raises no DecodeError once it consumes. *)
Lemma stays_bind_never : forall A B (E : exn -> Prop) k (m : ST piter A) (f : A -> ST piter B),
  stays m -> (forall a, safe E k (f a)) -> ~ E DecodeError -> stays (st_bind m f).
Proof.
  intros A B E k m f Hm Hf HE l p. apply wp_bind. eapply wp_mono; [apply Hm|].
  intros r l' p' H. destruct r as [a|e].
  - eapply wp_mono; [apply Hf|]. intros r l2 p2 (pre & -> & Hr) ->. contradiction.
  - intros X. injection X as ->. auto.
Qed.

Lemma stays_preview : forall A (f : Z -> ST piter A),
  (forall b, stays (f b)) -> stays (st_bind preview f).
Proof.
  intros A f H l p. wsteps. destruct (nth_error l p); [apply H|discriminate].
Qed.

Lemma stays_reset_err : forall A e, stays (st_bind reset_preview (fun _ => @st_err piter A e)).
Proof. intros A e l p. wsteps. auto. Qed.

Lemma stays_ret : forall A (a : A), stays (st_ret a).
Proof. intros A a l p. wsteps. discriminate. Qed.

Lemma stays_map : forall A B (m : ST piter A) (g : A -> B),
  stays m -> stays (st_bind m (fun a => st_ret (g a))).
Proof.
  intros A B m g H l p. apply wp_bind. eapply wp_mono; [apply H|].
  intros r l' p' X. destruct r; wsteps; [discriminate|]. intros Y. apply X. congruence.
Qed.

(** Everything but DecodeError. *)
Definition other_exn (e : exn) : Prop := e <> DecodeError.

Lemma stays_next : stays next.
Proof. intros l p. wsteps. destruct l; discriminate. Qed.

Lemma stays_short_integer : stays decode_short_integer.
Proof.
  apply stays_preview. intros b. destruct (Z.land b 128 =? 0);
    [apply stays_reset_err|apply stays_map, stays_next].
Qed.

Lemma stays_short_length : stays decode_short_length.
Proof.
  apply stays_preview. intros b. destruct (30 <? b); [apply stays_reset_err|apply stays_next].
Qed.

Lemma safe_read_other : forall n, safe other_exn 0 (read_n n).
Proof.
  intros n. unfold read_n, xrange_check. apply (safe_bind _ _ _ 0 0).
  - destruct (maxint <? n); [apply safe_err; discriminate|apply safe_ret].
  - intros _. apply safe_fuelled. intros fuel l p Hl. revert n l p Hl.
    induction fuel as [|fuel IH]; intros n l p Hl; [lia|]. cbn [read_loop].
    destruct (0 <? n); [|wsteps; exists []; auto].
    apply wp_le with (k := 1%nat); [lia|]. apply wp_next_then; [discriminate|].
    intros b l' ->. cbn in Hl. apply wp_then_ret. apply IH. lia.
Qed.

Lemma stays_long_integer : stays decode_long_integer.
Proof.
  unfold decode_long_integer. apply stays_bind_never with (E := other_exn) (k := 0%nat).
  - apply stays_short_length.
  - intros n. apply safe_map. apply safe_read_other.
  - intros H. apply H. reflexivity.
Qed.

Lemma safe_text_other : forall b, safe other_exn 0 (fuelled (fun f => text_loop f b)).
Proof.
  intros b. apply safe_fuelled. intros fuel. revert b.
  induction fuel as [|fuel IH]; intros b l p Hl; [lia|]. cbn [text_loop].
  destruct (b =? 0); [wsteps; exists []; auto|].
  apply wp_le with (k := 1%nat); [lia|]. apply wp_next_then; [discriminate|].
  intros b' l' ->. cbn in Hl. apply wp_then_ret. apply IH. lia.
Qed.

Lemma safe_token_other : forall b, safe other_exn 0 (fuelled (fun f => token_loop f b)).
Proof.
  intros b. apply safe_fuelled. intros fuel. revert b.
  induction fuel as [|fuel IH]; intros b l p Hl; [lia|]. cbn [token_loop].
  destruct (token_char b); [|wsteps; exists []; auto].
  apply wp_le with (k := 1%nat); [lia|]. apply wp_next_then; [discriminate|].
  intros b' l' ->. cbn in Hl. apply wp_then_ret. apply IH. lia.
Qed.

Lemma safe_text_string_other : safe other_exn 1 decode_text_string.
Proof.
  unfold decode_text_string. apply (safe_bind _ _ _ 1 0); [apply safe_next; discriminate|].
  intros b. apply (safe_bind _ _ _ 0 0); [|intros; apply safe_text_other].
  destruct (b =? 127); [|apply safe_ret].
  eapply safe_weaken; [apply safe_next with (E := other_exn); discriminate|auto|lia].
Qed.

Lemma stays_token_text : stays decode_token_text.
Proof.
  apply stays_preview. intros b. destruct (negb (token_char b)); [apply stays_reset_err|].
  apply stays_bind_never with (E := other_exn) (k := 0%nat);
    [apply stays_next|intros; apply safe_token_other|intros H; apply H; reflexivity].
Qed.

Lemma stays_extension_media : stays decode_extension_media.
Proof.
  apply stays_preview. intros b. destruct ((b <? 32) || (b =? 127)); [apply stays_reset_err|].
  apply stays_bind_never with (E := other_exn) (k := 0%nat);
    [apply stays_next|intros; apply safe_text_other|intros H; apply H; reflexivity].
Qed.

Lemma stays_value_length : stays decode_value_length.
Proof.
  apply stays_catch; [apply stays_short_length|]. apply stays_preview. intros b.
  destruct (b =? 31); [|apply stays_reset_err].
  apply stays_bind_never with (E := fun e => e = StopIteration) (k := 1%nat);
    [apply stays_next|intros; apply safe_uint_var_stop|discriminate].
Qed.

Lemma stays_integer_value : stays decode_integer_value.
Proof. apply stays_catch; [apply stays_short_integer|apply stays_long_integer]. Qed.

Lemma stays_compact_value : stays decode_compact_value.
Proof.
  apply stays_catch; apply stays_map; [apply stays_integer_value|].
  apply stays_never with (E := other_exn) (k := 1%nat);
    [apply safe_text_string_other|intros H; apply H; reflexivity].
Qed.

Lemma stays_no_value : stays decode_no_value.
Proof. intros l p. unfold decode_no_value. wsteps. destruct l; wsteps; discriminate. Qed.

Lemma stays_boolean : stays decode_boolean_value.
Proof.
  apply stays_preview. intros b. destruct (negb _);
    [apply stays_reset_err|apply stays_map, stays_next].
Qed.

Lemma stays_priority : stays decode_priority_value.
Proof.
  apply stays_preview. intros b. destruct (d_get Z.eqb b priorities);
    [|apply stays_reset_err].
  apply (stays_map _ _ next (fun _ => l)). apply stays_next.
Qed.

Lemma stays_sender_visibility : stays decode_sender_visibility_value.
Proof.
  apply stays_preview. intros b. destruct (negb _);
    [apply stays_reset_err|apply stays_map, stays_next].
Qed.

Lemma stays_response_status : stays decode_response_status_value.
Proof. apply stays_preview. intros b. apply (stays_map _ _ next). apply stays_next. Qed.

Lemma stays_status : stays decode_status_value.
Proof. apply stays_map. apply stays_next. Qed.

(** Reading a header never raises DecodeError: the last resort is text. *)
Lemma catch_other : forall A (E : exn -> Prop) k j (m h : ST piter A),
  safe E k m -> safe other_exn j h -> safe other_exn (Nat.min k j) (st_catch m DecodeError h).
Proof.
  intros A E k j m h Hm Hh l p. apply wp_catch. eapply wp_mono; [apply Hm|].
  intros r l1 p1 (pre & -> & Hr). destruct r as [a|e].
  - exists pre. split; auto. lia.
  - destruct (exn_eqb DecodeError e) eqn:X.
    + eapply wp_mono; [apply Hh|]. intros r l2 p2 (pre2 & -> & Hr2).
      exists (pre ++ pre2). rewrite app_assoc. split; auto.
      destruct r; [rewrite app_length; lia|auto].
    + exists pre. split; auto. intros ->. discriminate.
Qed.

Lemma header_other : safe other_exn 1 decode_header.
Proof.
  apply (catch_other _ mms_exn 1 1); [apply safe_mms_header|].
  apply (catch_other _ wsp_exn 1 2); [apply safe_well_known_header|].
  unfold decode_application_header. apply (safe_bind _ _ _ 1 1).
  - apply (catch_other _ wsp_exn 1 1); [apply safe_token_text|apply safe_text_string_other].
  - intros h. apply safe_map. apply safe_text_string_other.
Qed.

Lemma stays_header : stays decode_header.
Proof.
  eapply stays_never; [apply header_other|]. intros H. apply H. reflexivity.
Qed.
