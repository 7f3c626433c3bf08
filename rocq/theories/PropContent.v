(** Theorems about content types, the promise to leave the iterator alone, the
    versioned tables, quality factors and nested lists: C48, C49, C64, C65,
    C66. *)
From Coq Require Import Lia ZifyBool ZifyNat.
From Verif Require Import Py Iter Tables WspDec WspEnc Message MmsEnc MmsDec
  SpecWsp WspClaims PyFacts IterFacts WspFacts MmsTotal ContentFacts.
Open Scope Z_scope.
Ltac Zify.zify_post_hook ::= Z.div_mod_to_equations.

(** * C48 *)

(** C48 without parameters: every media type that has a number or starts with a
    printable ASCII character. *)
Theorem C48_roundtrip_partial : forall media, plain_media media ->
  exists l bytes, encode_content_type_value media [] = Ok l /\
    array_of (flatten_list l) = Ok bytes /\
    Decodes decode_content_type_value bytes (media, []).
Proof.
  intros media H. destruct (content_type_value_run media H) as (l & bytes & E & -> & Ho & Hw).
  exists (ints bytes), bytes. rewrite flatten_ints, array_of_ints by exact Ho.
  repeat split; auto. apply decodes_wp. exact Hw.
Qed.
Print Assumptions C48_roundtrip_partial.
Example C48_case : plain_media (str "text/plain") /\ plain_media (str "application/smil") /\
  encode_content_type_value (str "text/plain") [] = Ok (ints [131]) /\
  encode_content_type_value (str "a/b") [] = Ok (ints [97; 47; 98; 0]).
Proof.
  split; [|split; [|split; vm_compute; reflexivity]].
  - left. vm_compute. auto 10.
  - right. let v := eval vm_compute in (str "application/smil") in
      change (str "application/smil") with v.
    split; [repeat constructor; lia|cbn; lia].
Qed.

(** C48 with parameters is false of the code for every non-empty dictionary: the
    length octet counts one for the media type and one for each parameter instead
    of their octets, so the decoder cuts the encoding short and finds fewer
    parameters than were encoded, or fails. *)
Theorem C48_parameters_refuted : forall media params l bytes, params <> [] ->
  encode_content_type_value media params = Ok l ->
  array_of (flatten_list l) = Ok bytes ->
  forall rest it, remaining it = bytes ++ rest -> it_pos it = 0%nat ->
    match fst (decode_content_type_value it) with
    | Ok (media', params') => zlen params' < zlen params
    | Err _ => True
    end.
Proof.
  intros media params l bytes Hp E Eb rest it El Ep.
  destruct (content_type_params_shape media params l bytes Hp E Eb) as (more & ->).
  assert (Hk : 0 < zlen params) by (destruct params; [congruence|rewrite zlen_cons;
    pose proof (zlen_nonneg params); lia]).
  destruct (content_type_param_count (zlen params) more rest Hk it) as
    (r & it' & l' & p' & E' & _ & H).
  - unfold R, remaining in *. rewrite El, <- app_assoc. repeat split; auto. lia.
  - rewrite E'. exact H.
Qed.
Print Assumptions C48_parameters_refuted.
Example C48_parameters_case :
  let ct := encode_content_type_value (str "application/vnd.wap.multipart.related")
              [(str "Type", PStr (str "application/smil"))] in
  (exists l bytes, ct = Ok l /\ array_of (flatten_list l) = Ok bytes /\
     firstn 4 bytes = [2; 179; 137; 97] /\
     fst (decode_content_type_value (new_iter bytes)) =
       Ok (str "application/vnd.wap.multipart.related", [])).
Proof. eexists. eexists. repeat split; vm_compute; reflexivity. Qed.

(** C48: the nested lists returned for a content type with parameters are not
    octets; without flattening them first they cannot be put into a message. *)
Theorem C48_nested_refuted : forall media params l, params <> [] ->
  encode_content_type_value media params = Ok l -> exists e, array_of l = Err e.
Proof.
  intros media params l Hp H. unfold encode_content_type_value in H.
  destruct params as [|q params]; [congruence|]. cbn [on_encode_error] in H.
  unfold encode_content_general_form, encode_media_type in H.
  destruct (match index_of media well_known_content_types with
            | Some i => encode_short_integer i
            | None => Ok (encode_text_string media) end) as [v|]; [|discriminate].
  cbn [bind] in H.
  destruct (mapM (fun p => encode_parameter (fst p) (snd p)) (q :: params)) as [ps|];
    [|discriminate].
  cbn [bind] in H. cbv zeta in H.
  assert (X : forall (a b : list elt), Ok a = Ok b -> a = b) by (intros; congruence).
  apply X in H. subst l.
  destruct (array_of _) as [bytes|e] eqn:A; [|eauto].
  apply array_of_app in A as (x & y & _ & A & _). discriminate.
Qed.
Print Assumptions C48_nested_refuted.

(** * C49 *)

(** C49 holds for these decoders, all documented to leave the iterator alone. *)
Theorem C49_unmoved_partial :
  Unmoved decode_short_integer /\ Unmoved decode_long_integer /\
  Unmoved decode_token_text /\ Unmoved decode_extension_media /\
  Unmoved decode_short_length /\ Unmoved decode_value_length /\
  Unmoved decode_integer_value /\ Unmoved decode_compact_value /\
  Unmoved decode_no_value /\ Unmoved decode_boolean_value /\
  Unmoved decode_priority_value /\ Unmoved decode_sender_visibility_value /\
  Unmoved decode_response_status_value /\ Unmoved decode_status_value /\
  Unmoved decode_header.
Proof.
  repeat match goal with |- _ /\ _ => split end; apply unmoved_wp.
  - apply stays_short_integer.
  - apply stays_long_integer.
  - apply stays_token_text.
  - apply stays_extension_media.
  - apply stays_short_length.
  - apply stays_value_length.
  - apply stays_integer_value.
  - apply stays_compact_value.
  - apply stays_no_value.
  - apply stays_boolean.
  - apply stays_priority.
  - apply stays_sender_visibility.
  - apply stays_response_status.
  - apply stays_status.
  - apply stays_header.
Qed.
Print Assumptions C49_unmoved_partial.
Example C49_case : reachable (snd (do_calls [Next; Preview] (new_iter [1; 99; 2; 3]))) /\
  fst (decode_value_length (snd (do_calls [Next; Preview] (new_iter [1; 99; 2; 3])))) <>
    Err DecodeError /\
  fst (decode_value_length (new_iter [99; 2])) = Err DecodeError.
Proof. split; [eexists; eexists; reflexivity|split; [discriminate|reflexivity]]. Qed.

(** C49 is false of these decoders, documented to leave the iterator alone. *)
Theorem C49_moved_refuted :
  Moved decode_well_known_media /\ Moved decode_well_known_parameter /\
  Moved decode_accept_value /\ Moved decode_pragma_value /\
  Moved decode_mms_header.
Proof.
  assert (H : forall A (m : ST piter A) data,
    match m (new_iter data) with
    | (Err DecodeError, it) =>
        negb (leqb (remaining it) data) &&
        match fst (next it), fst (next (new_iter data)) with
        | Ok a, Ok b => negb (a =? b)
        | Err _, Ok _ => true
        | _, _ => false
        end
    | _ => false
    end = true -> Moved m).
  { intros A m data H. exists (new_iter data).
    destruct (m (new_iter data)) as [[a|e] it] eqn:E; [discriminate|].
    destruct e; try discriminate. apply Bool.andb_true_iff in H as [H1 H2].
    split; [exists data, []; reflexivity|]. cbn [fst snd]. repeat split.
    - intros X. change (remaining (new_iter data)) with data in X. rewrite X, leqb_refl in H1.
      discriminate.
    - intros X. rewrite X in H2. destruct (fst (next (new_iter data))); [|discriminate].
      rewrite Z.eqb_refl in H2. discriminate. }
  repeat match goal with |- _ /\ _ => split end.
  - apply H with (data := [255; 65]). vm_compute. reflexivity.
  - apply H with (data := [255; 65]). vm_compute. reflexivity.
  - apply H with (data := [255; 65; 0]). vm_compute. reflexivity.
  - apply H with (data := [2; 255; 1; 0]). vm_compute. reflexivity.
  - apply H with (data := [134; 1]). vm_compute. reflexivity.
Qed.
Print Assumptions C49_moved_refuted.

(** * C64 *)

(** The WSP versions: "1.1" to "1.4". *)
Definition wsp_version (k : Z) : list Z := str "1." ++ [48 + k].

Lemma four : forall k, 1 <= k <= 4 -> k = 1 \/ k = 2 \/ k = 3 \/ k = 4.
Proof. lia. Qed.

(** C64: a number known in a version has the same name in every later one. *)
Theorem C64_names_grow : forall j k, 1 <= j -> j <= k -> k <= 4 ->
  exists a more, get_header_field_names (wsp_version j) = Ok a /\
    get_header_field_names (wsp_version k) = Ok (a ++ more).
Proof.
  intros j k Hj Hjk Hk.
  destruct (four j ltac:(lia)) as [->|[->|[->| ->]]];
  destruct (four k ltac:(lia)) as [->|[->|[->| ->]]]; try lia;
  (eexists; eexists;
   match goal with |- ?x = _ /\ ?y = Ok (_ ++ ?m) =>
     let a := eval vm_compute in x in
     let b := eval vm_compute in y in
     match a with Ok ?a => match b with Ok ?b =>
       let r := eval vm_compute in (skipn (length a) b) in
       instantiate (1 := r) end end end; split; vm_compute; reflexivity).
Qed.
Print Assumptions C64_names_grow.

Definition vtype_eq_dec : forall a b : vtype, {a = b} + {a <> b}.
Proof. decide equality. Defined.

(** C64: the same for parameter numbers, with name and value type. *)
Theorem C64_parameters_grow : forall j k, 1 <= j -> j <= k -> k <= 4 ->
  exists a b, get_well_known_parameters (wsp_version j) = Ok a /\
    get_well_known_parameters (wsp_version k) = Ok b /\
    forall n e, d_get Z.eqb n a = Some e -> d_get Z.eqb n b = Some e.
Proof.
  assert (G : forall a b : list (Z * (list Z * vtype)),
    forallb (fun p => match d_get Z.eqb (fst p) b with
                      | Some (s, t) =>
                          leqb s (fst (snd p)) &&
                          (if vtype_eq_dec t (snd (snd p)) then true else false)
                      | None => false end) a = true ->
    forall n e, d_get Z.eqb n a = Some e -> d_get Z.eqb n b = Some e).
  { intros a b H n [s t] E.
    assert (I : In (n, (s, t)) a).
    { revert E. clear. induction a as [|[k v] d IH]; [discriminate|].
      cbn. destruct (Z.eqb n k) eqn:E; intros H.
      - apply Z.eqb_eq in E. left. congruence.
      - right. auto. }
    rewrite forallb_forall in H. specialize (H _ I). cbn [fst snd] in H.
    destruct (d_get Z.eqb n b) as [[s' t']|]; [|discriminate].
    apply Bool.andb_true_iff in H as [H1 H2]. apply leqb_eq in H1.
    destruct (vtype_eq_dec t' t); [|discriminate]. congruence. }
  intros j k Hj Hjk Hk.
  destruct (four j ltac:(lia)) as [->|[->|[->| ->]]];
  destruct (four k ltac:(lia)) as [->|[->|[->| ->]]]; try lia;
  (eexists; eexists; split; [vm_compute; reflexivity|]; split; [vm_compute; reflexivity|];
   apply G; vm_compute; reflexivity).
Qed.
Print Assumptions C64_parameters_grow.

(** C64: any other version string raises ValueError. *)
Theorem C64_unknown_version : forall v,
  (forall k, 1 <= k <= 4 -> v <> wsp_version k) ->
  get_header_field_names v = Err ValueError /\
  get_well_known_parameters v = Err ValueError.
Proof.
  intros v H. assert (E : version_number v = Err ValueError).
  { unfold version_number.
    destruct (leqb v (str "1.1")) eqn:E1; [apply leqb_eq in E1; destruct (H 1); [lia|auto]|].
    destruct (leqb v (str "1.2")) eqn:E2; [apply leqb_eq in E2; destruct (H 2); [lia|auto]|].
    destruct (leqb v (str "1.3")) eqn:E3; [apply leqb_eq in E3; destruct (H 3); [lia|auto]|].
    destruct (leqb v (str "1.4")) eqn:E4; [apply leqb_eq in E4; destruct (H 4); [lia|auto]|].
    reflexivity. }
  unfold get_header_field_names, get_well_known_parameters. rewrite E. auto.
Qed.
Print Assumptions C64_unknown_version.
Example C64_case : (forall k, 1 <= k <= 4 -> str "1.5" <> wsp_version k) /\
  match get_header_field_names (str "1.1"), get_header_field_names (str "1.4") with
  | Ok a, Ok b => zlen a = 47 /\ zlen b = 72
  | _, _ => False
  end.
Proof.
  split.
  - intros k Hk H. destruct (four k Hk) as [->|[->|[->| ->]]]; discriminate.
  - vm_compute. auto.
Qed.

(** * C65 *)

(** C65: the decoded quality factor is the encoded one, as a rational number
    (rounding to a float is not modelled). *)
Theorem C65_quality : forall n ds d, 0 <= n < 1000 ->
  Forall digit128 ds -> digit128 d -> base128 (ds ++ [d]) = q_code n ->
  exists v, is_thousandths v n /\ Decodes decode_q_value (uintvar_octets ds d) v.
Proof.
  intros n ds d Hn Hds Hd E.
  exists (if 100 <? q_code n then PRatio (q_code n - 100) 1000
          else PRatio (q_code n - 1) 100).
  split.
  - unfold q_code in *. destruct (n mod 10 =? 0) eqn:M.
    + replace (100 <? n / 10 + 1) with false by lia. cbn. lia.
    + replace (100 <? n + 100) with true by lia. cbn. lia.
  - apply decodes_wp. intros rest. unfold decode_q_value.
    eapply wp_seq; [apply decode_uint_var_run; auto|]. rewrite E.
    destruct (100 <? q_code n).
    + rewrite small_float by (unfold q_code; destruct (n mod 10 =? 0); lia). wsteps. apply becomes_intro.
    + wsteps. apply becomes_intro.
Qed.
Print Assumptions C65_quality.
Example C65_case : q_code 100 = 11 /\ q_code 990 = 100 /\ q_code 333 = 433 /\
  uintvar_octets [3] 49 = [131; 49] /\ base128 ([3] ++ [49]) = q_code 333.
Proof. repeat split. Qed.

(** * C66 *)

Lemma flatten_elt_cons : forall x l, flatten_list (x :: l) = flatten_elt x ++ flatten_list l.
Proof. reflexivity. Qed.

(** C66: [flatten_list] returns the integers of the nested list from left to
    right, and a list holding anything but integers and lists is not flattened
    to integers. *)
Theorem C66_flatten : forall l r, flatten_list l = ints r <-> Flat l r.
Proof.
  intros l r. split.
  - revert l r.
    assert (G : forall x, match x with
                          | EList l => forall r, flatten_list l = ints r -> Flat l r
                          | _ => True end).
    { fix IH 1. intros x. destruct x as [n|ys|s]; [exact I| |exact I].
      induction ys as [|y ys IHys]; intros r F.
      - destruct r; [constructor|discriminate].
      - rewrite flatten_elt_cons in F. pose proof (IH y) as Hy. destruct y as [n|zs|s].
        + cbn [flatten_elt app] in F. destruct r as [|m r]; [discriminate|].
          injection F as -> F. constructor. apply IHys. exact F.
        + change (flatten_elt (EList zs)) with (flatten_list zs) in F.
          symmetry in F. apply map_eq_app in F as (r1 & r2 & -> & F1 & F2).
          constructor; [apply Hy; symmetry; exact F1|].
          apply IHys. symmetry. exact F2.
        + cbn [flatten_elt app] in F. destruct r; discriminate. }
    intros l r H. exact (G (EList l) r H).
  - intros H. induction H as [|n l r _ IH|x l r r' _ IH1 _ IH2].
    + reflexivity.
    + rewrite flatten_elt_cons, IH. reflexivity.
    + rewrite flatten_elt_cons. change (flatten_elt (EList x)) with (flatten_list x).
      rewrite IH1, IH2. unfold ints. rewrite map_app. reflexivity.
Qed.
Print Assumptions C66_flatten.
Example C66_case : Flat [EInt 1; EList [EInt 2; EList [EInt 3]; EList []]; EInt 4] [1; 2; 3; 4].
Proof. apply C66_flatten. reflexivity. Qed.
