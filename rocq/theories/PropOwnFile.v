(** C71, exactly: which saved files hold the message. *)
From Coq Require Import Lia ZifyBool ZifyNat.
From Verif Require Import Py Iter Tables WspDec WspEnc Message MmsEnc MmsDec
  SpecWsp WspClaims MmsClaims SpecMms PyFacts IterFacts WspFacts EncodeFacts FileFacts PropFrame MsgHeaderFacts.
Open Scope Z_scope.

(** The octets of a part: everything but the announced length and the data is the
    same in all worlds with the same order of headers. *)
Lemma part_octets w p b q : encode_part w p = (Ok b, q) ->
  exists pre post n d, b = pre ++ encode_uint_var n ++ post ++ d /\ 0 <= n /\
    (exists h, 0 <= h /\ pre = encode_uint_var h) /\
    len_of w p = Ok n /\ data_of w p = Ok d /\
    forall w' p' b' q', w_order w' = w_order w -> dp_headers p' = dp_headers p ->
      encode_part w' p' = (Ok b', q') ->
      exists n' d', b' = pre ++ encode_uint_var n' ++ post ++ d' /\ 0 <= n' /\
        len_of w' p' = Ok n' /\ data_of w' p' = Ok d'.
Proof.
  intros E.
  assert (K : forall w' p' b' q', w_order w' = w_order w -> dp_headers p' = dp_headers p ->
      encode_part w' p' = (Ok b', q') ->
      exists v name ps ct hs ctb hsb n' d',
        h_get (str "Content-Type") (dp_headers p) = Some v /\ unpack_type v = Ok (name, ps) /\
        encode_content_type_value name ps = Ok ct /\
        mapM (fun h => if leqb (fst h) (str "Content-Type") then Ok []
                       else wsp_encode_header (fst h) (snd h)) (w_order w (dp_headers p)) = Ok hs /\
        array_of ct = Ok ctb /\ array_of (concat hs) = Ok hsb /\
        b' = encode_uint_var (zlen ct + zlen (concat hs)) ++ encode_uint_var n' ++ (ctb ++ hsb) ++ d' /\
        0 <= n' /\ len_of w' p' = Ok n' /\ data_of w' p' = Ok d').
  { intros w' p' b' q' Ho Hh E'. destruct (part_frame _ _ _ _ E') as (n & d & L & D & Hn & _).
    unfold encode_part, st_bind, st_get, st_lift, st_ret in E'. rewrite Ho, Hh in E'.
    destruct (h_get _ _) as [v|]; [|discriminate].
    destruct (unpack_type v) as [[name ps]|] eqn:Ev; [|discriminate].
    destruct (encode_content_type_value name ps) as [ct|] eqn:Ect; [|discriminate].
    destruct (mapM _ _) as [hs|] eqn:Ehs; [|discriminate].
    destruct (part_len w' p') as [[k|] r] eqn:En; [|discriminate].
    destruct (array_of ct) as [ctb|] eqn:Ea; [|discriminate].
    destruct (array_of (concat hs)) as [hsb|] eqn:Eb; [|discriminate].
    destruct (get_data w' r) as [[d'|] r'] eqn:Ed; [|discriminate].
    exists v, name, ps, ct, hs, ctb, hsb, n, d.
    assert (k = n) as -> by (unfold len_of in L; rewrite En in L; cbn [fst] in L; congruence).
    assert (d' = d) as ->.
    { unfold data_of in D. revert En. unfold part_len, st_bind, st_get, st_ret.
      destruct (dp_filename p') as [f|] eqn:F.
      - destruct (w_file w' f); [|discriminate]. intros X. injection X as <- <-.
        rewrite Ed in D. cbn [fst] in D. congruence.
      - destruct (get_data w' p') as [[x|] y] eqn:G; [|discriminate]. intros X. injection X as <- <-.
        cbn [fst] in D. assert (x = d) as -> by congruence.
        revert G Ed. unfold get_data, st_bind, st_get, st_ret.
        rewrite F. destruct (dp_data p') eqn:P.
        + intros X. injection X as <- <-. rewrite P. intros X. injection X as <- _. reflexivity.
        + intros X. injection X as <- <-. rewrite P, F. intros X. injection X as <- _. reflexivity. }
    injection E' as <- _. rewrite <- app_assoc. repeat split; auto. }
  destruct (K w p b q eq_refl eq_refl E) as
    (v & name & ps & ct & hs & ctb & hsb & n & d & H1 & H2 & H3 & H4 & H5 & H6 & -> & Hn & L & D).
  exists (encode_uint_var (zlen ct + zlen (concat hs))), (ctb ++ hsb), n, d.
  split; [reflexivity|]. split; [exact Hn|]. split.
  { exists (zlen ct + zlen (concat hs)). split; [|reflexivity].
    pose proof (zlen_nonneg ct). pose proof (zlen_nonneg (concat hs)). lia. }
  split; [exact L|]. split; [exact D|]. intros w' p' b' q' Ho Hh E'.
  destruct (K w' p' b' q' Ho Hh E') as
    (v' & name' & ps' & ct' & hs' & ctb' & hsb' & n' & d' & G1 & G2 & G3 & G4 & G5 & G6 & -> & Hn' & L' & D').
  assert (v' = v) as -> by congruence. assert (name' = name /\ ps' = ps) as (-> & ->) by (split; congruence).
  assert (ct' = ct) as -> by congruence. assert (hs' = hs) as -> by congruence.
  assert (ctb' = ctb) as -> by congruence. assert (hsb' = hsb) as -> by congruence.
  exists n', d'. auto.
Qed.

(** The files that are not empty and that parts refer to show in what is written. *)
Lemma part_two w f p b q b' q' r r' : encode_part w p = (Ok b, q) ->
  encode_part (with_file f [] w) p = (Ok b', q') -> b ++ r = b' ++ r' ->
  (dp_filename p = Some f -> w_file w f = Some []) /\ r = r'.
Proof.
  intros E E' H.
  assert (Q : agree w (with_file f [] w) p -> r = r').
  { intros A. rewrite (encode_part_agree w (with_file f [] w) p eq_refl A) in E.
    assert (b = b') as -> by congruence. exact (app_inv_head _ _ _ H). }
  destruct (list_eq_dec Z.eq_dec (match dp_filename p with Some g => 1 :: g | None => [] end) (1 :: f)) as [Ef|Nf].
  2: { assert (N : dp_filename p <> Some f) by (intros X; rewrite X in Nf; apply Nf; reflexivity).
       split; [intros X; contradiction|]. apply Q. intros g Hg. symmetry. apply with_file_other.
       intros ->. contradiction. }
  assert (Hf : dp_filename p = Some f).
  { destruct (dp_filename p) as [g|]; [|discriminate Ef]. congruence. }
  destruct (part_octets _ _ _ _ E) as (pre & post & n & d & -> & Hn & (h & Hh & ->) & L & D & K).
  destruct (K (with_file f [] w) p _ _ eq_refl eq_refl E') as (n' & d' & -> & Hn' & L' & D').
  assert (X : w_file w f = Some []).
  { rewrite <- !app_assoc in H. apply app_inv_head in H.
    apply (uintvar_prefix n _ n') in H; try (apply uint_var_grammar; assumption).
    destruct H as (-> & _). unfold len_of, part_len, st_bind, st_get, st_ret in L, L'. rewrite Hf in L, L'.
    rewrite with_file_same in L'. destruct (w_file w f) as [c|]; [|discriminate L].
    cbn [fst] in L, L'. change (Ok 0 = Ok n') in L'. assert (zlen c = 0) as Z by congruence. unfold zlen in Z.
    destruct c; [reflexivity|cbn [length] in Z; lia]. }
  split; [auto|]. apply Q. intros g Hg. rewrite Hf in Hg. assert (g = f) as -> by congruence.
  rewrite with_file_same. exact X.
Qed.

Lemma slot_two w f s b q b' q' r r' : encode_slot w s = (Ok b, q) ->
  encode_slot (with_file f [] w) s = (Ok b', q') -> b ++ r = b' ++ r' ->
  (forall x, s = Some x -> dp_filename (fst (fst x)) = Some f -> w_file w f = Some []) /\ r = r'.
Proof.
  destruct s as [[[p tb] te]|]; unfold encode_slot; intros E E' H.
  - destruct (encode_part w p) as [rp p1] eqn:E1. destruct (encode_part (with_file f [] w) p) as [rp' p1'] eqn:E2.
    assert (rp = Ok b) as -> by congruence. assert (rp' = Ok b') as -> by congruence.
    destruct (part_two _ _ _ _ _ _ _ _ _ E1 E2 H) as [A B]. split; [|exact B].
    intros x Hx. assert (x = (p, tb, te)) as -> by congruence. exact A.
  - assert (b = [] /\ b' = []) as (-> & ->) by (split; congruence).
    split; [discriminate|exact H].
Qed.

Lemma page_two w f g b q b' q' r r' : encode_page w g = (Ok b, q) ->
  encode_page (with_file f [] w) g = (Ok b', q') -> b ++ r = b' ++ r' ->
  (forall x, In x (page_slots g) -> dp_filename (fst (fst x)) = Some f -> w_file w f = Some []) /\ r = r'.
Proof.
  unfold encode_page. intros E E' H.
  destruct (encode_slot w (pg_image g)) as [[a|] i] eqn:E1; [|discriminate].
  destruct (encode_slot (with_file f [] w) (pg_image g)) as [[a'|] i'] eqn:E1'; [|discriminate].
  cbn [pg_audio pg_text pg_image pg_duration] in E, E'.
  destruct (encode_slot w (pg_audio g)) as [[c|] j] eqn:E2; [|discriminate].
  destruct (encode_slot (with_file f [] w) (pg_audio g)) as [[c'|] j'] eqn:E2'; [|discriminate].
  destruct (encode_slot w (pg_text g)) as [[d|] k] eqn:E3; [|discriminate].
  destruct (encode_slot (with_file f [] w) (pg_text g)) as [[d'|] k'] eqn:E3'; [|discriminate].
  assert (b = a ++ c ++ d) as -> by congruence. assert (b' = a' ++ c' ++ d') as -> by congruence.
  rewrite <- !app_assoc in H.
  destruct (slot_two _ _ _ _ _ _ _ _ _ E1 E1' H) as [A1 H1].
  destruct (slot_two _ _ _ _ _ _ _ _ _ E2 E2' H1) as [A2 H2].
  destruct (slot_two _ _ _ _ _ _ _ _ _ E3 E3' H2) as [A3 H3].
  split; [|exact H3]. intros x Hx. unfold page_slots in Hx. apply in_flat_map in Hx.
  destruct Hx as (s & Hs & Hx). destruct s as [y|]; [|destruct Hx].
  destruct Hx as [<-|[]]. destruct Hs as [Hs|[Hs|[Hs|[]]]]; eauto.
Qed.

Lemma pages_two w f : forall gs b q b' q' r r', encode_pages w gs = (Ok b, q) ->
  encode_pages (with_file f [] w) gs = (Ok b', q') -> b ++ r = b' ++ r' ->
  forall x, In x (flat_map page_slots gs) -> dp_filename (fst (fst x)) = Some f -> w_file w f = Some [].
Proof.
  induction gs as [|g gs IH]; intros b q b' q' r r' E E' H x Hx; [destruct Hx|].
  cbn [encode_pages] in E, E'.
  destruct (encode_page w g) as [[a|] g1] eqn:E1; [|discriminate].
  destruct (encode_page (with_file f [] w) g) as [[a'|] g1'] eqn:E1'; [|discriminate].
  destruct (encode_pages w gs) as [[c|] gs1] eqn:E2; [|discriminate].
  destruct (encode_pages (with_file f [] w) gs) as [[c'|] gs1'] eqn:E2'; [|discriminate].
  assert (b = a ++ c) as -> by congruence. assert (b' = a' ++ c') as -> by congruence.
  rewrite <- !app_assoc in H.
  destruct (page_two _ _ _ _ _ _ _ _ _ E1 E1' H) as [A1 H1].
  cbn [flat_map] in Hx. apply in_app_or in Hx. destruct Hx as [Hx|Hx]; [exact (A1 x Hx)|].
  exact (IH _ _ _ _ _ _ eq_refl eq_refl H1 x Hx).
Qed.

(** C71, exactly: a file that was saved holds the message as it was just when no part
    refers to that file, or the file was empty. *)
Theorem C71_exact : forall render rand f m w b m1 m2 w2,
  encode render w rand m = (Ok b, m1) ->
  to_file render true rand f (m, w) = (Ok tt, (m2, w2)) ->
  (w_file w2 f = Some b <-> unused f m \/ w_file w f = Some []).
Proof.
  intros render rand f m w b m1 m2 w2 E T. split.
  - intros Hb. unfold to_file in T. cbn [negb] in T.
    destruct (encode render (with_file f [] w) rand m) as [[b'|] m'] eqn:E'; [|discriminate].
    assert (b' = b) as ->.
    { assert (w2 = with_file f b' (with_file f [] w)) as -> by congruence.
      rewrite with_file_same in Hb. congruence. }
    destruct (encode_inv _ _ _ _ _ _ E) as (h & x & n1 & A1 & A2 & -> & _).
    destruct (encode_inv _ _ _ _ _ _ E') as (h' & x' & n1' & B1 & B2 & Eb & _).
    rewrite (header_agree w (with_file f [] w) rand m eq_refl) in A1.
    assert (h' = h /\ n1' = n1) as (-> & ->) by (split; congruence).
    apply app_inv_head in Eb. subst x'. apply header_pages in A1.
    unfold encode_message_body, st_bind, st_get, st_lift in A2, B2.
    destruct (smil render w n1) as [text|]; [|discriminate].
    destruct (smil render (with_file f [] w) n1) as [text'|]; [|discriminate].
    destruct (encode_part w (smil_part text)) as [[a|] p1] eqn:Ea; [|discriminate].
    destruct (encode_part (with_file f [] w) (smil_part text')) as [[a'|] p1'] eqn:Ea'; [|discriminate].
    cbn [fst] in A2, B2.
    destruct (encode_pages w (m_pages n1)) as [[y|] gs] eqn:Ep; [|discriminate].
    destruct (encode_pages (with_file f [] w) (m_pages n1)) as [[y'|] gs'] eqn:Ep'; [|discriminate].
    assert (X : encode_uint_var (num_entries n1) ++ a ++ y = encode_uint_var (num_entries n1) ++ a' ++ y') by congruence.
    apply app_inv_head in X.
    destruct (part_octets _ _ _ _ Ea) as (pre & post & n & d & -> & Hn & (k & Hk & ->) & L & D & K).
    destruct (K (with_file f [] w) (smil_part text') _ _ eq_refl eq_refl Ea') as (n' & d' & -> & Hn' & L' & D').
    change (Ok (zlen text) = Ok n) in L. change (Ok (zlen text') = Ok n') in L'.
    change (Ok text = Ok d) in D. change (Ok text' = Ok d') in D'.
    assert (n = zlen text) as -> by congruence. assert (n' = zlen text') as -> by congruence.
    assert (d = text) as -> by congruence. assert (d' = text') as -> by congruence.
    rewrite <- !app_assoc in X. apply app_inv_head in X.
    apply (uintvar_prefix (zlen text) _ (zlen text')) in X; try (apply uint_var_grammar; assumption).
    destruct X as (Z & X). apply app_inv_head in X.
    assert (Y : y = y').
    { apply (f_equal (skipn (length text))) in X. rewrite skipn_app, skipn_all, Nat.sub_diag in X.
      unfold zlen in Z. replace (length text) with (length text') in X by lia.
      rewrite skipn_app, skipn_all, Nat.sub_diag in X. exact X. }
    destruct (list_eq_dec Z.eq_dec (match w_file w f with Some c => c | None => [1] end) []) as [Ew|Nw].
    { right. destruct (w_file w f) as [c|]; [congruence|discriminate Ew]. }
    left. unfold unused, slide_parts. rewrite Forall_map. apply Forall_forall. intros s Hs Hf.
    apply Nw. rewrite <- A1 in Hs. subst y'.
    rewrite (pages_two w f _ _ _ _ _ [] [] Ep Ep' eq_refl s Hs Hf). reflexivity.
  - intros H.
    assert (X : encode render (with_file f [] w) rand m = (Ok b, m1)).
    { destruct H as [H|H].
      - rewrite <- E. apply encode_agree; [reflexivity|]. apply unused_agree. exact H.
      - rewrite <- E. apply encode_agree; [reflexivity|]. apply Forall_forall. intros g _.
        assert (A : forall p, agree (with_file f [] w) w p).
        { intros p k _. destruct (list_eq_dec Z.eq_dec k f) as [->|N].
          - rewrite with_file_same. congruence.
          - apply with_file_other. exact N. }
        repeat split; [destruct (pg_image g)|destruct (pg_audio g)|destruct (pg_text g)];
          cbn [slot_agree]; auto. }
    unfold to_file in T. cbn [negb] in T. rewrite X in T.
    assert (w2 = with_file f b (with_file f [] w)) as -> by congruence. apply with_file_same.
Qed.
Print Assumptions C71_exact.
