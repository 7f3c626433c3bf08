(** Lemmas about [to_file] and about what encoding reads from the file system. *)
From Coq Require Import Lia ZifyBool ZifyNat.
From Verif Require Import Py Iter Tables WspDec WspEnc Message MmsEnc MmsDec
  SpecWsp WspClaims MmsClaims PyFacts.
Open Scope Z_scope.

(** Two worlds that agree on the files a part refers to. *)
Definition agree (w w' : world) (p : part) : Prop :=
  forall f, dp_filename p = Some f -> w_file w f = w_file w' f.

Lemma get_data_agree w w' p : agree w w' p -> get_data w p = get_data w' p.
Proof.
  intros H. unfold get_data, st_bind, st_get.
  destruct (dp_data p) as [d|]; [reflexivity|].
  destruct (dp_filename p) as [f|] eqn:E; [|reflexivity].
  now rewrite (H f E).
Qed.

Lemma part_len_agree w w' p : agree w w' p -> part_len w p = part_len w' p.
Proof.
  intros H. unfold part_len, st_bind at 1 3, st_get.
  destruct (dp_filename p) as [f|] eqn:E.
  - now rewrite (H f E).
  - unfold st_bind. now rewrite (get_data_agree w w' p H).
Qed.

Lemma part_len_state w p r p' : part_len w p = (r, p') -> dp_filename p' = dp_filename p.
Proof.
  unfold part_len, st_bind, st_get, st_ret, st_err.
  destruct (dp_filename p) as [f|] eqn:E.
  - destruct (w_file w f); intros X; injection X; intros <- _; exact E.
  - unfold get_data, st_bind, st_get, st_ret. rewrite E.
    destruct (dp_data p); intros X; injection X; intros <- _; exact E.
Qed.

Lemma encode_part_agree w w' p : w_order w = w_order w' -> agree w w' p ->
  encode_part w p = encode_part w' p.
Proof.
  intros Ho H. unfold encode_part, st_bind, st_lift, st_get.
  destruct (h_get (str "Content-Type") (dp_headers p)) as [v|]; [|reflexivity]. rewrite Ho.
  destruct (unpack_type v) as [[name ps]|e]; [|reflexivity].
  destruct (encode_content_type_value name ps) as [ct|e]; [|reflexivity].
  destruct (mapM _ _) as [hs|e]; [|reflexivity].
  rewrite (part_len_agree w w' p H). destruct (part_len w' p) as [r p'] eqn:E.
  destruct r; [|reflexivity].
  destruct (array_of ct); [|reflexivity]. destruct (array_of (concat hs)); [|reflexivity].
  rewrite (get_data_agree w w' p'); [reflexivity|].
  intros f X. apply H. rewrite <- X. symmetry. exact (part_len_state _ _ _ _ E).
Qed.

Definition slot_agree (w w' : world) (s : slot) : Prop :=
  match s with Some x => agree w w' (fst (fst x)) | None => True end.
Definition page_agree (w w' : world) (g : page) : Prop :=
  slot_agree w w' (pg_image g) /\ slot_agree w w' (pg_audio g) /\ slot_agree w w' (pg_text g).

Lemma encode_slot_agree w w' s : w_order w = w_order w' -> slot_agree w w' s ->
  encode_slot w s = encode_slot w' s.
Proof.
  intros Ho H. destruct s as [[[p tb] te]|]; [|reflexivity].
  unfold encode_slot. now rewrite (encode_part_agree w w' p Ho H).
Qed.

Lemma encode_page_agree w w' g : w_order w = w_order w' -> page_agree w w' g ->
  encode_page w g = encode_page w' g.
Proof.
  intros Ho (A & B & C). unfold encode_page. rewrite (encode_slot_agree w w' _ Ho A).
  destruct (encode_slot w' (pg_image g)) as [ra i]. cbn [pg_audio pg_text].
  rewrite (encode_slot_agree w w' _ Ho B), (encode_slot_agree w w' _ Ho C). reflexivity.
Qed.

Lemma encode_pages_agree w w' gs : w_order w = w_order w' -> Forall (page_agree w w') gs ->
  encode_pages w gs = encode_pages w' gs.
Proof.
  intros Ho H. induction H as [|g r Hg _ IH]; [reflexivity|]. cbn [encode_pages].
  now rewrite (encode_page_agree w w' g Ho Hg), IH.
Qed.

Lemma data_of_agree w w' p : agree w w' p -> data_of w p = data_of w' p.
Proof. intros H. unfold data_of. now rewrite (get_data_agree w w' p H). Qed.

Lemma media_src_agree w w' p : agree w w' p -> media_src w p = media_src w' p.
Proof. intros H. unfold media_src. now rewrite (data_of_agree w w' p H). Qed.

Lemma smil_page_agree w w' i pars tn g : page_agree w w' g ->
  smil_page w i pars tn g = smil_page w' i pars tn g.
Proof.
  intros (A & B & C). unfold smil_page.
  destruct (pg_image g) as [[[p tb] te]|], (pg_audio g) as [[[p1 tb1] te1]|],
    (pg_text g) as [[[p2 tb2] te2]|]; cbn [slot_agree fst] in *;
    rewrite ?(media_src_agree w w' _ A), ?(media_src_agree w w' _ B), ?(data_of_agree w w' _ C);
    reflexivity.
Qed.

Lemma smil_pages_agree w w' gs : Forall (page_agree w w') gs -> forall i pars tn,
  smil_pages w i pars tn gs = smil_pages w' i pars tn gs.
Proof.
  induction 1 as [|g r Hg _ IH]; intros i pars tn; [reflexivity|]. cbn [smil_pages].
  rewrite (smil_page_agree w w' i pars tn g Hg).
  destruct (smil_page w' i pars tn g) as [[pars' tn']|e]; [|reflexivity]. cbn [bind]. apply IH.
Qed.

Lemma smil_agree render w w' m : Forall (page_agree w w') (m_pages m) ->
  smil render w m = smil render w' m.
Proof. intros H. unfold smil, smil_tree. now rewrite (smil_pages_agree w w' _ H). Qed.

Lemma header_agree w w' rand m : w_order w = w_order w' ->
  encode_message_header w rand m = encode_message_header w' rand m.
Proof. intros Ho. unfold encode_message_header, encode_others. now rewrite Ho. Qed.

Lemma encode_first_pages ks : forall m r m', encode_first ks m = (r, m') -> m_pages m' = m_pages m.
Proof.
  induction ks as [|k ks IH]; intros m r m'; cbn [encode_first]; unfold st_ret.
  - intros X. injection X. now intros <- _.
  - unfold st_bind at 1, st_get. unfold st_bind at 1, st_lift.
    destruct (encode_entry k (m_headers m)).
    + unfold st_bind at 1, st_upd. unfold st_bind, st_ret.
      destruct (encode_first ks _) as [q m1] eqn:E. apply IH in E. cbn [with_headers m_pages] in E.
      destruct q; intros X; injection X; intros <- _; exact E.
    + intros X. injection X. now intros <- _.
Qed.

Lemma header_pages w rand m r m' : encode_message_header w rand m = (r, m') -> m_pages m' = m_pages m.
Proof.
  unfold encode_message_header. unfold st_bind at 1 2 3, st_upd.
  unfold st_bind at 1. destruct (encode_first _ _) as [q m1] eqn:E. apply encode_first_pages in E.
  cbn [with_headers m_pages] in E. destruct q; [|intros X; injection X; intros <- _; exact E].
  unfold st_bind, st_get, st_lift, st_ret.
  destruct (encode_others w (m_headers m1)); [|intros X; injection X; intros <- _; exact E].
  destruct (encode_last (m_headers m1)); intros X; injection X; intros <- _; exact E.
Qed.

(** Encoding only reads the files of the parts on the slides. *)
Lemma encode_agree render w w' rand m : w_order w = w_order w' ->
  Forall (page_agree w w') (m_pages m) -> encode render w rand m = encode render w' rand m.
Proof.
  intros Ho H. unfold encode. unfold st_bind at 1 3. rewrite (header_agree w w' rand m Ho).
  destruct (encode_message_header w' rand m) as [r m1] eqn:E. apply header_pages in E.
  destruct r; [|reflexivity]. rewrite <- E in H.
  assert (X : encode_message_body render w m1 = encode_message_body render w' m1).
  { unfold encode_message_body, st_bind, st_get, st_lift.
    rewrite (smil_agree render w w' m1 H). destruct (smil render w' m1) as [text|]; [|reflexivity].
    rewrite (encode_part_agree w w' (smil_part text) Ho) by (intros f Hf; discriminate Hf).
    destruct (fst (encode_part w' (smil_part text))); [|reflexivity].
    now rewrite (encode_pages_agree w w' _ Ho H). }
  unfold st_bind. now rewrite X.
Qed.

Lemma with_file_same f c w : w_file (with_file f c w) f = Some c.
Proof. cbn. now rewrite leqb_refl. Qed.
Lemma with_file_other f c w g : g <> f -> w_file (with_file f c w) g = w_file w g.
Proof.
  intros H. cbn. destruct (leqb g f) eqn:E; [|reflexivity]. apply leqb_eq in E. contradiction.
Qed.

Lemma unused_agree f c w m : unused f m -> Forall (page_agree (with_file f c w) w) (m_pages m).
Proof.
  unfold unused, slide_parts. intros H. rewrite Forall_map in H.
  induction (m_pages m) as [|g r IH]; [constructor|]. cbn [flat_map] in H.
  apply Forall_app in H. destruct H as (A & B). constructor; [|auto].
  assert (Q : forall s x, In s [pg_image g; pg_audio g; pg_text g] -> s = Some x ->
    dp_filename (fst (fst x)) <> Some f).
  { intros s x Hs ->. rewrite Forall_forall in A. apply A. unfold page_slots.
    apply in_flat_map. exists (Some x). split; [exact Hs|now left]. }
  assert (R : forall s, In s [pg_image g; pg_audio g; pg_text g] -> slot_agree (with_file f c w) w s).
  { intros [x|] Hs; [|exact I]. intros g' Hg'. apply with_file_other.
    intros ->. exact (Q _ x Hs eq_refl Hg'). }
  unfold page_agree. repeat split; apply R; cbn; auto.
Qed.

Lemma to_file_run render rand f m w : unused f m ->
  to_file render true rand f (m, w) =
  match encode render w rand m with
  | (Ok b, m') => (Ok tt, (m', with_file f b (with_file f [] w)))
  | (Err e, m') => (Err e, (m', with_file f [] w))
  end.
Proof.
  intros H. unfold to_file. cbn [negb].
  rewrite (encode_agree render (with_file f [] w) w rand m eq_refl (unused_agree f [] w m H)).
  reflexivity.
Qed.
