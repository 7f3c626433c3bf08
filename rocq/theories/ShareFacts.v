(** Facts about shared objects. *)
From Coq Require Import Lia ZifyBool ZifyNat.
From Verif Require Import Py Iter WspDec WspEnc Message MmsEnc BodyFacts FileFacts Share SpecShare.
Open Scope Z_scope.

(** [p1] is [p], possibly after it was encoded. *)
Definition like (w : world) (p p1 : part) : Prop :=
  p1 = p \/ exists b, encode_part w p = (Ok b, p1).

Lemma encode_part_err : forall w p e p1, encode_part w p = (Err e, p1) -> p1 = p.
Proof.
  intros w [h ps f d] e p1 E. unfold encode_part in E.
  unfold st_bind at 1, st_get at 1 in E. cbn [dp_headers] in E.
  destruct (h_get (str "Content-Type") h) as [v|]; [|inversion E; reflexivity].
  unfold st_lift, st_bind in E.
  destruct (unpack_type v) as [[name q]|]; [|inversion E; reflexivity].
  destruct (encode_content_type_value name q) as [ct|]; [|inversion E; reflexivity].
  destruct (mapM _ (w_order w h)) as [hs|]; [|inversion E; reflexivity].
  revert E. unfold part_len, get_data, st_bind, st_get, st_ret, st_err, st_upd.
  cbn [dp_filename dp_data].
  destruct f as [f|]; [destruct (w_file w f) as [c|] eqn:Ef|]; destruct d as [d|];
    cbn [dp_filename dp_data]; try rewrite Ef;
    destruct (array_of ct); destruct (array_of (concat hs)); intros E;
    inversion E; reflexivity.
Qed.

Lemma like_refl : forall w p, like w p p.
Proof. now left. Qed.
Lemma like_source : forall w p p1, like w p p1 -> same_source w p p1.
Proof.
  intros w p p1 [-> | [b E]]; [split; reflexivity|].
  exact (proj1 (encode_part_again w p b p1 E)).
Qed.
Lemma like_fst : forall w p p1, like w p p1 -> fst (encode_part w p1) = fst (encode_part w p).
Proof.
  intros w p p1 [-> | [b E]]; [reflexivity|].
  rewrite (proj2 (encode_part_again w p b p1 E)), E. reflexivity.
Qed.
Lemma like_step : forall w p p1, like w p p1 -> like w p (snd (encode_part w p1)).
Proof.
  intros w p p1 [-> | [b E]].
  - destruct (encode_part w p) as [[b|e] p1] eqn:E; cbn [snd].
    + right. now exists b.
    + left. exact (encode_part_err _ _ _ _ E).
  - rewrite (proj2 (encode_part_again w p b p1 E)). right. now exists b.
Qed.

(** * Parts in a row *)

Fixpoint all_ok (l : list (res (list Z))) : res (list Z) :=
  match l with
  | [] => Ok []
  | Ok a :: r => match all_ok r with Ok b => Ok (a ++ b) | Err e => Err e end
  | Err e :: _ => Err e
  end.

Lemma all_ok_app : forall a b, all_ok (a ++ b) =
  match all_ok a with
  | Ok x => match all_ok b with Ok y => Ok (x ++ y) | Err e => Err e end
  | Err e => Err e
  end.
Proof.
  induction a as [|[x|e] a IH]; intros b; cbn [all_ok app]; [|rewrite IH|reflexivity].
  - destruct (all_ok b); reflexivity.
  - destruct (all_ok a); [|reflexivity]. destruct (all_ok b); [|reflexivity].
    now rewrite app_assoc.
Qed.

Definition slot_part (s : slot) : list part := match s with Some (p, _, _) => [p] | None => [] end.
Definition page_part_list (g : page) : list part :=
  slot_part (pg_image g) ++ slot_part (pg_audio g) ++ slot_part (pg_text g).

Definition part_octets (w : world) (p : part) : res (list Z) := fst (encode_part w p).

Lemma encode_slot_fst : forall w s, fst (encode_slot w s) = all_ok (map (part_octets w) (slot_part s)).
Proof.
  intros w [[[p tb] te]|]; [|reflexivity]. unfold encode_slot, part_octets.
  cbn [slot_part map all_ok].
  destruct (encode_part w p) as [[b|e] p1]; cbn [fst]; [now rewrite app_nil_r|reflexivity].
Qed.
Lemma encode_page_fst : forall w g, fst (encode_page w g) = all_ok (map (part_octets w) (page_part_list g)).
Proof.
  intros w [d i a t]. unfold encode_page, page_part_list. cbn [pg_image pg_audio pg_text pg_duration].
  rewrite !map_app, !all_ok_app, <- !encode_slot_fst.
  destruct (encode_slot w i) as [[x|] i1]; cbn [fst]; [|reflexivity].
  destruct (encode_slot w a) as [[y|] a1]; cbn [fst]; [|reflexivity].
  destruct (encode_slot w t) as [[z|] t1]; reflexivity.
Qed.
Lemma encode_pages_fst : forall w gs,
  fst (encode_pages w gs) = all_ok (map (part_octets w) (flat_map page_part_list gs)).
Proof.
  intros w gs. induction gs as [|g gs IH]; [reflexivity|]. cbn [encode_pages flat_map].
  rewrite map_app, all_ok_app, <- encode_page_fst, <- IH.
  destruct (encode_page w g) as [[x|] g1]; cbn [fst]; [|reflexivity].
  destruct (encode_pages w gs) as [[y|] gs1]; reflexivity.
Qed.

(** Every part of [h1] is one of [h], possibly encoded; the rest is the same. *)
Definition parts_like (w : world) (h h1 : heap) : Prop :=
  (forall j, like w (h_parts h j) (h_parts h1 j)) /\ h_pages h1 = h_pages h /\
  h_msgs h1 = h_msgs h /\ h_next h1 = h_next h.

Lemma encode_parts_run : forall w js h0 h, parts_like w h0 h ->
  fst (h_encode_parts w js h) = all_ok (map (part_octets w) (map (h_parts h0) js)) /\
  parts_like w h0 (snd (h_encode_parts w js h)).
Proof.
  intros w js h0. induction js as [|j js IH]; intros h H; cbn [h_encode_parts map all_ok].
  - split; [reflexivity|exact H].
  - destruct H as (Hp & H).
    pose proof (like_fst _ _ _ (Hp j)) as Ef. pose proof (like_step _ _ _ (Hp j)) as Es.
    unfold part_octets at 1. rewrite <- Ef.
    destruct (encode_part w (h_parts h j)) as [x p1]. cbn [fst snd] in *.
    assert (H1 : parts_like w h0 (put_part j p1 h)).
    { split; [|exact H]. intros i. unfold put_part, set_at. cbn [h_parts].
      destruct (Nat.eqb i j) eqn:E; [apply PeanoNat.Nat.eqb_eq in E; subst i; exact Es|apply Hp]. }
    destruct x as [a|e]; [|split; [reflexivity|exact H1]].
    destruct (IH _ H1) as (E & H2). rewrite <- E.
    destruct (h_encode_parts w js (put_part j p1 h)) as [[b|e] h2]; split; try reflexivity; exact H2.
Qed.

(** * The headers *)

Lemma first_only : forall ks m pg pt a b,
  encode_first ks (Message (m_headers m) pg pt a b) =
  (fst (encode_first ks m), Message (m_headers (snd (encode_first ks m))) pg pt a b).
Proof.
  induction ks as [|k ks IH]; intros m pg pt a b; cbn [encode_first]; [reflexivity|].
  unfold st_bind, st_get, st_lift, st_upd, st_ret. cbn [m_headers].
  destruct (encode_entry k (m_headers m)) as [x|e]; [|reflexivity].
  unfold with_headers at 1. cbn [m_pages m_parts m_width m_height m_headers].
  pose proof (IH (with_headers (d_del leqb k (m_headers m)) m) pg pt a b) as E.
  cbn [with_headers m_headers] in E. unfold with_headers in *. rewrite E.
  destruct (encode_first ks (Message (d_del leqb k (m_headers m)) (m_pages m) (m_parts m)
    (m_width m) (m_height m))) as [[y|e] m1]; reflexivity.
Qed.

Lemma header_only : forall w rand m pg pt a b,
  encode_message_header w rand (Message (m_headers m) pg pt a b) =
  (fst (encode_message_header w rand m),
   Message (m_headers (snd (encode_message_header w rand m))) pg pt a b).
Proof.
  intros w rand m pg pt a b. unfold encode_message_header.
  unfold st_bind, st_upd, st_get, st_lift, st_ret.
  pose (m3 := Message (fix_rest rand (fix_message_type (renames (m_headers m)))) (m_pages m)
                      (m_parts m) (m_width m) (m_height m)).
  pose proof (first_only [str "Message-Type"; str "Transaction-Id"; str "MMS-Version"] m3 pg pt a b) as E.
  unfold with_headers. cbn [m_headers m_pages m_parts m_width m_height].
  unfold m3 at 1 in E. cbn [m_headers] in E. rewrite E. clear E. fold m3.
  destruct (encode_first [str "Message-Type"; str "Transaction-Id"; str "MMS-Version"] m3) as [[x|e] m4];
    cbn [fst snd m_headers]; [|reflexivity].
  destruct (encode_others w (m_headers m4)); [|reflexivity].
  destruct (encode_last (m_headers m4)); reflexivity.
Qed.

Lemma header_snd : forall w rand m,
  snd (encode_message_header w rand m) =
  with_headers (m_headers (snd (encode_message_header w rand m))) m.
Proof.
  intros w rand [hs pg pt a b]. change hs with (m_headers (Message hs pg pt a b)) at 1.
  rewrite (header_only w rand (Message hs pg pt a b) pg pt a b). reflexivity.
Qed.

(** * What encoding returns, all at once *)

Definition encode_result (render : xml -> list Z) (w : world) (rand : Z) (m : message) : res (list Z) :=
  match fst (encode_message_header w rand m) with
  | Err e => Err e
  | Ok a =>
      match smil render w m with
      | Err e => Err e
      | Ok text =>
          match fst (encode_part w (smil_part text)) with
          | Err e => Err e
          | Ok b =>
              match all_ok (map (part_octets w) (flat_map page_part_list (m_pages m))) with
              | Err e => Err e
              | Ok c => Ok (a ++ encode_uint_var (num_entries m) ++ b ++ c)
              end
          end
      end
  end.

Lemma smil_headers : forall render w hs m, smil render w (with_headers hs m) = smil render w m.
Proof. reflexivity. Qed.

Lemma encode_fst : forall render w rand m, fst (encode render w rand m) = encode_result render w rand m.
Proof.
  intros render w rand m. unfold encode, encode_result. unfold st_bind at 1.
  pose proof (header_snd w rand m) as E.
  destruct (encode_message_header w rand m) as [[a|e] m1]; cbn [fst snd] in *; [|reflexivity].
  rewrite E. generalize (m_headers m1). intros hs. clear E m1.
  unfold encode_message_body, st_bind, st_get, st_lift, st_ret.
  rewrite (smil_headers render w hs m).
  destruct (smil render w m) as [text|e]; [|reflexivity].
  destruct (fst (encode_part w (smil_part text))) as [b|e]; [|reflexivity].
  change (m_pages (with_headers hs m)) with (m_pages m).
  rewrite <- encode_pages_fst.
  destruct (encode_pages w (m_pages m)) as [[c|e] gs]; reflexivity.
Qed.

Lemma page_refs_parts : forall h i, page_part_list (page_value h i) = map (h_parts h) (page_refs (h_pages h i)).
Proof.
  intros h i. unfold page_part_list, page_refs, page_value. cbn [pg_image pg_audio pg_text].
  destruct (h_pages h i) as [d [[[x1 x2] x3]|] [[[y1 y2] y3]|] [[[z1 z2] z3]|]]; reflexivity.
Qed.

(** Encoding changes the headers of the message and caches of parts; nothing else. *)
Definition encoded_like (w : world) (k : nat) (hs : list (list Z * hval)) (h h1 : heap) : Prop :=
  (forall j, like w (h_parts h j) (h_parts h1 j)) /\ h_pages h1 = h_pages h /\
  h_msgs h1 = set_at k (HMsg hs (hm_pages (h_msgs h k)) (hm_parts (h_msgs h k))
                             (hm_width (h_msgs h k)) (hm_height (h_msgs h k))) (h_msgs h) /\
  h_next h1 = h_next h.

Lemma h_encode_run : forall render w rand k h,
  fst (h_encode render w rand k h) = encode_result render w rand (message_value h k) /\
  encoded_like w k (m_headers (snd (encode_message_header w rand (message_value h k)))) h
    (snd (h_encode render w rand k h)).
Proof.
  intros render w rand k h. unfold h_encode, encode_result.
  destruct (encode_message_header w rand (message_value h k)) as [x v]. cbn [fst snd].
  set (hs := m_headers v). set (h1 := put_msg k _ h).
  assert (H1 : encoded_like w k hs h h1).
  { split; [intros j; apply like_refl|auto]. }
  destruct x as [a|e]; [|split; [reflexivity|exact H1]].
  assert (V : message_value h1 k = with_headers hs (message_value h k)).
  { unfold message_value, h1, put_msg, set_at. cbn [h_msgs]. rewrite PeanoNat.Nat.eqb_refl. reflexivity. }
  rewrite V, smil_headers. clear V.
  destruct (smil render w (message_value h k)) as [text|e]; [|split; [reflexivity|exact H1]].
  destruct (fst (encode_part w (smil_part text))) as [b|e]; [|split; [reflexivity|exact H1]].
  set (js := flat_map _ _).
  assert (J : map (h_parts h1) js = flat_map page_part_list (m_pages (message_value h k))).
  { unfold js, message_value. cbn [m_pages h_parts h_pages h1 put_msg].
    generalize (hm_pages (h_msgs h k)). clear. intros l. induction l as [|i l IH]; [reflexivity|].
    cbn [flat_map map]. rewrite map_app, IH. f_equal. symmetry. apply page_refs_parts. }
  destruct (encode_parts_run w js h1 h1) as (E & P).
  { split; [intros j; apply like_refl|auto]. }
  rewrite J in E. rewrite <- E. clear E J.
  destruct (h_encode_parts w js h1) as [y h2]. cbn [fst snd] in *.
  assert (H2 : encoded_like w k hs h h2).
  { destruct P as (Pp & Pg & Pm & Pn), H1 as (Hp & Hg & Hm & Hn).
    split; [exact Pp|]. rewrite Pg, Pm, Pn. auto. }
  destruct y; (split; [reflexivity|exact H2]).
Qed.

(** * Objects that differ in caches only *)

Definition slot_like (w : world) (s s1 : slot) : Prop :=
  match s, s1 with
  | None, None => True
  | Some (p, tb, te), Some (p1, tb1, te1) => like w p p1 /\ tb1 = tb /\ te1 = te
  | _, _ => False
  end.
Definition page_like (w : world) (g g1 : page) : Prop :=
  pg_duration g1 = pg_duration g /\ slot_like w (pg_image g) (pg_image g1) /\
  slot_like w (pg_audio g) (pg_audio g1) /\ slot_like w (pg_text g) (pg_text g1).

Lemma slot_like_same : forall w s s1, slot_like w s s1 -> slot_same w s s1.
Proof.
  intros w [[[p tb] te]|] [[[p1 tb1] te1]|] H; cbn in *; try contradiction; [|exact I].
  destruct H as (H & -> & ->). split; [now apply like_source|auto].
Qed.
Lemma page_like_same : forall w g g1, page_like w g g1 -> page_same w g g1.
Proof.
  intros w g g1 (Hd & Hi & Ha & Ht). split; [exact Hd|].
  auto using slot_like_same.
Qed.
Lemma slot_like_octets : forall w s s1, slot_like w s s1 ->
  map (part_octets w) (slot_part s1) = map (part_octets w) (slot_part s).
Proof.
  intros w [[[p tb] te]|] [[[p1 tb1] te1]|] H; cbn in H; try contradiction; [|reflexivity].
  destruct H as (H & _). cbn [slot_part map]. unfold part_octets. now rewrite (like_fst w p p1 H).
Qed.
Lemma page_like_octets : forall w g g1, page_like w g g1 ->
  map (part_octets w) (page_part_list g1) = map (part_octets w) (page_part_list g).
Proof.
  intros w g g1 (_ & Hi & Ha & Ht). unfold page_part_list. rewrite !map_app.
  now rewrite (slot_like_octets _ _ _ Hi), (slot_like_octets _ _ _ Ha), (slot_like_octets _ _ _ Ht).
Qed.

Definition message_like (w : world) (m m1 : message) : Prop :=
  m_headers m1 = m_headers m /\ Forall2 (page_like w) (m_pages m) (m_pages m1) /\
  zlen (m_parts m1) = zlen (m_parts m) /\ m_width m1 = m_width m /\ m_height m1 = m_height m.

Lemma encode_result_like : forall render w rand m m1, message_like w m m1 ->
  encode_result render w rand m1 = encode_result render w rand m.
Proof.
  intros render w rand [hs pg pt a b] [hs1 pg1 pt1 a1 b1] (Hh & Hp & Hl & Hw & Hv).
  cbn [m_headers m_pages m_parts m_width m_height] in *. subst hs1 a1 b1. unfold encode_result.
  change hs with (m_headers (Message hs pg pt a b)) at 1.
  rewrite (header_only w rand (Message hs pg pt a b) pg1 pt1 a b). cbn [fst].
  assert (S : Forall2 (page_same w) pg pg1).
  { clear Hl. induction Hp; constructor; auto using page_like_same. }
  assert (Es : smil render w (Message hs pg1 pt1 a b) = smil render w (Message hs pg pt a b)).
  { unfold smil, smil_tree. cbn [m_pages]. rewrite (smil_pages_same w _ _ S). reflexivity. }
  assert (En : num_entries (Message hs pg1 pt1 a b) = num_entries (Message hs pg pt a b)).
  { unfold num_entries. cbn [m_pages m_parts]. rewrite Hl. f_equal. generalize 1 as n. clear - S.
    induction S as [|g g1 l l1 Hg _ IH]; intros n; [reflexivity|]. cbn [fold_left].
    rewrite (number_same _ _ _ Hg). apply IH. }
  assert (Eo : map (part_octets w) (flat_map page_part_list pg1) = map (part_octets w) (flat_map page_part_list pg)).
  { clear - Hp. induction Hp as [|g g1 l l1 Hg _ IH]; [reflexivity|]. cbn [flat_map].
    now rewrite !map_app, IH, (page_like_octets _ _ _ Hg). }
  cbn [m_pages]. rewrite Es, En, Eo. reflexivity.
Qed.

(** The same references, parts possibly encoded. *)
Lemma page_value_like : forall w h h1 i, (forall j, like w (h_parts h j) (h_parts h1 j)) ->
  h_pages h1 = h_pages h -> page_like w (page_value h i) (page_value h1 i).
Proof.
  intros w h h1 i Hp Hg. unfold page_value. rewrite Hg.
  destruct (h_pages h i) as [d [[[x1 x2] x3]|] [[[y1 y2] y3]|] [[[z1 z2] z3]|]];
    repeat split; cbn; auto.
Qed.

(** * Programs *)

Definition slot_below (n : nat) (s : hslot) : Prop :=
  match s with Some (j, _, _) => (j < n)%nat | None => True end.
Definition page_below (n : nat) (g : hpage) : Prop :=
  slot_below n (hg_image g) /\ slot_below n (hg_audio g) /\ slot_below n (hg_text g).

(** What a program has built: [P] gives the worth of the slides it ends with. *)
Definition worth (w : world) (cs : list hcall) (h : heap) : Prop :=
  (forall i, page_below (h_next h) (h_pages h i)) /\
  (forall i, page_like w (slide w cs i) (page_value h i)) /\
  (forall k, exists ps, forall P,
     length ps = length (hm_parts (h_msgs h k)) /\
     fold_left (on_message w P k) cs new_message =
     Message (hm_headers (h_msgs h k)) (map P (hm_pages (h_msgs h k))) ps
             (hm_width (h_msgs h k)) (hm_height (h_msgs h k))).

Lemma built_message : forall w cs h k, worth w cs h ->
  message_like w (sent w cs k) (message_value h k).
Proof.
  intros w cs h k (_ & Hg & Hm). destruct (Hm k) as (ps & H).
  destruct (H (slide w cs)) as (L & E). unfold sent. rewrite E. unfold message_value.
  split; [reflexivity|]. split.
  - cbn [m_pages]. generalize (hm_pages (h_msgs h k)). intros l. clear - Hg.
    induction l; constructor; auto.
  - cbn [m_parts]. split; [unfold zlen; rewrite map_length, L; reflexivity|auto].
Qed.

Lemma slide_app : forall w cs c i, slide w (cs ++ [c]) i = on_slide w i (slide w cs i) c.
Proof. intros. unfold slide. now rewrite fold_left_app. Qed.

(** A call that changes no message. *)
Lemma built_same_msgs : forall w cs c h h1,
  (forall P k m, on_message w P k m c = m) -> h_msgs h1 = h_msgs h ->
  worth w cs h ->
  (forall i, page_below (h_next h1) (h_pages h1 i)) ->
  (forall i, page_like w (on_slide w i (slide w cs i) c) (page_value h1 i)) ->
  worth w (cs ++ [c]) h1.
Proof.
  intros w cs c h h1 Hc Em (_ & _ & Hm) Hb Hp. split; [exact Hb|]. split.
  - intros i. rewrite slide_app. apply Hp.
  - intros k. destruct (Hm k) as (ps & H). exists ps. intros P. destruct (H P) as (L & E).
    rewrite Em. split; [exact L|]. rewrite fold_left_app, E. cbn [fold_left]. apply Hc.
Qed.

Lemma like_below : forall w h1 h g s, slot_below (h_next h) s ->
  (forall j, (j < h_next h)%nat -> h_parts h1 j = h_parts h j) ->
  slot_like w g (slot_value h s) -> slot_like w g (slot_value h1 s).
Proof.
  intros w h1 h g [[[j tb] te]|] B Hj H; [|exact H]. cbn in B |- *. now rewrite (Hj j B).
Qed.
Lemma below_S : forall n s, slot_below n s -> slot_below (S n) s.
Proof. intros n [[[j tb] te]|] H; cbn in *; [lia|exact I]. Qed.

Lemma new_ref_parts : forall h p j, (j < h_next h)%nat -> h_parts (snd (new_ref p h)) j = h_parts h j.
Proof.
  intros h p j H. cbn. unfold set_at. destruct (Nat.eqb j (h_next h)) eqn:E; [|reflexivity].
  apply PeanoNat.Nat.eqb_eq in E. lia.
Qed.

(** A slide that gets something new in a slot. *)
Lemma add_built : forall w cs h c i isf p tb te (which : nat),
  let fill := match which with
              | O => fun s g => HPage (hg_duration g) s (hg_audio g) (hg_text g)
              | S O => fun s g => HPage (hg_duration g) (hg_image g) s (hg_text g)
              | _ => fun s g => HPage (hg_duration g) (hg_image g) (hg_audio g) s
              end in
  let vfill := match which with
              | O => fun s g => Page (pg_duration g) s (pg_audio g) (pg_text g)
              | S O => fun s g => Page (pg_duration g) (pg_image g) s (pg_text g)
              | _ => fun s g => Page (pg_duration g) (pg_image g) (pg_audio g) s
              end in
  let v := fun g : page => match fst (check_times isf tb te g) with
             | Err e => (Err e, g)
             | Ok _ => match p with Err e => (Err e, g)
                       | Ok p => (Ok tt, vfill (Some (p, tb, te)) g) end end in
  (forall P k m, on_message w P k m c = m) ->
  (forall j g, on_slide w j g c = if Nat.eqb i j then snd (v g) else g) ->
  worth w cs h ->
  fst (h_add isf p tb te fill i h) = fst (v (slide w cs i)) /\
  worth w (cs ++ [c]) (snd (h_add isf p tb te fill i h)).
Proof.
  intros w cs h c i isf p tb te which fill vfill v Hc Hv HB.
  assert (Ct : forall g, fst (check_times isf tb te g) = fst (check_times isf tb te new_page)).
  { intros g. unfold check_times. destruct (_ || _); [reflexivity|].
    destruct (negb isf); [reflexivity|]. destruct (_ && _); reflexivity. }
  assert (Same : (forall g, snd (v g) = g) -> worth w (cs ++ [c]) h).
  { intros Hs. apply (built_same_msgs w cs c h h Hc eq_refl HB); [apply HB|].
    intros j. rewrite Hv, Hs. destruct (Nat.eqb i j); apply HB. }
  unfold h_add. unfold v in *. rewrite (Ct (slide w cs i)).
  destruct (fst (check_times isf tb te new_page)) as [u|e] eqn:E.
  2: { cbn [fst snd]. split; [reflexivity|]. apply Same. intros g. rewrite (Ct g). reflexivity. }
  destruct p as [p|e].
  2: { cbn [fst snd]. split; [reflexivity|]. apply Same. intros g. rewrite (Ct g). reflexivity. }
  cbn [fst]. destruct (new_ref p h) as [j h1] eqn:N. cbn [fst snd].
  split; [reflexivity|]. inversion N; subst j h1. clear N Same.
  destruct HB as (Hb & Hg & Hm).
  apply (built_same_msgs w cs c h); [exact Hc|reflexivity|exact (conj Hb (conj Hg Hm))| |].
  - intros a. cbn [put_page h_next h_pages]. unfold set_at.
    destruct (Hb a) as (B1 & B2 & B3). destruct (Nat.eqb a i) eqn:Ea.
    + apply PeanoNat.Nat.eqb_eq in Ea. subst a.
      destruct which as [|[|which]]; cbn [fill]; (split; [|split]); cbn [hg_image hg_audio hg_text];
        try (apply below_S; assumption); cbn; lia.
    + split; [|split]; now apply below_S.
  - intros a. rewrite Hv. rewrite (Ct (slide w cs a)).
    destruct (Hg a) as (D & L1 & L2 & L3). destruct (Hb a) as (B1 & B2 & B3).
    set (h2 := put_page i _ _). unfold page_value.
    assert (G : h_pages h2 a = if Nat.eqb a i then fill (Some (h_next h, tb, te)) (h_pages h i)
                               else h_pages h a) by reflexivity.
    rewrite G, (PeanoNat.Nat.eqb_sym i a).
    assert (K : forall q s, slot_below (h_next h) s -> slot_like w q (slot_value h s) ->
                            slot_like w q (slot_value h2 s)).
    { intros q s Bs. apply (like_below w _ h); [exact Bs|].
      intros b Hb'. exact (new_ref_parts h p b Hb'). }
    assert (F : slot_like w (Some (p, tb, te)) (slot_value h2 (Some (h_next h, tb, te)))).
    { cbn. unfold set_at. rewrite PeanoNat.Nat.eqb_refl. split; [now left|auto]. }
    clearbody h2. clear G.
    destruct (Nat.eqb a i) eqn:Ea.
    + apply PeanoNat.Nat.eqb_eq in Ea. subst a. cbn [snd].
      destruct which as [|[|which]]; cbn [fill vfill] in *; (split; [exact D|]);
        (split; [|split]); cbn [pg_image pg_audio pg_text hg_image hg_audio hg_text];
        try exact F; apply K; assumption.
    + split; [exact D|]. split; [|split]; cbn [pg_image pg_audio pg_text]; apply K; assumption.
Qed.

Lemma add_image_eq : forall w f tb te g, add_image w f tb te g =
  match fst (check_times (isfile w f) tb te g) with
  | Err e => (Err e, g)
  | Ok _ => match part_from_file w f with
            | Err e => (Err e, g)
            | Ok p => (Ok tt, Page (pg_duration g) (Some (p, tb, te)) (pg_audio g) (pg_text g))
            end
  end.
Proof.
  intros. unfold add_image, check_times, st_bind, st_lift, st_upd, st_err, st_ret.
  destruct (_ || _); [reflexivity|]. destruct (negb _); [reflexivity|]. destruct (_ && _); [reflexivity|].
  cbn [fst]. destruct (part_from_file w f); reflexivity.
Qed.
Lemma add_audio_eq : forall w f tb te g, add_audio w f tb te g =
  match fst (check_times (isfile w f) tb te g) with
  | Err e => (Err e, g)
  | Ok _ => match part_from_file w f with
            | Err e => (Err e, g)
            | Ok p => (Ok tt, Page (pg_duration g) (pg_image g) (Some (p, tb, te)) (pg_text g))
            end
  end.
Proof.
  intros. unfold add_audio, check_times, st_bind, st_lift, st_upd, st_err, st_ret.
  destruct (_ || _); [reflexivity|]. destruct (negb _); [reflexivity|]. destruct (_ && _); [reflexivity|].
  cbn [fst]. destruct (part_from_file w f); reflexivity.
Qed.
Lemma add_text_eq : forall t tb te g, add_text t tb te g =
  match fst (check_times true tb te g) with
  | Err e => (Err e, g)
  | Ok _ => match Ok (set_text t new_part) with
            | Err e => (Err e, g)
            | Ok p => (Ok tt, Page (pg_duration g) (pg_image g) (pg_audio g) (Some (p, tb, te)))
            end
  end.
Proof.
  intros. unfold add_text, check_times, st_bind, st_lift, st_upd, st_err, st_ret.
  destruct (_ || _); [reflexivity|]. destruct (negb _); [reflexivity|]. destruct (_ && _); reflexivity.
Qed.

(** A call on message [k] that leaves slides and parts alone. *)
Lemma built_msg : forall w cs c k h h1 new vnew,
  (forall P j m, on_message w P j m c = if Nat.eqb k j then vnew P m else m) ->
  (forall i g, on_slide w i g c = g) ->
  h_pages h1 = h_pages h -> (h_next h <= h_next h1)%nat ->
  (forall i, (i < h_next h)%nat -> like w (h_parts h i) (h_parts h1 i)) ->
  h_msgs h1 = set_at k new (h_msgs h) ->
  worth w cs h ->
  (forall i g, page_like w g (page_value h i) -> page_like w g (page_value h1 i)) ->
  (forall ps, length ps = length (hm_parts (h_msgs h k)) ->
   exists qs, length qs = length (hm_parts new) /\ forall P,
   vnew P (Message (hm_headers (h_msgs h k)) (map P (hm_pages (h_msgs h k))) ps
                   (hm_width (h_msgs h k)) (hm_height (h_msgs h k))) =
   Message (hm_headers new) (map P (hm_pages new)) qs (hm_width new) (hm_height new)) ->
  worth w (cs ++ [c]) h1.
Proof.
  intros w cs c k h h1 new vnew Hc Hs Eg Ln _ Em (Hb & Hg & Hm) Hl Hn.
  split; [|split].
  - intros i. rewrite Eg. destruct (Hb i) as (B1 & B2 & B3).
    assert (T : forall s, slot_below (h_next h) s -> slot_below (h_next h1) s).
    { intros [[[j tb] te]|] B; cbn in *; [lia|exact I]. }
    split; [|split]; auto.
  - intros i. rewrite slide_app, Hs. apply Hl, Hg.
  - intros j. destruct (Hm j) as (ps & H). rewrite Em. unfold set_at.
    destruct (Nat.eqb j k) eqn:E.
    + apply PeanoNat.Nat.eqb_eq in E. subst j.
      destruct (Hn ps (proj1 (H (fun _ => new_page)))) as (qs & Lq & N). exists qs. intros P.
      split; [exact Lq|]. rewrite fold_left_app, (proj2 (H P)). cbn [fold_left].
      rewrite Hc, PeanoNat.Nat.eqb_refl. apply N.
    + exists ps. intros P. destruct (H P) as (L & F). split; [exact L|].
      rewrite fold_left_app, F. cbn [fold_left]. rewrite Hc, PeanoNat.Nat.eqb_sym, E. reflexivity.
Qed.

Lemma slot_like_trans_value : forall w h h1 s q,
  (forall j p, slot_below (S j) s -> like w p (h_parts h j) -> like w p (h_parts h1 j)) ->
  slot_like w q (slot_value h s) -> slot_like w q (slot_value h1 s).
Proof.
  intros w h h1 [[[j tb] te]|] [[[p tb1] te1]|] H; cbn; auto. intros (L & A).
  split; [|exact A]. apply H; [cbn; lia|exact L].
Qed.

Lemma like_trans : forall w p p1 p2, like w p p1 -> like w p1 p2 -> like w p p2.
Proof.
  intros w p p1 p2 H [-> | (b & E)]; [exact H|].
  pose proof (like_step w p p1 H) as S. rewrite E in S. exact S.
Qed.
Lemma page_like_trans : forall w g g1 g2, page_like w g g1 -> page_like w g1 g2 -> page_like w g g2.
Proof.
  intros w g g1 g2 (D1 & I1 & A1 & T1) (D2 & I2 & A2 & T2).
  assert (S : forall s s1 s2, slot_like w s s1 -> slot_like w s1 s2 -> slot_like w s s2).
  { intros [[[p b] e]|] [[[p1 b1] e1]|] [[[p2 b2] e2]|] H1 H2; cbn in *; try contradiction; auto.
    destruct H1 as (L1 & -> & ->), H2 as (L2 & -> & ->). split; [|auto].
    exact (like_trans _ _ _ _ L1 L2). }
  split; [congruence|]. split; [|split]; eauto.
Qed.

Lemma page_value_below : forall h h1 i, h_pages h1 = h_pages h -> page_below (h_next h) (h_pages h i) ->
  (forall j, (j < h_next h)%nat -> h_parts h1 j = h_parts h j) -> page_value h1 i = page_value h i.
Proof.
  intros h h1 i Eg (B1 & B2 & B3) Ej. unfold page_value. rewrite Eg.
  assert (T : forall s, slot_below (h_next h) s -> slot_value h1 s = slot_value h s).
  { intros [[[j tb] te]|] B; cbn in *; [now rewrite Ej|reflexivity]. }
  now rewrite !T.
Qed.

Lemma call_built : forall render w cs c h, worth w cs h ->
  fst (h_call render w c h) = answered render w cs c /\
  worth w (cs ++ [c]) (snd (h_call render w c h)).
Proof.
  intros render w cs c h HB. destruct c as [i f tb te|i f tb te|i t tb te|i d|k i|k p|k n v|k rand];
    cbn [h_call answered].
  - destruct (add_built w cs h (CImage i f tb te) i (isfile w f) (part_from_file w f) tb te 0)
      as (A & B); try exact HB; [reflexivity| |].
    { intros j g. cbn [on_slide]. rewrite add_image_eq. reflexivity. }
    unfold on_heap. cbn [fst snd]. split; [|exact B]. f_equal. rewrite add_image_eq. exact A.
  - destruct (add_built w cs h (CAudio i f tb te) i (isfile w f) (part_from_file w f) tb te 1)
      as (A & B); try exact HB; [reflexivity| |].
    { intros j g. cbn [on_slide]. rewrite add_audio_eq. reflexivity. }
    unfold on_heap. cbn [fst snd]. split; [|exact B]. f_equal. rewrite add_audio_eq. exact A.
  - destruct (add_built w cs h (CText i t tb te) i true (Ok (set_text t new_part)) tb te 2)
      as (A & B); try exact HB; [reflexivity| |].
    { intros j g. cbn [on_slide]. rewrite add_text_eq. reflexivity. }
    unfold on_heap. cbn [fst snd]. split; [|exact B]. f_equal. rewrite add_text_eq. exact A.
  - assert (Same : (forall g, snd (set_duration d g) = g) -> worth w (cs ++ [CDuration i d]) h).
    { intros Hs. apply (built_same_msgs w cs _ h h); try reflexivity; [exact HB|apply HB|].
      intros j. cbn [on_slide]. rewrite Hs. destruct (Nat.eqb i j); apply HB. }
    unfold on_heap, h_set_duration, set_duration, st_err, st_upd in *.
    destruct (negb (is_int d)) eqn:Ei; [split; [reflexivity|now apply Same]|].
    destruct (d <? 1) eqn:Ed; [split; [reflexivity|now apply Same]|].
    cbn [fst snd]. split; [reflexivity|]. clear Same. pose proof HB as (Hb & Hg & Hm).
    apply (built_same_msgs w cs _ h); try reflexivity; [exact HB| |].
    + intros j. cbn [put_page h_next h_pages]. unfold set_at.
      destruct (Nat.eqb j i) eqn:E; [|apply Hb].
      apply PeanoNat.Nat.eqb_eq in E. subst j. exact (Hb i).
    + intros j. cbn [on_slide]. unfold set_duration, st_upd. rewrite Ei, Ed.
      set (h2 := put_page i _ _). unfold page_value.
      assert (G : h_pages h2 j = if Nat.eqb j i then HPage d (hg_image (h_pages h i))
                    (hg_audio (h_pages h i)) (hg_text (h_pages h i)) else h_pages h j) by reflexivity.
      rewrite G, (PeanoNat.Nat.eqb_sym i j).
      destruct (Hg j) as (D & L1 & L2 & L3). destruct (Nat.eqb j i) eqn:E.
      * apply PeanoNat.Nat.eqb_eq in E. subst j. cbn [snd].
        split; [reflexivity|]. split; [exact L1|]. split; [exact L2|exact L3].
      * split; [exact D|]. split; [exact L1|]. split; [exact L2|exact L3].
  - (* add_page *)
    pose proof (built_message w cs h k HB) as (Eh & _). cbn [message_value m_headers] in Eh.
    unfold on_heap, h_add_page.
    assert (V : forall g m, add_page g m =
      match d_get leqb (str "Content-Type") (m_headers m) with
      | None => (Err KeyError, m)
      | Some v => match first_of v with
        | Err e => (Err e, m)
        | Ok ct => (Ok tt, Message (if leqb ct (str "application/vnd.wap.multipart.related")
                      then m_headers m
                      else d_set leqb (str "Content-Type")
                             (HType (str "application/vnd.wap.multipart.related") [])
                             (m_headers m)) (m_pages m ++ [g]) (m_parts m) (m_width m) (m_height m))
        end end).
    { intros g m. unfold add_page, content_type, st_bind, st_get, st_lift, st_upd, st_ret.
      destruct (d_get _ _ _) as [v|]; [|reflexivity]. destruct (first_of v) as [ct|]; [|reflexivity].
      destruct (leqb ct _); reflexivity. }
    assert (Same : (forall g m, m_headers m = hm_headers (h_msgs h k) -> snd (add_page g m) = m) ->
                   worth w (cs ++ [CAdd k i]) h).
    { intros Hs. pose proof HB as (Hb & Hg & Hm). split; [exact Hb|]. split.
      - intros j. rewrite slide_app. apply Hg.
      - intros j. destruct (Hm j) as (ps & H). exists ps. intros P. destruct (H P) as (L & F).
        split; [exact L|]. rewrite fold_left_app, F. cbn [fold_left on_message].
        destruct (Nat.eqb k j) eqn:E; [|reflexivity]. apply PeanoNat.Nat.eqb_eq in E. subst j.
        apply Hs. reflexivity. }
    rewrite V, <- Eh. destruct (d_get leqb (str "Content-Type") (hm_headers (h_msgs h k))) as [v|] eqn:Ed.
    2: { split; [reflexivity|]. apply Same. intros g m Em. now rewrite V, Em, Ed. }
    destruct (first_of v) as [ct|e] eqn:Ef.
    2: { split; [reflexivity|]. apply Same. intros g m Em. now rewrite V, Em, Ed, Ef. }
    split; [reflexivity|]. cbn [snd]. clear Same.
    eapply (built_msg w cs (CAdd k i) k h _ _ (fun P m => snd (add_page (P i) m)));
      try reflexivity; [intros; apply like_refl|exact HB|intros j g L; exact L|].
    intros ps Lp. exists ps. split; [exact Lp|]. intros P. rewrite V. cbn [m_headers]. rewrite Ed, Ef.
    cbn [snd m_headers m_pages m_parts m_width m_height hm_headers hm_pages hm_parts hm_width hm_height].
    rewrite map_app. reflexivity.
  - (* add_data_part *)
    cbn [new_ref fst snd]. split; [reflexivity|].
    assert (N : forall j, (j < h_next h)%nat -> h_parts (snd (new_ref p h)) j = h_parts h j)
      by (intros j Hj; now apply new_ref_parts).
    eapply (built_msg w cs (CData k p) k h _ _ (fun _ m => add_data_part p m)); try reflexivity;
      [cbn; lia|intros j Hj; cbn in *; rewrite (N j Hj); apply like_refl|exact HB| |].
    + intros j g L. erewrite (page_value_below h); [exact L|reflexivity|apply HB|exact N].
    + intros ps Lp. exists (ps ++ [p]). cbn [h_msgs hm_parts].
      split; [rewrite !app_length, Lp; reflexivity|]. intros P. reflexivity.
  - (* a header *)
    split; [reflexivity|].
    eapply (built_msg w cs (CHeader k n v) k h _ _ (fun _ m => with_headers (d_set leqb n v (m_headers m)) m));
      try reflexivity; [intros; apply like_refl|exact HB|intros j g L; exact L|].
    intros ps Lp. exists ps. split; [exact Lp|]. reflexivity.
  - (* encode *)
    destruct (h_encode_run render w rand k h) as (E & (Lp & Eg & Em & En)).
    split.
    + rewrite E, encode_fst. apply encode_result_like. now apply built_message.
    + eapply (built_msg w cs (CEncode k rand) k h _ _ (fun _ m => snd (encode_message_header w rand m)));
        [reflexivity|reflexivity|exact Eg|now rewrite En|intros; apply Lp|exact Em|exact HB| |].
      * intros j g L. apply (page_like_trans w g (page_value h j)); [exact L|].
        now apply page_value_like.
      * intros ps Ll. exists ps. split; [exact Ll|]. intros P.
        rewrite header_snd. unfold with_headers at 1.
        cbn [m_headers m_pages m_parts m_width m_height hm_headers hm_pages hm_parts hm_width hm_height].
        f_equal.
        change (hm_headers (h_msgs h k)) with (m_headers (message_value h k)).
        rewrite (header_only w rand (message_value h k)). reflexivity.
Qed.

Lemma built_start : forall w, worth w [] empty_heap.
Proof.
  intros w. split; [|split].
  - intros i. repeat split.
  - intros i. repeat split.
  - intros k. exists []. intros P. split; reflexivity.
Qed.

Lemma run_built : forall render w ds cs h, worth w cs h -> worth w (cs ++ ds) (h_run render w ds h).
Proof.
  intros render w ds. induction ds as [|d ds IH]; intros cs h H; [now rewrite app_nil_r|].
  change (h_run render w (d :: ds) h) with (h_run render w ds (snd (h_call render w d h))).
  replace (cs ++ d :: ds) with ((cs ++ [d]) ++ ds) by now rewrite <- app_assoc.
  apply IH. exact (proj2 (call_built render w cs d h H)).
Qed.
