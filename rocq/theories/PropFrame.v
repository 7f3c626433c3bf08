(** The frame of encoded bodies and the octets of encoded messages, C88. *)
From Coq Require Import Lia ZifyBool ZifyNat.
From Verif Require Import Py Iter Tables WspDec WspEnc Message MmsEnc MmsDec
  SpecWsp WspClaims MmsClaims SpecMms SpecFrame PyFacts IterFacts WspFacts BodyFacts EncodeFacts GrammarFacts.
Open Scope Z_scope.

(** * Facts *)

Lemma array_octets : forall l b, array_of l = Ok b -> all_octets b /\ zlen b = zlen l.
Proof.
  unfold array_of. induction l as [|x l IH]; cbn [mapM]; intros b E.
  - injection E as <-. split; [constructor|reflexivity].
  - destruct x as [n|?|?]; cbn [array_item] in E; try discriminate E.
    destruct ((0 <=? n) && (n <? 256)) eqn:En; [|discriminate].
    cbn [bind] in E. destruct (mapM array_item l) as [r|]; [|discriminate].
    cbn [bind] in E. injection E as <-. destruct (IH r eq_refl) as (H1 & H2).
    split; [constructor; [lia|exact H1]|]. rewrite !zlen_cons, H2. reflexivity.
Qed.

Lemma get_data_same w p d p' : get_data w p = (Ok d, p') -> dp_filename p' = dp_filename p.
Proof.
  unfold get_data, st_bind, st_get, st_upd, st_ret.
  destruct (dp_data p); [intros E; injection E as <- <-; reflexivity|].
  destruct (dp_filename p) as [f|] eqn:F; [|intros E; injection E as <- <-; exact F].
  destruct (w_file w f); [|discriminate]. intros E. injection E as <- <-. exact F.
Qed.

Lemma part_frame w p b p' : encode_part w p = (Ok b, p') ->
  exists n d, len_of w p = Ok n /\ data_of w p = Ok d /\ 0 <= n /\ Frame n d b.
Proof.
  unfold encode_part, st_bind, st_get, st_lift, st_ret.
  destruct (h_get _ _) as [v|]; [|discriminate].
  destruct (unpack_type v) as [[name ps]|]; [|discriminate].
  destruct (encode_content_type_value name ps) as [ct|] eqn:Ect; [|discriminate].
  destruct (mapM _ _) as [hs|] eqn:Ehs; [|discriminate].
  destruct (part_len w p) as [[n|] q] eqn:En; [|discriminate].
  destruct (array_of ct) as [ctb|] eqn:Ea; [|discriminate].
  destruct (array_of (concat hs)) as [hsb|] eqn:Eb; [|discriminate].
  destruct (get_data w q) as [[d|] q'] eqn:Ed; [|discriminate].
  intros E. injection E as <- <-.
  assert (L : len_of w p = Ok n) by (unfold len_of; rewrite En; reflexivity).
  assert (D : data_of w p = Ok d /\ 0 <= n).
  { unfold data_of. revert En. unfold part_len, st_bind, st_get, st_ret.
    destruct (dp_filename p) as [f|] eqn:F.
    - destruct (w_file w f); [|discriminate]. intros X. injection X as <- <-.
      rewrite Ed. split; [reflexivity|apply zlen_nonneg].
    - destruct (get_data w p) as [[x|] y] eqn:G; [|discriminate]. intros X. injection X as <- <-.
      split; [|apply zlen_nonneg]. cbn [fst]. revert G Ed. unfold get_data, st_bind, st_get, st_ret.
      rewrite F. destruct (dp_data p) eqn:P.
      + intros X. injection X as <- <-. rewrite P. intros X. injection X as <- _. reflexivity.
      + intros X. injection X as <- <-. rewrite P, F. intros X. injection X as <- _. reflexivity. }
  destruct D as (D & Hn).
  destruct (array_octets _ _ Ea) as (A1 & A2). destruct (array_octets _ _ Eb) as (B1 & B2).
  exists n, d. split; [exact L|]. split; [exact D|]. split; [exact Hn|].
  pose proof (zlen_nonneg ct). pose proof (zlen_nonneg (concat hs)).
  replace (encode_uint_var (zlen ct + zlen (concat hs)) ++ encode_uint_var n ++ ctb ++ hsb ++ d)
    with (encode_uint_var (zlen ct + zlen (concat hs)) ++ encode_uint_var n ++ (ctb ++ hsb) ++ d)
    by (rewrite <- app_assoc; reflexivity).
  constructor.
  - apply Forall_app. split; assumption.
  - replace (n_octets (ctb ++ hsb)) with (zlen ct + zlen (concat hs)).
    + apply uint_var_grammar. lia.
    + unfold n_octets. rewrite app_length. unfold zlen in *. lia.
  - apply uint_var_grammar. exact Hn.
Qed.

Definition slot_parts (s : slot) : list part :=
  match s with Some (p, _, _) => [p] | None => [] end.

(** A list of parts and the octets that frame them. *)
Definition framing (w : world) (ps : list part) (l : list Z) : Prop :=
  exists fs ls, l = concat ls /\
    Forall2 (fun p f => len_of w p = Ok (fst f) /\ data_of w p = Ok (snd f)) ps fs /\
    Forall2 (fun e l => Frame (fst e) (snd e) l) fs ls.

Lemma framing_app w ps qs l m : framing w ps l -> framing w qs m -> framing w (ps ++ qs) (l ++ m).
Proof.
  intros (fs & ls & -> & A1 & A2) (gs & ms & -> & B1 & B2). exists (fs ++ gs), (ls ++ ms).
  split; [symmetry; apply concat_app|]. split; apply Forall2_app; assumption.
Qed.

Lemma slot_frame w s b s' : encode_slot w s = (Ok b, s') -> framing w (slot_parts s) b.
Proof.
  unfold encode_slot. destruct s as [[[p tb] te]|].
  - destruct (encode_part w p) as [r p'] eqn:E. intros X. injection X as -> _.
    destruct (part_frame w p b p' E) as (n & d & L & D & _ & F).
    exists [(n, d)], [b]. cbn [concat slot_parts]. rewrite app_nil_r. split; [reflexivity|].
    split; (constructor; [auto|constructor]).
  - intros X. injection X as <- _. exists [], []. split; [reflexivity|]. split; constructor.
Qed.

Lemma page_frame w g b g' : encode_page w g = (Ok b, g') ->
  framing w (map (fun s => fst (fst s)) (page_slots g)) b.
Proof.
  destruct g as [du i a t]. unfold encode_page. cbn [pg_image pg_audio pg_text pg_duration].
  destruct (encode_slot w i) as [[x|] i'] eqn:E1; [|discriminate].
  destruct (encode_slot w a) as [[y|] a'] eqn:E2; [|discriminate].
  destruct (encode_slot w t) as [[z|] t'] eqn:E3; [|discriminate].
  intros X. injection X as <- _.
  replace (map (fun s => fst (fst s)) (page_slots (Page du i a t)))
    with (slot_parts i ++ slot_parts a ++ slot_parts t).
  - repeat apply framing_app; eapply slot_frame; eassumption.
  - unfold page_slots. cbn [pg_image pg_audio pg_text flat_map].
    destruct i as [[[? ?] ?]|], a as [[[? ?] ?]|], t as [[[? ?] ?]|]; reflexivity.
Qed.

Lemma pages_frame w : forall gs b gs', encode_pages w gs = (Ok b, gs') ->
  framing w (map (fun s => fst (fst s)) (flat_map page_slots gs)) b.
Proof.
  induction gs as [|g gs IH]; intros b gs'; cbn [encode_pages flat_map map].
  - intros X. injection X as <- _. exists [], []. split; [reflexivity|]. split; constructor.
  - destruct (encode_page w g) as [[x|] g'] eqn:E1; [|discriminate].
    destruct (encode_pages w gs) as [[y|] gs1] eqn:E2; [|discriminate].
    intros X. injection X as <- _. rewrite map_app. apply framing_app; [|eapply IH; reflexivity].
    eapply page_frame. exact E1.
Qed.

(** Uintvars are self-delimiting. *)
Lemma uintvar_prefix n l n' l' a a' : Uintvar n l -> Uintvar n' l' -> l ++ a = l' ++ a' ->
  n = n' /\ a = a'.
Proof.
  intros U U' E.
  destruct (uintvar_read n l 0 a U _ (R_new (l ++ a))) as (r & it & k & q & E1 & R1 & -> & -> & ->).
  destruct (uintvar_read n' l' 0 a' U' _ (R_new (l' ++ a'))) as (r & it' & k & q & E2 & R2 & -> & -> & ->).
  rewrite <- E, E1 in E2. assert (n = n' /\ it = it') as (-> & ->) by (split; congruence).
  split; [reflexivity|]. destruct R1 as (R1 & R1'), R2 as (R2 & R2'). congruence.
Qed.

Lemma app_prefix {A} : forall (a b c d : list A), length a = length b -> a ++ c = b ++ d -> a = b /\ c = d.
Proof.
  induction a as [|x a IH]; destruct b as [|y b]; cbn; intros c d L E; try discriminate L.
  - split; [reflexivity|exact E].
  - assert (x = y) as -> by (apply (f_equal (hd x)) in E; exact E).
    apply (f_equal (@tl A)) in E. cbn [tl] in E. destruct (IH b c d) as (-> & ->); [lia|exact E|].
    split; reflexivity.
Qed.

Lemma frame_prefix n d l n' d' l' a a' : Frame n d l -> Frame n' d' l' ->
  n = n_octets d -> n' = n_octets d' -> l ++ a = l' ++ a' -> d = d' /\ a = a'.
Proof.
  intros [h hl dl _ Uh Ud] [h' hl' dl' _ Uh' Ud'] En En' E. rewrite <- !app_assoc in E.
  destruct (uintvar_prefix _ _ _ _ _ _ Uh Uh' E) as (Eh & E1).
  destruct (uintvar_prefix _ _ _ _ _ _ Ud Ud' E1) as (Ed & E2).
  subst n n'. unfold n_octets in Eh, Ed.
  apply app_prefix in E2; [|lia]. destruct E2 as (_ & E2). apply app_prefix in E2; [exact E2|lia].
Qed.

Lemma frame_ne n d l : Frame n d l -> l <> [].
Proof.
  intros [h hl dl _ U _] X. apply app_eq_nil in X. exact (uintvar_ne _ _ U (proj1 X)).
Qed.

Lemma frames_prefix : forall ds fs, Forall2 (fun d l => Frame (n_octets d) d l) ds fs ->
  forall ds' fs', Forall2 (fun d l => Frame (n_octets d) d l) ds' fs' ->
  concat fs = concat fs' -> ds = ds'.
Proof.
  induction 1 as [|d f ds fs F _ IH]; intros ds' fs' H' E.
  - destruct H' as [|d' f' ds' fs' F' _]; [reflexivity|]. cbn [concat] in E.
    symmetry in E. apply app_eq_nil in E. destruct (frame_ne _ _ _ F' (proj1 E)).
  - destruct H' as [|d' f' ds' fs' F' H']; cbn [concat] in E.
    + apply app_eq_nil in E. destruct (frame_ne _ _ _ F (proj1 E)).
    + destruct (frame_prefix _ _ _ _ _ _ _ _ F F' eq_refl eq_refl E) as (-> & E').
      f_equal. exact (IH _ _ H' E').
Qed.

Lemma frames_map : forall ds fs,
  Forall2 (fun e l => Frame (fst e) (snd e) l) (map (fun d => (n_octets d, d)) ds) fs <->
  Forall2 (fun d l => Frame (n_octets d) d l) ds fs.
Proof.
  induction ds as [|d ds IH]; intros fs; cbn [map]; split; intros H; inversion H; subst;
    constructor; try assumption; apply IH; assumption.
Qed.

Lemma uintvar_octets_ok n l : Uintvar n l -> all_octets l.
Proof.
  intros [ds d Hs Hd]. unfold uintvar_octets, digit128 in *. apply Forall_app. split.
  - apply Forall_map. eapply Forall_impl; [|exact Hs]. cbv beta. intros; lia.
  - repeat constructor; lia.
Qed.

Lemma frame_octets n d l : Frame n d l -> all_octets d -> all_octets l.
Proof.
  intros [h hl dl Hh U V] Hd. repeat (apply Forall_app; split); try assumption;
    eapply uintvar_octets_ok; eassumption.
Qed.

Lemma frames_octets c es l : Frames c es l -> Forall (fun e => all_octets (snd e)) es -> all_octets l.
Proof.
  intros [cl fs U HF] H. apply Forall_app. split; [eapply uintvar_octets_ok; exact U|].
  induction HF as [|e f es fs F _ IH]; cbn [concat]; [constructor|].
  inversion H; subst. apply Forall_app. split; [eapply frame_octets; eassumption|apply IH; assumption].
Qed.

Lemma entry_octets k d l : encode_entry k d = Ok l -> all_octets l.
Proof.
  unfold encode_entry. destruct (h_get k d); [|discriminate].
  destruct (mms_encode_header k _); [|discriminate]. cbn [bind]. intros E. apply (array_octets _ _ E).
Qed.

Lemma first_octets : forall ks m l m', encode_first ks m = (Ok l, m') -> all_octets l.
Proof.
  induction ks as [|k ks IH]; intros m l m'; cbn [encode_first].
  - unfold st_ret. intros E. injection E as <- _. constructor.
  - unfold st_bind, st_get, st_lift, st_upd, st_ret.
    destruct (encode_entry k (m_headers m)) as [b|] eqn:Eb; [|discriminate].
    destruct (encode_first ks _) as [[bs|] m2] eqn:E2; [|discriminate].
    intros E. injection E as <- _. apply Forall_app. split; [eapply entry_octets; exact Eb|eapply IH; exact E2].
Qed.

Lemma others_octets w d l : encode_others w d = Ok l -> all_octets l.
Proof.
  unfold encode_others. generalize (w_order w d) as ps. clear d. intros ps. revert l.
  induction ps as [|p ps IH]; intros l; cbn [mapM bind].
  - intros E. injection E as <-. constructor.
  - match goal with |- bind (bind ?a _) _ = _ -> _ => destruct a as [x|] eqn:Ex end; [|discriminate].
    cbn [bind] in *. match goal with |- bind (bind ?a _) _ = _ -> _ => destruct a as [xs|] end; [|discriminate].
    cbn [bind] in *. intros E. injection E as <-. cbn [concat]. apply Forall_app. split; [|apply IH; reflexivity].
    destruct (leqb (fst p) _); [injection Ex as <-; constructor|].
    destruct (mms_encode_header _ _) as [y|]; [|discriminate]. cbn [bind] in Ex. apply (array_octets _ _ Ex).
Qed.

Lemma last_octets d l : encode_last d = Ok l -> all_octets l.
Proof.
  unfold encode_last. destruct (h_get _ d) as [v|]; [|discriminate].
  destruct (unpack_type v) as [[name ps]|]; [|discriminate]. cbn [bind].
  replace (encode_mms_field_name (str "Content-Type")) with (@Ok (list Z) [132]) by (vm_compute; reflexivity).
  cbn [bind]. destruct (encode_content_type_value name ps) as [ret|]; [|discriminate]. cbn [bind].
  destruct (array_of _) as [b|] eqn:Eb; [|discriminate]. cbn [bind]. intros E. injection E as <-.
  constructor; [lia|]. apply (array_octets _ _ Eb).
Qed.

Lemma header_octets w rand m l m' : encode_message_header w rand m = (Ok l, m') ->
  all_octets l /\ m_pages m' = m_pages m.
Proof.
  unfold encode_message_header, st_bind, st_get, st_lift, st_upd, st_ret.
  destruct (encode_first _ _) as [[a|] m2] eqn:Ea; [|discriminate].
  destruct (encode_others w _) as [b|] eqn:Eb; [|discriminate].
  destruct (encode_last _) as [c|] eqn:Ec; [|discriminate].
  intros E. injection E as <- <-. split.
  - repeat (apply Forall_app; split); [eapply first_octets|eapply others_octets|eapply last_octets]; eassumption.
  - assert (K : forall ks m l m', encode_first ks m = (Ok l, m') -> m_pages m' = m_pages m).
    { clear. induction ks as [|k ks IH]; intros m l m'; cbn [encode_first].
      - unfold st_ret. intros E. injection E as _ <-. reflexivity.
      - unfold st_bind, st_get, st_lift, st_upd, st_ret.
        destruct (encode_entry k (m_headers m)) as [b|]; [|discriminate].
        destruct (encode_first ks _) as [[bs|] m2] eqn:E2; [|discriminate].
        intros E. injection E as _ <-. apply IH in E2. exact E2. }
    apply K in Ea. exact Ea.
Qed.

(** * C88 *)

(** The frame of every body that [encode] makes, whatever the headers and content
    types: the SMIL text and the parts of the slides, each announced with
    [len(part)] and carrying [part.data]; the number of entries announced counts
    the attached parts, too. *)
Theorem C88_frames : forall render w m b m1,
  encode_message_body render w m = (Ok b, m1) ->
  exists text fs, smil render w m = Ok text /\
    Forall2 (fun p f => len_of w p = Ok (fst f) /\ data_of w p = Ok (snd f)) (slide_parts m) fs /\
    Frames (1 + Z.of_nat (length (slide_parts m)) + Z.of_nat (length (m_parts m)))
           ((n_octets text, text) :: fs) b.
Proof.
  intros render w m b m1 E. unfold encode_message_body, st_bind, st_get, st_lift in E.
  destruct (smil render w m) as [text|] eqn:Et; [|discriminate].
  destruct (encode_part w (smil_part text)) as [[a|] p'] eqn:Ea; cbn [fst] in E; [|discriminate].
  destruct (encode_pages w (m_pages m)) as [[x|] gs] eqn:Ep; [|discriminate].
  injection E as <- _.
  destruct (part_frame _ _ _ _ Ea) as (n & d & L & D & _ & F).
  assert (n = n_octets text /\ d = text) as (-> & ->).
  { change (Ok (n_octets text) = Ok n) in L. change (Ok text = Ok d) in D. split; congruence. }
  destruct (pages_frame w _ _ _ Ep) as (fs & ls & -> & H1 & H2).
  exists text, fs. split; [reflexivity|]. split; [exact H1|].
  rewrite entries_count. change (a ++ concat ls) with (concat (a :: ls)). constructor.
  - apply uint_var_grammar. unfold zlen. lia.
  - constructor; [exact F|exact H2].
Qed.
Print Assumptions C88_frames.

(** C88 for the body: without attached parts (C53) and when the length of every
    slide part is that of its data (C59), number and lengths are right. *)
Theorem C88_framed_partial : forall render w m b m1,
  encode_message_body render w m = (Ok b, m1) -> m_parts m = [] ->
  (forall p n d, In p (slide_parts m) -> len_of w p = Ok n -> data_of w p = Ok d ->
     n = n_octets d) ->
  exists text ds, smil render w m = Ok text /\
    Forall2 (fun p d => data_of w p = Ok d) (slide_parts m) ds /\ Framed (text :: ds) b.
Proof.
  intros render w m b m1 E Hp Hl.
  destruct (C88_frames render w m b m1 E) as (text & fs & Et & HF & HB).
  rewrite Hp in HB. cbn [length] in HB.
  exists text, (map snd fs). split; [exact Et|].
  assert (G : Forall2 (fun p d => data_of w p = Ok d) (slide_parts m) (map snd fs) /\
              fs = map (fun d => (n_octets d, d)) (map snd fs) /\
              length fs = length (slide_parts m)).
  { clear - HF Hl. revert HF Hl. generalize (slide_parts m). intros ps HF.
    induction HF as [|p [n d] ps fs (L & D) _ IH]; intros Hl; [repeat split; constructor|].
    destruct IH as (I1 & I2 & I3); [intros p' n' d' Hin; apply Hl; now right|].
    cbn [map fst snd length] in *. split; [constructor; assumption|].
    split; [|congruence]. rewrite (Hl p n d (or_introl eq_refl) L D). f_equal. exact I2. }
  destruct G as (G1 & G2 & G3). split; [exact G1|].
  unfold Framed. cbn [map length]. rewrite map_length, <- G2.
  replace (Z.of_nat (S (length fs))) with (1 + Z.of_nat (length (slide_parts m)) + Z.of_nat 0) by lia.
  exact HB.
Qed.
Print Assumptions C88_framed_partial.
Example C88_case :
  let w := World (fun _ => None) (fun _ => None) (fun d => d) in
  let p := Part [(str "Content-Type", HType (str "image/png") []);
                 (str "Content-ID", HStr [34; 97; 34])] [] None (Some [1; 2; 3]) in
  let m := Message [] [Page 0 (Some (p, 0, 0)) None None] [] 176 220 in
  len_of w p = Ok 3 /\ data_of w p = Ok [1; 2; 3] /\
  match encode_message_body (fun _ => [60; 62]) w m with
  | (Ok b, _) => True
  | _ => False
  end.
Proof. vm_compute. auto. Qed.

(** C88 refuted: with attached parts (all of them counted, none encoded) the body
    is no multipart body at all, whatever the entries are meant to be. *)
Theorem C88_attached_refuted : forall render w m b m1,
  encode_message_body render w m = (Ok b, m1) -> m_parts m <> [] ->
  (forall p n d, In p (slide_parts m) -> len_of w p = Ok n -> data_of w p = Ok d ->
     n = n_octets d) ->
  forall datas, ~ Framed datas b.
Proof.
  intros render w m b m1 E Hp Hl datas HF.
  destruct (C88_frames render w m b m1 E) as (text & fs & Et & HE & HB).
  remember ((n_octets text, text) :: fs) as es eqn:Ees.
  assert (G : es = map (fun d => (n_octets d, d)) (text :: map snd fs) /\
              length fs = length (slide_parts m)).
  { subst es. cbn [map]. clear - HE Hl. revert HE Hl. generalize (slide_parts m). intros ps HE.
    induction HE as [|p [n d] ps fs (L & D) _ IH]; intros Hl; [split; reflexivity|].
    destruct IH as (I1 & I2); [intros p' n' d' Hin; apply Hl; now right|].
    cbn [map fst snd length] in *. split; [|congruence].
    rewrite (Hl p n d (or_introl eq_refl) L D). do 2 f_equal. congruence. }
  destruct G as (G1 & G2). rewrite G1 in HB.
  inversion HF as [cl ls U HL EL]. inversion HB as [cl' ls' U' HL' EL']. rewrite <- EL' in EL.
  destruct (uintvar_prefix _ _ _ _ _ _ U U' EL) as (EN & EC).
  apply frames_map in HL. apply frames_map in HL'.
  pose proof (frames_prefix _ _ HL _ _ HL' EC) as ->.
  cbn [length] in EN. rewrite map_length in EN. destruct (m_parts m); [congruence|]. cbn [length] in EN. lia.
Qed.
Print Assumptions C88_attached_refuted.
Example C88_attached_case :
  let w := World (fun _ => None) (fun _ => None) (fun d => d) in
  let m := with_parts [set_data [65] (str "text/plain") [] new_part] new_message in
  m_parts m <> [] /\
  match encode_message_body (fun _ => [60; 62]) w m with (Ok b, _) => True | _ => False end.
Proof. split; [discriminate|vm_compute; auto]. Qed.

Lemma frames_same : forall es fs, Forall2 (fun e l => Frame (fst e) (snd e) l) es fs ->
  forall es' fs', Forall2 (fun e l => Frame (fst e) (snd e) l) es' fs' ->
  map snd es = map snd es' -> concat fs = concat fs' -> es = es'.
Proof.
  induction 1 as [|[n d] f es fs F _ IH]; intros es' fs' H' M E.
  - destruct es'; [reflexivity|discriminate M].
  - destruct H' as [|[n' d'] f' es' fs' F' H']; [discriminate M|]. cbn [map fst snd concat] in *.
    assert (d = d' /\ map snd es = map snd es') as (-> & M') by (split; congruence).
    assert (X : n = n' /\ concat fs = concat fs').
    { destruct F as [h hl dl _ Uh Ud], F' as [h' hl' dl' _ Uh' Ud']. rewrite <- !app_assoc in E.
      destruct (uintvar_prefix _ _ _ _ _ _ Uh Uh' E) as (Eh & E1).
      destruct (uintvar_prefix _ _ _ _ _ _ Ud Ud' E1) as (Ed & E2).
      unfold n_octets in Eh. apply app_prefix in E2; [|lia]. destruct E2 as (_ & E2).
      apply app_inv_head in E2. auto. }
    destruct X as (-> & E'). f_equal. exact (IH _ _ H' M' E').
Qed.

(** C88, exactly: the body is the multipart body of the SMIL text and the data of the slide
    parts just when nothing is attached and [len] of every slide part is the length of
    its data. *)
Theorem C88_exact : forall render w m b m1 text ds,
  encode_message_body render w m = (Ok b, m1) -> smil render w m = Ok text ->
  Forall2 (fun p d => data_of w p = Ok d) (slide_parts m) ds ->
  (Framed (text :: ds) b <->
   m_parts m = [] /\ Forall2 (fun p d => len_of w p = Ok (n_octets d)) (slide_parts m) ds).
Proof.
  intros render w m b m1 text ds E Et HD.
  destruct (C88_frames render w m b m1 E) as (text' & fs & Et' & HF & HB).
  assert (text' = text) by congruence. subst text'.
  assert (S : ds = map snd fs /\ length fs = length (slide_parts m)).
  { clear - HD HF. revert ds HD. induction HF as [|p [n d] ps fs (L & D) _ IH]; intros ds HD.
    - inversion HD. split; reflexivity.
    - inversion HD as [|? d' ? ds' D' HD']. subst. destruct (IH _ HD') as (-> & N).
      cbn [map snd length] in *. split; [f_equal; congruence|lia]. }
  destruct S as (-> & N). inversion HB as [cl ls U HL EL].
  split.
  - intros HR. inversion HR as [cl' ls' U' HL' EL'].
    destruct (uintvar_prefix _ _ _ _ _ _ U U' (eq_sym EL')) as (EN & EC).
    cbn [length] in EN. rewrite map_length in EN.
    split; [destruct (m_parts m); [reflexivity|cbn [length] in EN; lia]|].
    pose proof (frames_same _ _ HL _ _ HL') as X. cbn [map snd] in X.
    rewrite map_map, map_id in X. specialize (X eq_refl EC).
    assert (Y : fs = map (fun d => (n_octets d, d)) (map snd fs)) by congruence.
    clear - HF Y. induction HF as [|p [n d] ps fs (L & D) _ IH]; constructor.
    + cbn [map fst snd] in *. congruence.
    + apply IH. cbn [map] in Y. congruence.
  - intros (P & L).
    assert (Y : fs = map (fun d => (n_octets d, d)) (map snd fs)).
    { clear - HF L. revert L. induction HF as [|p [n d] ps fs (Ln & D) _ IH]; intros L; [reflexivity|].
      cbn [map fst snd] in *. inversion L as [|? ? ? ? L1 L2]. subst. rewrite <- IH by exact L2.
      f_equal. f_equal. congruence. }
    unfold Framed. cbn [map length]. rewrite map_length, <- Y.
    rewrite P in HB. cbn [length] in HB.
    replace (Z.of_nat (Datatypes.S (length fs))) with (1 + Z.of_nat (length (slide_parts m)) + Z.of_nat 0) by lia.
    rewrite EL. exact HB.
Qed.
Print Assumptions C88_exact.
(** A picture whose file has become longer since it was read. *)
Example C88_exact_case :
  let w := World (fun f => if leqb f (str "a.gif") then Some [1; 2; 3] else None) (fun _ => None) (fun d => d) in
  let p := Part [(str "Content-Type", HType (str "image/gif") [])] [] (Some (str "a.gif")) (Some [1; 2]) in
  let m := Message [] [Page 0 (Some (p, 0, 0)) None None] [] 176 220 in
  match encode_message_body (fun _ => [60; 62]) w m with
  | (Ok b, _) => ~ Framed [[60; 62]; [1; 2]] b
  | _ => False
  end.
Proof.
  cbv zeta. destruct (encode_message_body _ _ _) as [[b|] m1] eqn:E; [|vm_compute in E; discriminate].
  intros F. apply (C88_exact _ _ _ _ _ [60; 62] [[1; 2]] E) in F.
  - destruct F as (_ & F). inversion F as [|? ? ? ? L _]. vm_compute in L. discriminate.
  - vm_compute. reflexivity.
  - repeat constructor.
Qed.

(** Whatever is sent consists of octets, when the SMIL text and the data of the
    slides do. *)
Theorem C88_octets : forall render w rand m b m1,
  encode render w rand m = (Ok b, m1) ->
  (forall x, all_octets (render x)) ->
  (forall p d, In p (slide_parts m) -> data_of w p = Ok d -> all_octets d) ->
  all_octets b.
Proof.
  intros render w rand m b m1 E Hr Hd. unfold encode, st_bind, st_ret in E.
  destruct (encode_message_header w rand m) as [[h|] m2] eqn:Eh; [|discriminate].
  destruct (encode_message_body render w m2) as [[x|] m3] eqn:Eb; [|discriminate].
  injection E as <- _. destruct (header_octets _ _ _ _ _ Eh) as (Hh & Ep).
  apply Forall_app. split; [exact Hh|].
  destruct (C88_frames _ _ _ _ _ Eb) as (text & fs & Et & HE & HB).
  apply (frames_octets _ _ _ HB). constructor.
  - cbn [snd]. unfold smil in Et. destruct (smil_tree w m2) as [t|]; [|discriminate].
    injection Et as <-. apply Hr.
  - replace (slide_parts m2) with (slide_parts m) in HE by (unfold slide_parts; rewrite Ep; reflexivity).
    clear - HE Hd. revert HE Hd. generalize (slide_parts m). intros ps HE.
    induction HE as [|p [n d] ps fs (L & D) _ IH]; intros Hd; constructor.
    + cbn [snd] in *. apply (Hd p d (or_introl eq_refl) D).
    + apply IH. intros p' d' Hin. apply Hd. now right.
Qed.
Print Assumptions C88_octets.
