(** Theorems about parts, slides and the SMIL description: C59 to C62. *)
From Coq Require Import Lia ZifyBool ZifyNat.
From Verif Require Import Py Iter Tables WspDec WspEnc Message MmsEnc SpecSmil WspClaims MmsClaims
  MessageClaims PyFacts MessageFacts.
Open Scope Z_scope.

(** * C59 *)

(** C59, as far as it is true: in every history in which no file is written after
    it was loaded. *)
Theorem C59_length_partial : forall es w, loaded_files_kept es ->
  let '(w', p) := history es w new_part in length_agrees w' p.
Proof.
  intros es w H. destruct (history es w new_part) as [w' p] eqn:E. apply fresh_agrees.
  change w' with (fst (w', p)). change p with (snd (w', p)) at 2. rewrite <- E.
  apply history_fresh; [intros ? ? X; discriminate X|exact H|intros ? X; discriminate X].
Qed.
Print Assumptions C59_length_partial.
Example C59_case :
  let w := World (fun _ => None) (fun _ => None) (fun d => d) in
  let es := [SetText (str "x"); WriteFile (str "a.jpg") (Some [1; 2; 3]); Load (str "a.jpg");
             ReadData; WriteFile (str "b.jpg") (Some [])] in
  loaded_files_kept es /\
  let '(w', p) := history es w new_part in len_of w' p = Ok 3 /\ data_of w' p = Ok [1; 2; 3].
Proof.
  split; [|vm_compute; auto]. intros a f c b E Hin.
  destruct a as [|e0 a]; [discriminate E|]. injection E as E0 E. subst e0.
  destruct a as [|e0 a]; [cbn in Hin; intuition discriminate|]. injection E as E0 E. subst e0.
  destruct a as [|e0 a]; [cbn in Hin; intuition discriminate|]. injection E as E0 E. subst e0.
  destruct a as [|e0 a]; [discriminate E|]. injection E as E0 E. subst e0.
  destruct a as [|e0 a].
  - injection E as <- <- _. cbn in Hin. intuition discriminate.
  - injection E as E0 E. destruct a; discriminate E.
Qed.

(** C59 fails: the data is read once and kept, the length is read from the file
    each time.  Every file that changes its size after the data was read shows it. *)
Theorem C59_stale_refuted : forall w f old new, w_file w f = Some old -> zlen old <> zlen new ->
  let '(w', p) := history [Load f; ReadData; WriteFile f (Some new)] w new_part in
  data_of w' p = Ok old /\ len_of w' p = Ok (zlen new) /\ ~ length_agrees w' p.
Proof.
  intros w f old new Ef Hn. unfold history. cbn [fold_left happens].
  unfold from_file. rewrite Ef. cbn [st_upd snd].
  unfold get_data, st_bind, st_get. cbn [dp_data dp_filename new_part]. rewrite Ef.
  cbn [st_upd st_ret snd dp_headers dp_params dp_filename dp_data].
  assert (A : forall h q, data_of (write_file f (Some new) w) (Part h q (Some f) (Some old)) = Ok old
    /\ len_of (write_file f (Some new) w) (Part h q (Some f) (Some old)) = Ok (zlen new)).
  { intros h q. split; [reflexivity|]. unfold len_of, part_len, st_bind, st_get.
    cbn [dp_filename write_file w_file]. rewrite (proj2 (leqb_eq f f) eq_refl). reflexivity. }
  unfold length_agrees.
  match goal with |- data_of _ (Part ?h ?q _ _) = _ /\ _ => destruct (A h q) as (A1 & A2) end.
  rewrite A1, A2. split; [reflexivity|]. split; [reflexivity|]. cbn. intros X. congruence.
Qed.
Print Assumptions C59_stale_refuted.
Example C59_stale_case :
  let w := World (fun _ => Some [1; 2]) (fun _ => None) (fun d => d) in
  w_file w (str "a") = Some [1; 2] /\ zlen [1; 2] <> zlen [1].
Proof. split; [reflexivity|discriminate]. Qed.

(** * C60 *)

(** C60: image, sound and text.  The record [Adds] says which arguments are
    accepted, which exception is raised otherwise, and that nothing changes then. *)
Theorem C60_add_image : forall w f tb te, exists part_of_file,
  (w_file w f <> None -> part_from_file w f = Ok part_of_file /\ dp_filename part_of_file = Some f) /\
  Adds (add_image w f tb te) (w_file w f <> None) tb te
    (fun g => Page (pg_duration g) (Some (part_of_file, tb, te)) (pg_audio g) (pg_text g)).
Proof.
  intros w f tb te. destruct (isfile w f) eqn:E.
  - destruct (part_from_file_ok w f E) as (p & Ep & Hp). exists p. split; [auto|].
    apply (adds_spec _ true); [rewrite <- isfile_file; intuition|].
    intros g. unfold add_image, st_bind, st_lift, st_upd. rewrite E, Ep.
    destruct (check_times true tb te g) as [[[]|e] g1]; reflexivity.
  - exists new_part. split; [intros X; apply isfile_file in X; congruence|].
    apply (adds_spec _ false); [rewrite <- isfile_file, E; intuition|].
    intros g. unfold add_image, st_bind, st_lift, st_upd. rewrite E.
    unfold check_times. destruct (negb (is_int tb) || negb (is_int te)); reflexivity.
Qed.
Print Assumptions C60_add_image.
Theorem C60_add_audio : forall w f tb te, exists part_of_file,
  (w_file w f <> None -> part_from_file w f = Ok part_of_file /\ dp_filename part_of_file = Some f) /\
  Adds (add_audio w f tb te) (w_file w f <> None) tb te
    (fun g => Page (pg_duration g) (pg_image g) (Some (part_of_file, tb, te)) (pg_text g)).
Proof.
  intros w f tb te. destruct (isfile w f) eqn:E.
  - destruct (part_from_file_ok w f E) as (p & Ep & Hp). exists p. split; [auto|].
    apply (adds_spec _ true); [rewrite <- isfile_file; intuition|].
    intros g. unfold add_audio, st_bind, st_lift, st_upd. rewrite E, Ep.
    destruct (check_times true tb te g) as [[[]|e] g1]; reflexivity.
  - exists new_part. split; [intros X; apply isfile_file in X; congruence|].
    apply (adds_spec _ false); [rewrite <- isfile_file, E; intuition|].
    intros g. unfold add_audio, st_bind, st_lift, st_upd. rewrite E.
    unfold check_times. destruct (negb (is_int tb) || negb (is_int te)); reflexivity.
Qed.
Print Assumptions C60_add_audio.
Theorem C60_add_text : forall text tb te,
  Adds (add_text text tb te) True tb te
    (fun g => Page (pg_duration g) (pg_image g) (pg_audio g)
       (Some (Part [(str "Content-Type", HType (str "text/plain") [])] [] None (Some text), tb, te))).
Proof.
  intros text tb te. apply (adds_spec _ true); [intuition|].
  intros g. unfold add_text, st_bind, st_upd.
  destruct (check_times true tb te g) as [[[]|e] g1]; reflexivity.
Qed.
Print Assumptions C60_add_text.
Example C60_case :
  fst (add_text (str "hi") 100 50 new_page) = Err ValueError /\
  fst (add_text (str "hi") 50 100 new_page) = Ok tt /\
  fst (add_text (str "hi") 50 0 new_page) = Ok tt /\
  fst (add_text (str "hi") (-7) (-9) new_page) = Ok tt /\
  fst (add_text (str "hi") (2 ^ 63) 0 new_page) = Err TypeError /\
  fst (add_image (World (fun _ => None) (fun _ => None) (fun d => d)) (str "x") 5 1 new_page)
    = Err OSError.
Proof. vm_compute. auto 10. Qed.

(** C60: the duration of a slide. *)
Theorem C60_duration : forall d g,
  (fst (set_duration d g) = Ok tt <-> machine_int d /\ 0 < d) /\
  (fst (set_duration d g) = Err ValueError <-> machine_int d /\ d <= 0) /\
  (fst (set_duration d g) = Err TypeError <-> ~ machine_int d) /\
  (fst (set_duration d g) = Ok tt ->
     snd (set_duration d g) = Page d (pg_image g) (pg_audio g) (pg_text g)) /\
  (fst (set_duration d g) <> Ok tt -> snd (set_duration d g) = g).
Proof.
  intros d g. unfold set_duration.
  destruct (is_int d) eqn:E; [apply is_int_machine in E|apply is_int_not in E]; cbn [negb];
    [destruct (d <? 1) eqn:C|]; cbn [st_err st_upd fst snd];
    repeat match goal with |- _ /\ _ => split end;
    try assert (0 < d) by lia; try assert (d <= 0) by lia;
    first [split; intros X; first [discriminate X|reflexivity|exfalso; lia|tauto]
          |intros X; first [discriminate X|reflexivity|congruence]].
Qed.
Print Assumptions C60_duration.
Example C60_duration_case : fst (set_duration 0 new_page) = Err ValueError /\
  snd (set_duration 1 new_page) = Page 1 None None None.
Proof. vm_compute. auto. Qed.

(** * C61 *)

(** C61, as far as it is true: when every slide with sound has text as well.
    [render] stands for the serialisation of the document. *)
Theorem C61_slides_partial : forall render w m,
  Forall (has_sources w) (m_pages m) -> Forall audio_with_text (m_pages m) ->
  exists x pars, smil_tree w m = Ok x /\ smil render w m = Ok (render x) /\
    slide_show (m_width m) (m_height m) pars x /\
    Forall2 (slide_described w) (m_pages m) pars.
Proof. exact smil_run. Qed.
Print Assumptions C61_slides_partial.
Example C61_case :
  let w := World (fun _ => Some [1]) (fun _ => Some (str "image/jpeg")) (fun d => d) in
  let g := snd (add_audio w (str "/s.amr") 0 9000 (snd (add_text (str "hi") 5 0
             (snd (add_image w (str "/a.jpg") 0 0 new_page))))) in
  let m := Message default_headers [g; new_page] [] 176 220 in
  Forall (has_sources w) (m_pages m) /\ Forall audio_with_text (m_pages m) /\
  match smil_tree w m with
  | Ok (Elem _ _ [_; Elem _ _ pars]) => pars =
      [Elem (str "par") [(str "duration", str "4000")]
         [Elem (str "img") [(str "src", str "a.jpg"); (str "region", str "Image")] [];
          Elem (str "text") [(str "src", str "hi"); (str "region", str "Text");
                             (str "begin", str "5"); (str "end", str "0")] [];
          Elem (str "audio") [(str "src", str "s.amr"); (str "begin", str "0");
                              (str "end", str "4000")] []];
       Elem (str "par") [(str "duration", str "4000")] []]
  | _ => False
  end.
Proof.
  split; [|split].
  - repeat apply Forall_cons; try apply Forall_nil; split; try split; intros p tb te E;
      vm_compute in E; try discriminate E; injection E as <- <- <-; eexists;
      first [apply source_location; reflexivity|reflexivity].
  - repeat apply Forall_cons; try apply Forall_nil; intros X; vm_compute in X |- *; congruence.
  - vm_compute. reflexivity.
Qed.

(** C61 fails: a message whose first slide has sound but no text has no SMIL at
    all, *)
Theorem C61_sound_first_refuted : forall render w m g r,
  m_pages m = g :: r -> pg_audio g <> None -> pg_text g = None -> has_sources w g ->
  smil render w m = Err UnboundLocalError.
Proof.
  intros render w m [d im au te] r Em Ha Ht (Hi & _ & Hs). cbn [pg_audio pg_text pg_image] in *.
  subst te. destruct au as [[[p tb] te]|]; [clear Ha|contradiction].
  destruct (Hs p tb te eq_refl) as (s & Es).
  unfold smil, smil_tree. rewrite Em. cbn [smil_pages]. unfold smil_page.
  cbn [pg_duration pg_image pg_audio pg_text].
  assert (I : exists ks, match im with
    | Some (p, tb, te) => src <- media_src w p ;;
        Ok [(3 * 0, Elem (str "img") ([(str "src", src); (str "region", str "Image")]
                      ++ time_attrs d tb te) [])]%nat
    | None => Ok []
    end = Ok ks).
  { destruct im as [[[pi bi] ei]|]; [|eauto].
    destruct (Hi pi bi ei eq_refl) as (si & Ei). rewrite (source_media_src _ _ _ Ei).
    eexists. reflexivity. }
  destruct I as (ks & ->). cbn beta iota delta [bind]. rewrite (source_media_src _ _ _ Es).
  reflexivity.
Qed.
Print Assumptions C61_sound_first_refuted.

(** and a slide with sound but no text takes the text of the slide before it: of
    two slides, text and sound, the first is left empty. *)
Theorem C61_text_moved_refuted : forall w m g1 g2 x,
  m_pages m = [g1; g2] ->
  pg_image g1 = None -> pg_text g1 <> None -> pg_audio g1 = None ->
  pg_text g2 = None -> pg_audio g2 <> None ->
  smil_tree w m = Ok x ->
  exists head d1 par2, x = Elem (str "smil") [] [head; Elem (str "body") []
    [Elem (str "par") [(str "duration", d1)] []; par2]].
Proof.
  intros w m [d1 i1 a1 t1] [d2 i2 a2 t2] x Em.
  cbn [pg_duration pg_image pg_audio pg_text]. intros -> Ht -> -> Ha E.
  destruct t1 as [[[p1 b1] e1]|]; [clear Ht|contradiction].
  destruct a2 as [[[p2 b2] e2]|]; [clear Ha|contradiction].
  unfold smil_tree in E. rewrite Em in E. cbn [smil_pages] in E. unfold smil_page in E.
  cbn [pg_duration pg_image pg_audio pg_text] in E.
  destruct (data_of w p1) as [s1|] eqn:E1; [|discriminate E].
  cbn beta iota zeta delta [bind app] in E.
  destruct i2 as [[[pi bi] ei]|].
  - destruct (media_src w pi) as [si|] eqn:E2; [|discriminate E].
    destruct (media_src w p2) as [s2|] eqn:E3; [|discriminate E].
    cbn in E. inversion E. do 3 eexists. reflexivity.
  - destruct (media_src w p2) as [s2|] eqn:E3; [|discriminate E].
    cbn in E. inversion E. do 3 eexists. reflexivity.
Qed.
Print Assumptions C61_text_moved_refuted.
Example C61_refuted_case :
  let w := World (fun _ => Some [1]) (fun _ => None) (fun d => d) in
  let g1 := snd (add_text (str "hi") 0 0 new_page) in
  let g2 := snd (add_audio w (str "/s.amr") 0 0 new_page) in
  smil_tree w (Message default_headers [g2; g1] [] 176 220) = Err UnboundLocalError /\
  match smil_tree w (Message default_headers [g1; g2] [] 176 220) with
  | Ok (Elem _ _ [_; Elem _ _ pars]) => pars =
      [Elem (str "par") [(str "duration", str "4000")] [];
       Elem (str "par") [(str "duration", str "4000")]
         [Elem (str "text") [(str "src", str "hi"); (str "region", str "Text")] [];
          Elem (str "audio") [(str "src", str "s.amr")] []]]
  | _ => False
  end.
Proof. vm_compute. auto. Qed.

(** * C62 *)

(** C62 fails for every message with a slide: [data_parts] raises. *)
Theorem C62_slides_refuted : forall render w m l, m_pages m <> [] ->
  data_parts render w m <> Ok l.
Proof.
  intros render w m l H. unfold data_parts. destruct (m_pages m); [contradiction|].
  destruct (smil render w m); discriminate.
Qed.
Print Assumptions C62_slides_refuted.
Example C62_refuted_case :
  let w := World (fun _ => None) (fun _ => None) (fun d => d) in
  data_parts (fun _ => []) w (Message default_headers [new_page] [] 176 220) = Err AttributeError.
Proof. reflexivity. Qed.

(** C62, as far as it is true: without slides the attached parts are listed, in the
    order they were added, in any history of additions. *)
Theorem C62_attached_partial : forall render w ps,
  data_parts render w (fold_left (fun m p => add_data_part p m) ps new_message) = Ok (map LPart ps).
Proof.
  intros render w ps.
  assert (H : forall ps m, m_pages (fold_left (fun m p => add_data_part p m) ps m) = m_pages m /\
    m_parts (fold_left (fun m p => add_data_part p m) ps m) = m_parts m ++ ps).
  { clear. induction ps as [|p ps IH]; intros m; cbn [fold_left].
    - rewrite app_nil_r. auto.
    - destruct (IH (add_data_part p m)) as (A & B). rewrite A, B. cbn [add_data_part m_pages m_parts].
      rewrite <- app_assoc. auto. }
  destruct (H ps new_message) as (A & B). unfold data_parts. rewrite A, B. reflexivity.
Qed.
Print Assumptions C62_attached_partial.
