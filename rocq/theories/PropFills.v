(** C128: what a slide holds after any sequence of calls. *)
From Coq Require Import Lia ZifyBool ZifyNat.
From Verif Require Import Py WspDec Message MmsEnc MessageClaims MmsClaims SpecFills PyFacts PropMessage PropAttach.
Open Scope Z_scope.

(** The slide after a call. *)
Definition filled (c : fill) (g : page) : page :=
  match c with
  | FillImage w f b e => snd (add_image w f b e g)
  | FillAudio w f b e => snd (add_audio w f b e g)
  | FillText t b e => snd (add_text t b e g)
  | FillTime d => snd (set_duration d g)
  end.
Definition after_fills (cs : list fill) : page := fold_left (fun g c => filled c g) cs new_page.

(** A medium read from a file: the part presents the file as it was when it was added
    (C91), and the times are as given. *)
Definition medium_of (o : option (world * list Z * Z * Z)) (s : slot) : Prop :=
  match o with
  | None => s = None
  | Some (w, f, b, e) => exists p, s = Some (p, b, e) /\ presents w f p
  end.
(** A text: the part has the text as its data and text/plain as its only header. *)
Definition text_of_slot (o : option (list Z * Z * Z)) (s : slot) : Prop :=
  match o with
  | None => s = None
  | Some (t, b, e) => exists p, s = Some (p, b, e) /\
      dp_headers p = [(str "Content-Type", HType (str "text/plain") [])] /\
      forall w, data_of w p = Ok t
  end.

Lemma put_keep {A} (P : fill -> A -> Prop) cs o c : last_put P cs o -> (forall a, ~ P c a) -> last_put P (cs ++ [c]) o.
Proof.
  intros [N|b c0 a af -> H N] Hc.
  - apply lp_none. intros c' a' I. apply in_app_iff in I. destruct I as [I|[<-|[]]]; [now apply N|apply Hc].
  - apply lp_some with (before := b) (c := c0) (after := af ++ [c]); [now rewrite <- app_assoc|exact H|].
    intros c' a' I. apply in_app_iff in I. destruct I as [I|[<-|[]]]; [now apply N|apply Hc].
Qed.
Lemma put_new {A} (P : fill -> A -> Prop) cs a c : P c a -> last_put P (cs ++ [c]) (Some a).
Proof. intros H. apply lp_some with (before := cs) (c := c) (after := []); [reflexivity|exact H|intros c' a' []]. Qed.

Lemma image_out w f b e g :
  (fst (add_image w f b e g) = Ok tt /\ w_file w f <> None /\ in_time b e) \/
  (snd (add_image w f b e g) = g /\ ~ (w_file w f <> None /\ in_time b e)).
Proof.
  destruct (C60_add_image w f b e) as (p & _ & [A1 _ _ _ _ A6]).
  destruct (fst (add_image w f b e g)) as [[]|x] eqn:E.
  - left. split; [reflexivity|]. apply A1 in E. unfold in_time. tauto.
  - right. split; [exact (A6 g x E)|]. intros (X & Y).
    assert (fst (add_image w f b e g) = Ok tt) by (apply A1; unfold in_time in Y; tauto). congruence.
Qed.
Lemma audio_out w f b e g :
  (fst (add_audio w f b e g) = Ok tt /\ w_file w f <> None /\ in_time b e) \/
  (snd (add_audio w f b e g) = g /\ ~ (w_file w f <> None /\ in_time b e)).
Proof.
  destruct (C60_add_audio w f b e) as (p & _ & [A1 _ _ _ _ A6]).
  destruct (fst (add_audio w f b e g)) as [[]|x] eqn:E.
  - left. split; [reflexivity|]. apply A1 in E. unfold in_time. tauto.
  - right. split; [exact (A6 g x E)|]. intros (X & Y).
    assert (fst (add_audio w f b e g) = Ok tt) by (apply A1; unfold in_time in Y; tauto). congruence.
Qed.

(** C128: the image, the sound, the text and the duration are each those of the last call
    that was accepted, whatever the others did; a new slide has none and lasts four
    seconds. *)
Theorem C128_slide : forall cs, exists image audio text duration,
  last_put puts_image cs image /\ last_put puts_audio cs audio /\
  last_put puts_text cs text /\ last_put puts_time cs duration /\
  medium_of image (pg_image (after_fills cs)) /\ medium_of audio (pg_audio (after_fills cs)) /\
  text_of_slot text (pg_text (after_fills cs)) /\
  pg_duration (after_fills cs) = match duration with Some d => d | None => 4000 end.
Proof.
  induction cs as [|c cs (i & a & t & d & I & A & T & D & Mi & Ma & Mt & Md)] using rev_ind.
  - exists None, None, None, None. do 4 (split; [apply lp_none; intros ? ? []|]). repeat split.
  - unfold after_fills in *. rewrite fold_left_app. cbn [fold_left].
    set (g := fold_left (fun g c => filled c g) cs new_page) in *. clearbody g.
    assert (K : forall g', g' = g -> (forall x, ~ puts_image c x) -> (forall x, ~ puts_audio c x) ->
      (forall x, ~ puts_text c x) -> (forall x, ~ puts_time c x) ->
      exists image audio text duration,
      last_put puts_image (cs ++ [c]) image /\ last_put puts_audio (cs ++ [c]) audio /\
      last_put puts_text (cs ++ [c]) text /\ last_put puts_time (cs ++ [c]) duration /\
      medium_of image (pg_image g') /\ medium_of audio (pg_audio g') /\
      text_of_slot text (pg_text g') /\
      pg_duration g' = match duration with Some d => d | None => 4000 end).
    { intros g' -> K1 K2 K3 K4. exists i, a, t, d. do 4 (split; [now apply put_keep|]). auto. }
    destruct c as [w f b e|w f b e|x b e|x]; cbn [filled].
    + destruct (image_out w f b e g) as [(E & F & H)|(E & N)].
      * destruct (add_image w f b e g) as [r g'] eqn:Q. cbn [fst] in E. subst r. cbn [snd].
        destruct (proj1 (C91_slide w f b e g g') Q) as (p & P1 & P2 & P3 & P4 & P5).
        exists (Some (w, f, b, e)), a, t, d. rewrite P1, P3, P4, P5.
        split; [apply put_new; now constructor|].
        do 3 (split; [apply put_keep; [assumption|intros y Y; inversion Y]|]).
        split; [exists p; auto|auto].
      * apply K; [exact E|intros y Y; inversion Y; subst..]. tauto.
    + destruct (audio_out w f b e g) as [(E & F & H)|(E & N)].
      * destruct (add_audio w f b e g) as [r g'] eqn:Q. cbn [fst] in E. subst r. cbn [snd].
        destruct (proj2 (C91_slide w f b e g g') Q) as (p & P1 & P2 & P3 & P4 & P5).
        exists i, (Some (w, f, b, e)), t, d. rewrite P1, P3, P4, P5.
        split; [apply put_keep; [assumption|intros y Y; inversion Y]|].
        split; [apply put_new; now constructor|].
        do 2 (split; [apply put_keep; [assumption|intros y Y; inversion Y]|]).
        split; [exact Mi|]. split; [exists p; auto|auto].
      * apply K; [exact E|intros y Y; inversion Y; subst..]. tauto.
    + destruct (C60_add_text x b e) as [A1 _ _ _ A5 A6].
      destruct (fst (add_text x b e g)) as [[]|z] eqn:E.
      * rewrite (A5 g E). cbn [pg_image pg_audio pg_text pg_duration]. apply A1 in E.
        exists i, a, (Some (x, b, e)), d.
        do 2 (split; [apply put_keep; [assumption|intros y Y; inversion Y]|]).
        split; [apply put_new; constructor; unfold in_time; tauto|].
        split; [apply put_keep; [assumption|intros y Y; inversion Y]|].
        split; [exact Mi|]. split; [exact Ma|]. split; [|exact Md].
        eexists. split; [reflexivity|]. split; reflexivity.
      * apply K; [exact (A6 g z E)|intros y Y; inversion Y; subst..].
        assert (fst (add_text x b e g) = Ok tt) by (apply A1; unfold in_time in *; tauto). congruence.
    + destruct (C60_duration x g) as (A1 & _ & _ & A4 & A5).
      destruct (fst (set_duration x g)) as [[]|z] eqn:E.
      * rewrite (A4 eq_refl). cbn [pg_image pg_audio pg_text pg_duration].
        pose proof (proj1 A1 eq_refl) as (B1 & B2).
        exists i, a, t, (Some x).
        do 3 (split; [apply put_keep; [assumption|intros y Y; inversion Y]|]).
        split; [apply put_new; now constructor|]. auto.
      * apply K; [apply A5; discriminate|intros y Y; inversion Y; subst..].
        assert (X : Err z = Ok tt :> res unit) by (apply A1; auto). discriminate X.
Qed.
Print Assumptions C128_slide.

(** At most one call is the last one accepted. *)
Theorem C128_once : forall A (P : fill -> A -> Prop) cs o o',
  (forall c a a', P c a -> P c a' -> a = a') -> last_put P cs o -> last_put P cs o' -> o = o'.
Proof.
  intros A P cs. induction cs as [|c cs IH] using rev_ind; intros o o' F H H'.
  - destruct H as [|b c a af E]; [|destruct b; discriminate E].
    destruct H' as [|b c a af E]; [reflexivity|destruct b; discriminate E].
  - assert (S : forall o, last_put P (cs ++ [c]) o ->
      (exists a, P c a /\ o = Some a) \/ ((forall a, ~ P c a) /\ last_put P cs o)).
    { clear. intros o [N|b c0 a af E H N].
      - right. split; [intros a; apply N; apply in_app_iff; right; now left|].
        apply lp_none. intros c' a' I. apply N. apply in_app_iff. now left.
      - destruct af as [|x af _] using rev_ind.
        + apply app_inj_tail in E. destruct E as (-> & ->). left. eauto.
        + change (b ++ c0 :: af ++ [x]) with (b ++ (c0 :: af) ++ [x]) in E. rewrite app_assoc in E.
          apply app_inj_tail in E. destruct E as (-> & ->). right. split.
          * intros a'. apply N. apply in_app_iff. right. now left.
          * eapply lp_some; [reflexivity|exact H|]. intros c' a' I. apply N. apply in_app_iff. now left. }
    apply S in H, H'. destruct H as [(a & H & ->)|(N & H)], H' as [(a' & H' & ->)|(N' & H')].
    + f_equal. exact (F _ _ _ H H').
    + destruct (N' _ H).
    + destruct (N _ H').
    + exact (IH _ _ F H H').
Qed.
Print Assumptions C128_once.

(** A text is replaced, a bad time for it and a duration of nothing are refused. *)
Definition some_fills : list fill :=
  [FillText (str "one") 0 0; FillTime 2000; FillText (str "two") 100 500; FillText (str "three") 9 5; FillTime 0].
Example C128_case : last_put puts_text some_fills (Some (str "two", 100, 500)) /\
  last_put puts_time some_fills (Some 2000) /\ last_put puts_image some_fills None /\
  pg_duration (after_fills some_fills) = 2000.
Proof.
  split; [|split; [|split; [|reflexivity]]].
  - eapply lp_some with (before := [FillText (str "one") 0 0; FillTime 2000]); [reflexivity| |].
    + constructor. unfold in_time, machine_int. lia.
    + intros c a [<-|[<-|[]]] H; inversion H; subst; unfold in_time in *; lia.
  - eapply lp_some with (before := [FillText (str "one") 0 0]); [reflexivity| |].
    + constructor; unfold machine_int; lia.
    + intros c a [<-|[<-|[<-|[]]]] H; inversion H; subst; lia.
  - apply lp_none. intros c a [<-|[<-|[<-|[<-|[<-|[]]]]]] H; inversion H.
Qed.
