(** What the references of the SMIL document lead to: C102. *)
From Coq Require Import Lia.
From Verif Require Import Py Iter Tables WspDec WspEnc Message MmsEnc WspClaims MmsClaims MessageClaims PyFacts MessageFacts.
Open Scope Z_scope.

(** The parts of a slide, in the order in which they are sent. *)
Inductive kind := Picture | Sound | Words.
Definition in_slot (k : kind) (s : slot) : list (kind * part) :=
  match s with Some (p, _, _) => [(k, p)] | None => [] end.
Definition slide_parts (g : page) : list (kind * part) :=
  in_slot Picture (pg_image g) ++ in_slot Sound (pg_audio g) ++ in_slot Words (pg_text g).
Definition show_parts (gs : list page) : list (kind * part) := flat_map slide_parts gs.

(** What the element of a part refers to, by C61. *)
Definition refers (w : world) (k : kind) (p : part) (s : list Z) : Prop :=
  match k with Words => data_of w p = Ok s | _ => source w p s end.

(** The name a part goes by in the message. *)
Definition bears (p : part) (s : list Z) : Prop :=
  h_get (str "Content-Location") (dp_headers p) = Some (HStr s) \/
  h_get (str "Content-ID") (dp_headers p) = Some (HStr s).

(** Every reference leads to the part it stands for and to no other. *)
Definition references_resolve (w : world) (gs : list page) : Prop :=
  forall i k p s, nth_error (show_parts gs) i = Some (k, p) -> refers w k p s ->
  forall j k' q, nth_error (show_parts gs) j = Some (k', q) -> (bears q s <-> j = i).

(** Slides built with add_image, add_audio and add_text (C60). *)
Definition built (w : world) (gs : list page) : Prop :=
  forall k p, In (k, p) (show_parts gs) ->
  match k with
  | Words => exists t, p = set_text t new_part
  | _ => exists f, part_from_file w f = Ok p
  end.

Lemma file_bears w f p : part_from_file w f = Ok p -> forall s, (bears p s <-> s = basename f) /\ (source w p s <-> s = basename f).
Proof.
  unfold part_from_file, from_file. destruct (w_file w f); [|discriminate].
  cbn [st_upd]. intros E s. injection E as <-. unfold bears. cbn [dp_headers]. split; split.
  - intros [H|H]; [|discriminate H]. change (Some (HStr (basename f)) = Some (HStr s)) in H. injection H as H. exact (eq_sym H).
  - intros ->. left. reflexivity.
  - intros H. inversion H as [t E|t E _|t E _]; cbn [dp_headers] in E; try discriminate E.
    change (Some (HStr (basename f)) = Some (HStr s)) in E. injection E as E. exact (eq_sym E).
  - intros ->. apply source_location. reflexivity.
Qed.
Lemma text_bears t s : ~ bears (set_text t new_part) s.
Proof. intros [H|H]; discriminate H. Qed.

(** C102, exactly: the references lead to their parts just when no slide has text
    and no two files have the same name. *)
Theorem C102_exact : forall w gs, built w gs ->
  (references_resolve w gs <->
   (forall p, ~ In (Words, p) (show_parts gs)) /\
   (forall i j k k' p q s, nth_error (show_parts gs) i = Some (k, p) -> nth_error (show_parts gs) j = Some (k', q) ->
      bears p s -> bears q s -> i = j)).
Proof.
  intros w gs B. split.
  - intros R. split.
    + intros p I. destruct (B _ _ I) as (t & ->). apply In_nth_error in I. destruct I as (i & I).
      apply (text_bears t t). apply (R i Words _ t I eq_refl i Words _ I). reflexivity.
    + intros i j k k' p q s Hi Hj Bp Bq. symmetry. apply (R i k p s Hi) with (k' := k') (q := q); [|exact Hj|exact Bq].
      specialize (B k p (nth_error_In _ _ Hi)). destruct k.
      * destruct B as (f & P). apply (proj2 (file_bears _ _ _ P s)), (proj1 (file_bears _ _ _ P s)). exact Bp.
      * destruct B as (f & P). apply (proj2 (file_bears _ _ _ P s)), (proj1 (file_bears _ _ _ P s)). exact Bp.
      * destruct B as (t & ->). destruct (text_bears _ _ Bp).
  - intros (T & U) i k p s Hi Rf j k' q Hj. assert (Bs : bears p s).
    { pose proof (B k p (nth_error_In _ _ Hi)) as Bk. destruct k.
      - destruct Bk as (f & P). apply (proj1 (file_bears _ _ _ P s)), (proj2 (file_bears _ _ _ P s)). exact Rf.
      - destruct Bk as (f & P). apply (proj1 (file_bears _ _ _ P s)), (proj2 (file_bears _ _ _ P s)). exact Rf.
      - destruct (T p (nth_error_In _ _ Hi)). }
    split.
    + intros Bq. symmetry. eapply U; eassumption.
    + intros ->. rewrite Hi in Hj. congruence.
Qed.
Print Assumptions C102_exact.

(** C102 fails for every slide with text: the text itself stands where its name
    should, and the text part has no name; *)
Theorem C102_text_refuted : forall w gs g p tb te, built w gs -> In g gs -> pg_text g = Some (p, tb, te) ->
  ~ references_resolve w gs /\ forall s, ~ bears p s.
Proof.
  intros w gs g p tb te B I E.
  assert (W : In (Words, p) (show_parts gs)).
  { unfold show_parts. apply in_flat_map. exists g. split; [exact I|]. unfold slide_parts. rewrite E.
    apply in_or_app. right. apply in_or_app. right. now left. }
  split; [|destruct (B _ _ W) as (t & ->); apply text_bears].
  intros R. apply (C102_exact w gs B) in R. destruct R as (T & _). exact (T p W).
Qed.
Print Assumptions C102_text_refuted.
(** and for two files of the same name in different directories. *)
Example C102_directories_refuted :
  let w := World (fun _ => Some [1]) (fun _ => Some (str "image/jpeg")) (fun d => d) in
  let gs := [snd (add_image w (str "monday/photo.jpg") 0 0 new_page); snd (add_image w (str "tuesday/photo.jpg") 0 0 new_page)] in
  built w gs /\ ~ references_resolve w gs.
Proof.
  cbv zeta. set (w := World (fun _ => Some [1]) (fun _ => Some (str "image/jpeg")) (fun d => d)).
  set (gs := [_; _]). assert (B : built w gs).
  { intros k p [I|[I|[]]]; injection I as <- <-; [exists (str "monday/photo.jpg")|exists (str "tuesday/photo.jpg")]; reflexivity. }
  split; [exact B|]. intros R. apply (C102_exact w gs B) in R. destruct R as (_ & U).
  assert (X : 0%nat = 1%nat); [|discriminate X].
  eapply (U 0%nat 1%nat _ _ _ _ (str "photo.jpg")); [reflexivity|reflexivity|left; reflexivity|left; reflexivity].
Qed.
Example C102_case :
  let w := World (fun _ => Some [1]) (fun _ => Some (str "image/jpeg")) (fun d => d) in
  let gs := [snd (add_image w (str "monday/photo.jpg") 0 0 new_page); snd (add_image w (str "tuesday/sea.jpg") 0 0 new_page)] in
  built w gs /\ references_resolve w gs.
Proof.
  cbv zeta. set (w := World (fun _ => Some [1]) (fun _ => Some (str "image/jpeg")) (fun d => d)).
  set (gs := [_; _]). assert (B : built w gs).
  { intros k p [I|[I|[]]]; injection I as <- <-; [exists (str "monday/photo.jpg")|exists (str "tuesday/sea.jpg")]; reflexivity. }
  split; [exact B|]. apply (C102_exact w gs B). split.
  - intros p [I|[I|[]]]; discriminate I.
  - intros i j k k' p q s Hi Hj Bp Bq. destruct i as [|[|i]]; [| |destruct i; discriminate Hi];
      (destruct j as [|[|j]]; [| |destruct j; discriminate Hj]); try reflexivity; exfalso;
      injection Hi as <- <-; injection Hj as <- <-; destruct Bp as [Bp|Bp]; try discriminate Bp; destruct Bq as [Bq|Bq]; try discriminate Bq;
      vm_compute in Bp, Bq; congruence.
Qed.
