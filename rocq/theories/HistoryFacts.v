(** Facts about the histories of a data part (C118). *)
From Coq Require Import Lia.
From Verif Require Import Py Iter Tables WspDec WspEnc Message MmsEnc WspClaims MmsClaims
  MessageClaims SpecAttach SpecHistory PyFacts MessageFacts PropAttach.
Open Scope Z_scope.

Lemma acts_files x s : fst (acts x s) = files_after [x] (fst s).
Proof.
  destruct s as [w p]. destruct x as [e|k v]; [|reflexivity]. destruct e; reflexivity.
Qed.

Lemma after_app xs ys w : after (xs ++ ys) w = fold_left (fun s x => acts x s) ys (after xs w).
Proof. unfold after. apply fold_left_app. Qed.

Lemma after_snoc xs x w : after (xs ++ [x]) w = acts x (after xs w).
Proof. rewrite after_app. reflexivity. Qed.

Lemma files_app xs ys w : files_after (xs ++ ys) w = files_after ys (files_after xs w).
Proof. unfold files_after. apply fold_left_app. Qed.

Lemma after_files xs w : fst (after xs w) = files_after xs w.
Proof.
  induction xs as [|x xs IH] using rev_ind; [reflexivity|].
  rewrite after_snoc, acts_files, IH, files_app. reflexivity.
Qed.

Lemma none_snoc P w xs y : none P w (xs ++ [y]) ->
  none P w xs /\ ~ P (files_after xs w) y.
Proof.
  intros H. split.
  - intros a x b E. apply (H a x (b ++ [y])). rewrite E, <- app_assoc. reflexivity.
  - apply (H xs y []). reflexivity.
Qed.

Lemma get_data_headers w p : dp_headers (snd (get_data w p)) = dp_headers p /\
  dp_filename (snd (get_data w p)) = dp_filename p.
Proof.
  unfold get_data, st_bind, st_get. destruct (dp_data p); [auto|].
  destruct (dp_filename p) as [f|] eqn:E; [|auto]. destruct (w_file w f); auto.
Qed.

Lemma part_len_part w p : dp_headers (snd (part_len w p)) = dp_headers p /\
  dp_filename (snd (part_len w p)) = dp_filename p /\ dp_data (snd (part_len w p)) = dp_data p.
Proof.
  unfold part_len, get_data, st_bind, st_get. destruct p as [h q f d]; cbn.
  destruct f as [f|]; [destruct (w_file w f); auto|]. destruct d; auto.
Qed.

(** * The last component of a path is one *)

Lemma basename_acc_no b acc : ~ In 47 b -> basename_acc acc b = rev acc ++ b.
Proof.
  revert acc. induction b as [|c b IH]; intros acc H; cbn [basename_acc]; [now rewrite app_nil_r|].
  destruct (Z.eqb_spec c 47) as [->|N]; [exfalso; apply H; now left|].
  rewrite IH by (intros X; apply H; now right). cbn [rev]. now rewrite <- app_assoc.
Qed.

Lemma basename_acc_dir dir b acc : basename_acc acc (dir ++ 47 :: b) = basename_acc [] b.
Proof.
  revert acc. induction dir as [|c dir IH]; intros acc; cbn [app basename_acc]; [reflexivity|].
  destruct (c =? 47); apply IH.
Qed.

Lemma last_component_basename path base : last_component path base -> basename path = base.
Proof.
  intros (N & [-> | [dir ->]]); unfold basename.
  - now rewrite basename_acc_no.
  - cbn [app]. now rewrite basename_acc_dir, basename_acc_no.
Qed.

(** * Headers *)

Definition header_of (k : list Z) (s : world * part) : option hval :=
  d_get leqb k (dp_headers (snd s)).

Lemma leqb_neq a b : a <> b -> leqb a b = false.
Proof. intros H. destruct (leqb a b) eqn:E; [apply leqb_eq in E; contradiction|reflexivity]. Qed.

Lemma ct_cl : str "Content-Type" <> str "Content-Location".
Proof. discriminate. Qed.

Lemma file_type_is g m : file_type g m ->
  m = match g with Some (c :: r) => c :: r | _ => str "application/octet-stream" end.
Proof. unfold file_type. destruct g as [[|c r]|]; cbn [leqb]; auto. Qed.

Lemma file_type_some g :
  file_type g match g with Some (c :: r) => c :: r | _ => str "application/octet-stream" end.
Proof. unfold file_type. destruct g as [[|c r]|]; reflexivity. Qed.

Lemma acts_settles w p k x v : settles w k x v -> header_of k (acts x (w, p)) = v.
Proof.
  unfold header_of. intros H.
  destruct H as [v|m E|d m ps E|t E|f m F E T|f base F E L|d m ps N|t N|f F N1 N2];
    cbn [acts happens snd]; try subst k.
  - cbn [dp_headers]. apply d_get_set_same; intros; apply leqb_eq.
  - cbn [set_content_type dp_headers]. apply d_get_set_same; intros; apply leqb_eq.
  - unfold set_data. cbn [dp_headers d_get]. now rewrite leqb_refl.
  - unfold set_text, set_data. cbn [dp_headers d_get]. now rewrite leqb_refl.
  - unfold from_file. destruct (w_file w f); [|congruence].
    cbn [st_upd snd dp_headers d_get]. rewrite (leqb_neq _ _ ct_cl), leqb_refl.
    apply file_type_is in T. now rewrite T.
  - unfold from_file. destruct (w_file w f); [|congruence].
    cbn [st_upd snd dp_headers d_get]. rewrite leqb_refl.
    now rewrite (last_component_basename _ _ L).
  - unfold set_data. cbn [dp_headers d_get]. now rewrite (leqb_neq _ _ N).
  - unfold set_text, set_data. cbn [dp_headers d_get]. now rewrite (leqb_neq _ _ N).
  - unfold from_file. destruct (w_file w f); [|congruence].
    cbn [st_upd snd dp_headers d_get]. now rewrite (leqb_neq _ _ N1), (leqb_neq _ _ N2).
Qed.

Lemma leqb_dec (a b : list Z) : {a = b} + {a <> b}.
Proof. apply (list_eq_dec Z.eq_dec). Qed.

Lemma acts_keeps w p k x : (forall v, ~ settles w k x v) ->
  header_of k (acts x (w, p)) = header_of k (w, p).
Proof.
  unfold header_of. intros H. destruct x as [e|j v]; cbn [acts].
  - destruct e as [f|d m ps|t|m| | |f c]; cbn [happens snd].
    + unfold from_file. destruct (w_file w f) eqn:E; [exfalso|reflexivity].
      assert (F : w_file w f <> None) by congruence.
      destruct (leqb_dec k (str "Content-Type")) as [K|K].
      * eapply H, (s_load_type w k f _ F K), file_type_some.
      * destruct (leqb_dec k (str "Content-Location")) as [L|L].
        -- eapply H, (s_load_location w k f _ F L), basename_spec.
        -- eapply H, (s_clear_load w k f F K L).
    + exfalso. destruct (leqb_dec k (str "Content-Type")) as [K|K];
        [eapply H, (s_data w k d m ps K)|eapply H, (s_clear_data w k d m ps K)].
    + exfalso. destruct (leqb_dec k (str "Content-Type")) as [K|K];
        [eapply H, (s_text w k t K)|eapply H, (s_clear_text w k t K)].
    + unfold set_content_type. cbn [dp_headers].
      destruct (leqb_dec k (str "Content-Type")) as [K|K]; [exfalso; eapply H, (s_media w k m K)|].
      apply d_get_set_other; [intros; apply leqb_eq|congruence].
    + now rewrite (proj1 (get_data_headers w p)).
    + now rewrite (proj1 (part_len_part w p)).
    + reflexivity.
  - cbn [snd dp_headers]. destruct (leqb_dec k j) as [K|K]; [exfalso; subst j; eapply H, s_header|].
    apply d_get_set_other; [intros; apply leqb_eq|congruence].
Qed.

Definition settles_some (k : list Z) (w : world) (x : act) : Prop := exists v, settles w k x v.

Lemma header_kept k ys : forall w0 xs,
  none (settles_some k) (files_after xs w0) ys ->
  header_of k (after (xs ++ ys) w0) = header_of k (after xs w0).
Proof.
  induction ys as [|y ys IH] using rev_ind; intros w0 xs H; [now rewrite app_nil_r|].
  apply none_snoc in H. destruct H as [H1 H2]. rewrite app_assoc, after_snoc.
  destruct (after (xs ++ ys) w0) as [w p] eqn:E.
  assert (W : w = files_after ys (files_after xs w0)).
  { rewrite <- files_app, <- (after_files (xs ++ ys)), E. reflexivity. }
  rewrite acts_keeps; [rewrite <- E; now apply IH|].
  intros v S. apply H2. exists v. now rewrite <- W.
Qed.

Lemma header_last k v w0 a x b :
  settles (files_after a w0) k x v -> none (settles_some k) (files_after (a ++ [x]) w0) b ->
  header_of k (after (a ++ x :: b) w0) = v.
Proof.
  intros S N. replace (a ++ x :: b) with ((a ++ [x]) ++ b) by now rewrite <- app_assoc.
  rewrite header_kept by exact N. rewrite after_snoc.
  destruct (after a w0) as [w p] eqn:E. apply acts_settles.
  rewrite <- after_files in S. now rewrite E in S.
Qed.

(** * Data *)

(** What is known of the data: fixed, or the content of a file not yet read. *)
Definition held (d : list Z) (s : world * part) : Prop := dp_data (snd s) = Some d.
Definition waits (f : list Z) (s : world * part) : Prop :=
  dp_data (snd s) = None /\ dp_filename (snd s) = Some f.
Definition blank (s : world * part) : Prop := dp_data (snd s) = None /\ dp_filename (snd s) = None.

Lemma acts_quiet w p x : ~ gives_data w x -> x <> Does ReadData ->
  dp_data (snd (acts x (w, p))) = dp_data p /\ dp_filename (snd (acts x (w, p))) = dp_filename p.
Proof.
  intros G R. destruct x as [e|j v]; [|split; reflexivity].
  destruct e as [f|d m ps|t|m| | |f c]; cbn [acts happens snd].
  - unfold from_file. destruct (w_file w f) eqn:E; [|split; reflexivity].
    exfalso. apply G. constructor. congruence.
  - exfalso. apply G. constructor.
  - exfalso. apply G. constructor.
  - split; reflexivity.
  - congruence.
  - split; apply part_len_part.
  - split; reflexivity.
Qed.

Lemma act_read x : {x = Does ReadData} + {x <> Does ReadData}.
Proof. destruct x as [[]|]; try (right; discriminate). now left. Qed.

Lemma acts_held w p x d : ~ gives_data w x -> held d (w, p) -> held d (acts x (w, p)).
Proof.
  intros G H. unfold held in *. cbn [snd] in H. destruct (act_read x) as [->|R].
  - cbn [acts happens snd]. unfold get_data, st_bind, st_get. now rewrite H.
  - now rewrite (proj1 (acts_quiet w p x G R)).
Qed.

Lemma acts_waits w p x f : ~ gives_data w x -> ~ reads_file f w x -> waits f (w, p) ->
  waits f (acts x (w, p)).
Proof.
  intros G N [H1 H2]. unfold waits in *. cbn [snd] in H1, H2. destruct (act_read x) as [->|R].
  - cbn [acts happens snd]. unfold get_data, st_bind, st_get. rewrite H1, H2.
    destruct (w_file w f) eqn:E; [|cbn; auto].
    exfalso. apply N. split; [reflexivity|congruence].
  - destruct (acts_quiet w p x G R) as [-> ->]. auto.
Qed.

Lemma acts_blank w p x : ~ gives_data w x -> blank (w, p) -> blank (acts x (w, p)).
Proof.
  intros G [H1 H2]. unfold blank in *. cbn [snd] in H1, H2. destruct (act_read x) as [->|R].
  - cbn [acts happens snd]. unfold get_data, st_bind, st_get. rewrite H1, H2. auto.
  - destruct (acts_quiet w p x G R) as [-> ->]. auto.
Qed.

(** An invariant of the events that are not [P]. *)
Lemma carried (I : world * part -> Prop) (P : world -> act -> Prop) :
  (forall w p x, ~ P w x -> I (w, p) -> I (acts x (w, p))) ->
  forall ys xs w0, I (after xs w0) -> none P (files_after xs w0) ys -> I (after (xs ++ ys) w0).
Proof.
  intros HI ys. induction ys as [|y ys IH] using rev_ind; intros xs w0 H N; [now rewrite app_nil_r|].
  apply none_snoc in N. destruct N as [N1 N2]. rewrite app_assoc, after_snoc.
  specialize (IH xs w0 H N1). destruct (after (xs ++ ys) w0) as [w p] eqn:E.
  apply HI; [|exact IH].
  assert (W : w = files_after ys (files_after xs w0)).
  { rewrite <- files_app, <- (after_files (xs ++ ys)), E. reflexivity. }
  now rewrite W.
Qed.

Lemma data_held w p d : held d (w, p) -> data_of w p = Ok d.
Proof. unfold held, data_of, get_data, st_bind, st_get. cbn [snd]. now intros ->. Qed.

Lemma data_waits w p f : waits f (w, p) ->
  data_of w p = match w_file w f with Some c => Ok c | None => Err OSError end.
Proof.
  unfold waits, data_of, get_data, st_bind, st_get. cbn [snd]. intros [-> ->].
  destruct (w_file w f); reflexivity.
Qed.

Lemma data_blank w p : blank (w, p) -> data_of w p = Ok [].
Proof. unfold blank, data_of, get_data, st_bind, st_get. cbn [snd]. now intros [-> ->]. Qed.

(** * Length *)

Definition named (f : option (list Z)) (s : world * part) : Prop := dp_filename (snd s) = f.

Lemma acts_named w p x f : ~ gives_data w x -> named f (w, p) -> named f (acts x (w, p)).
Proof.
  intros G H. unfold named in *. cbn [snd] in H. destruct (act_read x) as [->|R].
  - cbn [acts happens snd]. now rewrite (proj2 (get_data_headers w p)).
  - now rewrite (proj2 (acts_quiet w p x G R)).
Qed.

Lemma len_named w p f : named (Some f) (w, p) ->
  len_of w p = match w_file w f with Some c => Ok (zlen c) | None => Err OSError end.
Proof.
  unfold named, len_of, part_len, st_bind, st_get. cbn [snd]. intros ->.
  destruct (w_file w f); reflexivity.
Qed.

Lemma len_unnamed w p : named None (w, p) -> len_of w p = (d <- data_of w p ;; Ok (zlen d)).
Proof.
  unfold named, len_of, data_of, part_len, st_bind, st_get. cbn [snd]. intros ->.
  destruct (get_data w p) as [[d|e] q]; reflexivity.
Qed.
