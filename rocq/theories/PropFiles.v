(** Theorems about saving and loading messages: C71 and C72. *)
From Coq Require Import Lia ZifyBool ZifyNat.
From Verif Require Import Py Iter Tables WspDec WspEnc Message MmsEnc MmsDec
  SpecWsp WspClaims MmsClaims PyFacts BodyFacts FileFacts PropBody.
Open Scope Z_scope.

(** * C71 *)

(** C71: when no part on a slide refers to the target file, [to_file] writes the
    octets [encode] returns, [from_file] then gives what [from_data] gives for
    them, and no other file changes. *)
Theorem C71_save_load : forall render rand f m w b m', unused f m ->
  encode render w rand m = (Ok b, m') ->
  exists w', to_file render true rand f (m, w) = (Ok tt, (m', w')) /\
    w_file w' f = Some b /\ decode_file w' f = decode_data b /\
    forall g, g <> f -> w_file w' g = w_file w g.
Proof.
  intros render rand f m w b m' Hu E. rewrite (to_file_run render rand f m w Hu), E.
  eexists. split; [reflexivity|]. split; [apply with_file_same|]. split.
  - unfold decode_file. now rewrite with_file_same.
  - intros g Hg. now rewrite !with_file_other.
Qed.
Print Assumptions C71_save_load.

(** C71 with the content: headers, presentation and slide parts of a saved message
    are those of the loaded one. *)
Theorem C71_message : forall render rand f m w text, unused f m ->
  is_dict (m_headers m) -> any_order w -> sendable rand (m_headers m) ->
  slides_sendable w m -> smil render w m = Ok text -> m_parts m = [] ->
  exists m1 w', to_file render true rand f (m, w) = (Ok tt, (m1, w')) /\
    forall b, w_file w' f = Some b -> zlen b <= maxint ->
    exists m' sp ps, decode_file w' f = Ok m' /\
      (forall k, h_get k (m_headers m') = sent_headers rand (m_headers m) k) /\
      m_parts m' = sp :: ps /\ dp_data sp = Some text /\
      Forall2 (delivers w) (slide_parts m) ps.
Proof.
  intros render rand f m w text Hu Hd Hw Hs Hp Ht Hq.
  destruct (C52_message render w rand m text Hd Hw Hs Hp Ht Hq) as (b & m1 & E & D).
  destruct (C71_save_load render rand f m w b m1 Hu E) as (w' & E1 & E2 & E3 & _).
  exists m1, w'. split; [exact E1|]. intros b' E4 Hb. rewrite E2 in E4. injection E4 as <-.
  destruct (D Hb) as (m' & sp & ps & D1 & D2 & D3 & (D4 & _) & D5).
  exists m', sp, ps. rewrite E3. auto.
Qed.
Print Assumptions C71_message.
Definition img_world : world :=
  World (fun g => if leqb g (str "/t/a.gif") then Some (str "GIF") else None)
        (fun _ => Some (str "image/gif")) (fun d => d).
Definition img_message : message :=
  snd (add_page (snd (add_image img_world (str "/t/a.gif") 0 0 new_page)) new_message).
Example C71_case : unused (str "/t/out.mms") img_message /\
  match to_file (fun _ => str "<smil/>") true 1111 (str "/t/out.mms") (img_message, img_world) with
  | (Ok _, (_, w')) =>
      match decode_file w' (str "/t/out.mms") with
      | Ok m' => map dp_data (m_parts m') = [Some (str "<smil/>"); Some (str "GIF")]
      | Err _ => False
      end
  | _ => False
  end.
Proof. split; [constructor; [discriminate|constructor]|vm_compute; reflexivity]. Qed.

(** Without that hypothesis C71 is false of the code: saving a message over the
    file of one of its images sends an empty image and destroys the picture. *)
Theorem C71_own_file_refuted : exists render w m f c b m1 m2 w2 m',
  w_file w f = Some c /\ c <> [] /\
  encode render w 1111 m = (Ok b, m1) /\
  to_file render true 1111 f (m, w) = (Ok tt, (m2, w2)) /\
  w_file w2 f <> Some b /\ decode_file w2 f = Ok m' /\
  map dp_data (tl (m_parts m')) = [Some []].
Proof.
  exists (fun _ => str "<smil/>"), img_world, img_message, (str "/t/a.gif"), (str "GIF").
  destruct (encode (fun _ => str "<smil/>") img_world 1111 img_message) as [[b|e] m1] eqn:E1;
    [|vm_compute in E1; discriminate E1].
  destruct (to_file (fun _ => str "<smil/>") true 1111 (str "/t/a.gif") (img_message, img_world))
    as [[[]|e] [m2 w2]] eqn:E2; [|vm_compute in E2; discriminate E2].
  destruct (decode_file w2 (str "/t/a.gif")) as [m'|e] eqn:E3.
  2: { replace w2 with (snd (snd (to_file (fun _ => str "<smil/>") true 1111 (str "/t/a.gif")
         (img_message, img_world)))) in E3 by (rewrite E2; reflexivity).
       vm_compute in E3. discriminate E3. }
  exists b, m1, m2, w2, m'. split; [reflexivity|]. split; [discriminate|].
  split; [reflexivity|]. split; [reflexivity|].
  assert (Hb : b = match fst (encode (fun _ => str "<smil/>") img_world 1111 img_message) with
                   | Ok x => x | Err _ => [] end) by now rewrite E1.
  assert (Hw : w2 = snd (snd (to_file (fun _ => str "<smil/>") true 1111 (str "/t/a.gif")
         (img_message, img_world)))) by now rewrite E2.
  split; [subst; vm_compute; discriminate|]. split; [exact E3|].
  rewrite Hw in E3. vm_compute in E3. injection E3 as <-. reflexivity.
Qed.
Print Assumptions C71_own_file_refuted.

(** * C72 *)

(** C72 is false of the code for every message that cannot be encoded: the file
    that was there is emptied. *)
Theorem C72_failed_save_refuted : forall render rand f m w e m1, unused f m ->
  encode render w rand m = (Err e, m1) ->
  exists w', to_file render true rand f (m, w) = (Err e, (m1, w')) /\ w_file w' f = Some [].
Proof.
  intros render rand f m w e m1 Hu E. rewrite (to_file_run render rand f m w Hu), E.
  eexists. split; [reflexivity|]. apply with_file_same.
Qed.
Print Assumptions C72_failed_save_refuted.
(** A priority cannot be encoded; the old content is lost. *)
Example C72_case :
  let w := World (fun g => if leqb g (str "out") then Some (str "precious") else None)
                 (fun _ => None) (fun d => d) in
  let m := with_headers (d_set leqb (str "Priority") (HStr (str "High")) default_headers)
                        new_message in
  unused (str "out") m /\
  match to_file (fun _ => []) true 1111 (str "out") (m, w) with
  | (Err AttributeError, (_, w')) =>
      w_file w (str "out") = Some (str "precious") /\ w_file w' (str "out") = Some []
  | _ => False
  end.
Proof. split; [constructor|vm_compute; auto]. Qed.

(** What holds: a file that cannot be opened leaves everything alone, and no
    other file is ever touched. *)
Theorem C72_failed_save_partial : forall render writable rand f m w e m' w',
  to_file render writable rand f (m, w) = (Err e, (m', w')) ->
  (writable = false -> w' = w /\ m' = m /\ e = OSError) /\
  forall g, g <> f -> w_file w' g = w_file w g.
Proof.
  intros render writable rand f m w e m' w'. unfold to_file. destruct writable; cbn [negb].
  - destruct (encode render (with_file f [] w) rand m) as [[b|e'] m1]; [discriminate|].
    intros X. injection X. intros <- _ _. split; [discriminate|]. intros g Hg. now apply with_file_other.
  - intros X. injection X. intros <- <- <-. auto.
Qed.
Print Assumptions C72_failed_save_partial.

(** C72, exactly: a save that fails leaves the target as it was just when the target
    could not be opened or was empty before. *)
Theorem C72_exact : forall render writable rand f m w e m' w',
  to_file render writable rand f (m, w) = (Err e, (m', w')) ->
  (w_file w' f = w_file w f <-> writable = false \/ w_file w f = Some []).
Proof.
  intros render writable rand f m w e m' w'. unfold to_file. destruct writable; cbn [negb].
  - destruct (encode render (with_file f [] w) rand m) as [[b|e'] m1]; [discriminate|].
    intros X. injection X. intros <- _ _. rewrite with_file_same. split.
    + intros E. right. congruence.
    + intros [E|E]; [discriminate E|congruence].
  - intros X. injection X. intros <- <- <-. split; [auto|reflexivity].
Qed.
Print Assumptions C72_exact.
