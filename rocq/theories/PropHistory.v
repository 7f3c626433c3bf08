(** C118: what a data part shows after any history. *)
From Coq Require Import Lia.
From Verif Require Import Py Iter Tables WspDec WspEnc Message MmsEnc WspClaims MmsClaims
  MessageClaims SpecAttach SpecHistory PyFacts MessageFacts PropAttach HistoryFacts.
Open Scope Z_scope.

(** C118: a header is what the last event that settles it made it; if no event settles
    it, it is that of a new part. *)
Theorem C118_headers : forall w k,
  (forall a x b v,
     settles (files_after a w) k x v ->
     none (fun w x => exists v, settles w k x v) (files_after (a ++ [x]) w) b ->
     h_get k (dp_headers (snd (after (a ++ x :: b) w))) = v) /\
  (forall xs, none (fun w x => exists v, settles w k x v) w xs ->
     (k = str "Content-Type" ->
      h_get k (dp_headers (snd (after xs w))) = Some (HType (str "application/octet-stream") [])) /\
     (k <> str "Content-Type" -> h_get k (dp_headers (snd (after xs w))) = None)).
Proof.
  intros w k. split.
  - intros a x b v S N. exact (header_last k v w a x b S N).
  - intros xs N. pose proof (header_kept k xs w [] N) as H. cbn [app] in H.
    unfold header_of in H. cbn [after fold_left snd new_part dp_headers d_get] in H. unfold h_get.
    split; intros K.
    + subst k. rewrite leqb_refl in H. exact H.
    + rewrite (leqb_neq _ _ K) in H. exact H.
Qed.
Print Assumptions C118_headers.

(** C118: the type read from a part is the one the last event settling it gave. *)
Theorem C118_type : forall w a x b media ps,
  settles (files_after a w) (str "Content-Type") x (Some (HType media ps)) ->
  none (fun w x => exists v, settles w (str "Content-Type") x v) (files_after (a ++ [x]) w) b ->
  part_content_type (snd (after (a ++ x :: b) w)) = Ok media.
Proof.
  intros w a x b media ps S N. pose proof (header_last _ _ w a x b S N) as H.
  unfold header_of in H. unfold part_content_type. rewrite H. reflexivity.
Qed.
Print Assumptions C118_type.

(** C118: the type read from a part whose header was set by hand, or removed: the media
    type of a pair, the first character of a text, and an exception for an empty text, a
    value that has no elements, or no value at all. *)
Theorem C118_type_read : forall p,
  match h_get (str "Content-Type") (dp_headers p) with
  | Some (HType media _) => part_content_type p = Ok media
  | Some (HTime first _) | Some (HPragma first _) => part_content_type p = Ok first
  | Some (HP (PStr (c :: _))) => part_content_type p = Ok [c]
  | Some (HP (PStr [])) => part_content_type p = Err IndexError
  | Some _ => part_content_type p = Err TypeError
  | None => part_content_type p = Err KeyError
  end.
Proof.
  intros p. unfold part_content_type, h_get.
  destruct (d_get leqb (str "Content-Type") (dp_headers p)) as [v|]; [|reflexivity].
  destruct v as [q| | | |]; try reflexivity. destruct q as [[|c s]| | |]; reflexivity.
Qed.
Print Assumptions C118_type_read.
Example C118_type_read_case :
  part_content_type (snd (after [SetHeader (str "Content-Type") (HStr (str "text/plain"))]
    (World (fun _ => None) (fun _ => None) (fun _ => [])))) = Ok (str "t").
Proof. vm_compute. reflexivity. Qed.

(** C118: the data of a part.  Data once given stays, whatever is written to files;
    that of a file is its content when it is first read, and fails while the file is
    gone; a part never given any has none. *)
Theorem C118_data : forall w,
  (forall a x b d, (exists m ps, x = Does (SetData d m ps)) \/ x = Does (SetText d) ->
     none gives_data (files_after (a ++ [x]) w) b ->
     data_of (files_after (a ++ x :: b) w) (snd (after (a ++ x :: b) w)) = Ok d) /\
  (forall a f b c, w_file (files_after a w) f <> None ->
     none gives_data (files_after (a ++ [Does (Load f)]) w) b ->
     none (reads_file f) (files_after (a ++ [Does (Load f)]) w) b ->
     let xs := a ++ Does (Load f) :: b in
     (w_file (files_after xs w) f = Some c ->
      data_of (files_after xs w) (snd (after xs w)) = Ok c) /\
     (w_file (files_after xs w) f = None ->
      data_of (files_after xs w) (snd (after xs w)) = Err OSError)) /\
  (forall a f b1 b2 c, w_file (files_after a w) f <> None ->
     none gives_data (files_after (a ++ [Does (Load f)]) w) (b1 ++ Does ReadData :: b2) ->
     none (reads_file f) (files_after (a ++ [Does (Load f)]) w) b1 ->
     w_file (files_after (a ++ Does (Load f) :: b1) w) f = Some c ->
     let xs := a ++ Does (Load f) :: b1 ++ Does ReadData :: b2 in
     data_of (files_after xs w) (snd (after xs w)) = Ok c) /\
  (forall xs, none gives_data w xs ->
     data_of (files_after xs w) (snd (after xs w)) = Ok []).
Proof.
  intros w.
  assert (F : forall xs, after xs w = (files_after xs w, snd (after xs w))).
  { intros xs. rewrite <- after_files. apply surjective_pairing. }
  assert (L : forall a f, w_file (files_after a w) f <> None ->
            waits f (after (a ++ [Does (Load f)]) w)).
  { intros a f E. rewrite after_snoc, (F a). cbn [acts happens]. unfold from_file.
    destruct (w_file (files_after a w) f); [|congruence]. split; reflexivity. }
  assert (A : forall (a : list act) x b, a ++ x :: b = (a ++ [x]) ++ b).
  { intros. rewrite <- app_assoc. reflexivity. }
  assert (W : forall a f b, w_file (files_after a w) f <> None ->
     none gives_data (files_after (a ++ [Does (Load f)]) w) b ->
     none (reads_file f) (files_after (a ++ [Does (Load f)]) w) b ->
     waits f (after ((a ++ [Does (Load f)]) ++ b) w)).
  { intros a f b E G R.
    apply (carried (waits f) (fun w x => gives_data w x \/ reads_file f w x)); [|now apply L|].
    - intros v p x N. apply acts_waits; intros X; apply N; auto.
    - intros p x q X [Y|Y]; [exact (G p x q X Y)|exact (R p x q X Y)]. }
  split; [|split; [|split]].
  - intros a x b d X G. apply data_held. rewrite <- F. rewrite A.
    apply (carried (held d) gives_data); [intros v p y; now apply acts_held| |exact G].
    rewrite after_snoc, (F a). destruct X as [(m & ps & ->) | ->]; reflexivity.
  - intros a f b c E G R xs. subst xs.
    pose proof (W a f b E G R) as H. rewrite <- A, (F (a ++ Does (Load f) :: b)) in H.
    apply data_waits in H. rewrite H. split; intros X; rewrite X; reflexivity.
  - intros a f b1 b2 c E G R C xs. subst xs. apply data_held. rewrite <- F.
    assert (G1 : none gives_data (files_after (a ++ [Does (Load f)]) w) b1).
    { intros p x q X. apply (G p x (q ++ Does ReadData :: b2)). rewrite X, <- app_assoc. reflexivity. }
    pose proof (W a f b1 E G1 R) as H.
    replace (a ++ Does (Load f) :: b1 ++ Does ReadData :: b2)
      with (((a ++ [Does (Load f)]) ++ b1 ++ [Does ReadData]) ++ b2)
      by (rewrite <- !app_assoc; reflexivity).
    apply (carried (held c) gives_data); [intros v p y; now apply acts_held| |].
    + rewrite app_assoc, after_snoc. rewrite <- A in *. rewrite (F (a ++ Does (Load f) :: b1)) in *.
      destruct H as [H1 H2]. cbn [snd] in H1, H2.
      cbn [acts happens]. unfold get_data, st_bind, st_get. rewrite H1, H2, C. reflexivity.
    + intros p x q X. rewrite app_assoc, files_app, files_app. cbn [files_after fold_left].
      rewrite <- files_app, <- files_app.
      intros Y. refine (G (b1 ++ Does ReadData :: p) x q _ _).
      * rewrite X, <- app_assoc. reflexivity.
      * rewrite files_app in Y. rewrite !files_app. cbn [files_after fold_left] in *.
        rewrite !files_app in Y. exact Y.
  - intros xs G. apply data_blank. rewrite <- F.
    apply (carried blank gives_data (fun v p y => acts_blank v p y) xs [] w); [split; reflexivity|exact G].
Qed.
Print Assumptions C118_data.

(** C118: the length of a part.  That of data given is its number of octets; that of a
    loaded file is the size the file has now, whatever of it was read before; a part
    never given any has length 0. *)
Theorem C118_length : forall w,
  (forall a x b d, (exists m ps, x = Does (SetData d m ps)) \/ x = Does (SetText d) ->
     none gives_data (files_after (a ++ [x]) w) b ->
     len_of (files_after (a ++ x :: b) w) (snd (after (a ++ x :: b) w)) = Ok (zlen d)) /\
  (forall a f b c, w_file (files_after a w) f <> None ->
     none gives_data (files_after (a ++ [Does (Load f)]) w) b ->
     let xs := a ++ Does (Load f) :: b in
     (w_file (files_after xs w) f = Some c ->
      len_of (files_after xs w) (snd (after xs w)) = Ok (zlen c)) /\
     (w_file (files_after xs w) f = None ->
      len_of (files_after xs w) (snd (after xs w)) = Err OSError)) /\
  (forall xs, none gives_data w xs -> len_of (files_after xs w) (snd (after xs w)) = Ok 0).
Proof.
  intros w. destruct (C118_data w) as (D1 & _ & _ & D4).
  assert (F : forall xs, after xs w = (files_after xs w, snd (after xs w))).
  { intros xs. rewrite <- after_files. apply surjective_pairing. }
  assert (A : forall (a : list act) x b, a ++ x :: b = (a ++ [x]) ++ b).
  { intros. rewrite <- app_assoc. reflexivity. }
  assert (N : forall f v p x, ~ gives_data v x -> named f (v, p) -> named f (acts x (v, p))).
  { intros f v p x. apply acts_named. }
  split; [|split].
  - intros a x b d X G. rewrite len_unnamed; [now rewrite (D1 a x b d X G)|].
    rewrite <- F, A. apply (carried _ gives_data (N None)); [|exact G].
    rewrite after_snoc, (F a). destruct X as [(m & ps & ->) | ->]; reflexivity.
  - intros a f b c E G xs. subst xs.
    assert (H : named (Some f) (after (a ++ Does (Load f) :: b) w)).
    { rewrite A. apply (carried _ gives_data (N (Some f))); [|exact G].
      rewrite after_snoc, (F a). cbn [acts happens]. unfold from_file.
      destruct (w_file (files_after a w) f); [reflexivity|congruence]. }
    rewrite F in H. apply len_named in H. rewrite H.
    split; intros X; rewrite X; reflexivity.
  - intros xs G. rewrite len_unnamed; [now rewrite (D4 xs G)|].
    rewrite <- F. apply (carried _ gives_data (N None) xs [] w); [reflexivity|exact G].
Qed.
Print Assumptions C118_length.

(** * Examples *)

Definition ex_files : world :=
  World (fun f => if leqb f (str "/a/b.gif") then Some [1; 2] else None)
        (fun f => if leqb f (str "/a/b.gif") then Some (str "image/gif") else None) (fun _ => []).
(** Text, a file that is not there, a file, a type, a header, a read, and the file
    rewritten. *)
Definition ex_acts : list act :=
  [Does (SetText [65]); Does (Load (str "/none")); Does (Load (str "/a/b.gif"));
   Does (SetMedia (str "image/png")); SetHeader (str "Content-ID") (HStr (str "x"));
   Does ReadData; Does (WriteFile (str "/a/b.gif") (Some [3; 4; 5]))].

Example ex_settles :
  settles (files_after [Does (SetText [65]); Does (Load (str "/none"))] ex_files)
    (str "Content-Location") (Does (Load (str "/a/b.gif"))) (Some (HStr (str "b.gif"))).
Proof.
  apply s_load_location; [discriminate|reflexivity|]. split.
  - cbn. intros H. repeat (destruct H as [H|H]; [discriminate|]). exact H.
  - right. exists (str "/a"). reflexivity.
Qed.

Example ex_after :
  let s := after ex_acts ex_files in
  part_content_type (snd s) = Ok (str "image/png") /\
  h_get (str "Content-Location") (dp_headers (snd s)) = Some (HStr (str "b.gif")) /\
  h_get (str "Content-ID") (dp_headers (snd s)) = Some (HStr (str "x")) /\
  data_of (fst s) (snd s) = Ok [1; 2] /\ len_of (fst s) (snd s) = Ok 3.
Proof. vm_compute. repeat split. Qed.

(** Nothing gives data after the file. *)
Example ex_none : none gives_data ex_files
  [Does (SetMedia (str "image/png")); Does ReadData; Does (Load (str "/none"))].
Proof.
  intros a x b E H.
  destruct a as [|a0 a]; cbn in E; injection E as E0 E; [subst x; inversion H|].
  destruct a as [|a1 a]; cbn in E; injection E as E1 E; [subst x; inversion H|].
  destruct a as [|a2 a]; cbn in E; injection E as E2 E.
  - subst x a0 a1. inversion H as [| |f N]. apply N. reflexivity.
  - destruct a; discriminate.
Qed.
