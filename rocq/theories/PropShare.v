(** C120: slides and parts held by several messages, and slides changed after they were
    added. *)
From Verif Require Import Py Iter WspDec WspEnc Message MmsEnc Share SpecShare ShareFacts.
Open Scope Z_scope.

(** C120: whatever a program did before, a call answers as it does on the slide that
    received the calls on it and on the message that received the calls on it, its slides
    as they are by then; in particular [encode] returns the octets of that message. *)
Theorem C120_program : forall render w cs c,
  fst (h_call render w c (h_run render w cs empty_heap)) = answered render w cs c.
Proof.
  intros render w cs c. exact (proj1 (call_built render w cs c _
    (run_built render w cs [] _ (built_start w)))).
Qed.
Print Assumptions C120_program.

(** C120: however objects are shared, encoding returns what it returns on copies. *)
Theorem C120_copies : forall render w rand k h,
  fst (h_encode render w rand k h) = fst (encode render w rand (message_value h k)).
Proof.
  intros render w rand k h. rewrite encode_fst. exact (proj1 (h_encode_run render w rand k h)).
Qed.
Print Assumptions C120_copies.

(** C120: encoding other messages, successfully or not, does not change what a message
    sends, whatever it shares with them. *)
Theorem C120_others : forall render w es k rand h,
  Forall (fun e => exists j r, e = CEncode j r /\ j <> k) es ->
  fst (h_encode render w rand k (h_run render w es h)) = fst (h_encode render w rand k h).
Proof.
  intros render w es k rand h H. revert h. induction H as [|e es (j & r & -> & N) _ IH]; intros h;
    [reflexivity|].
  change (h_run render w (CEncode j r :: es) h)
    with (h_run render w es (snd (h_encode render w r j h))).
  rewrite IH. rewrite (proj1 (h_encode_run render w rand k _)), (proj1 (h_encode_run render w rand k h)).
  apply encode_result_like. destruct (h_encode_run render w r j h) as (_ & Lp & Eg & Em & _).
  assert (M : h_msgs (snd (h_encode render w r j h)) k = h_msgs h k).
  { rewrite Em. unfold set_at. destruct (Nat.eqb k j) eqn:E; [|reflexivity].
    apply PeanoNat.Nat.eqb_eq in E. congruence. }
  unfold message_value. rewrite M. split; [reflexivity|]. cbn [m_pages m_parts m_width m_height].
  split; [|split; [unfold zlen; now rewrite !map_length|auto]].
  generalize (hm_pages (h_msgs h k)). intros l. induction l; constructor; auto.
  apply page_value_like; assumption.
Qed.
Print Assumptions C120_others.

(** Whether a call is one on a slide. *)
Definition on_some_slide (c : hcall) : bool :=
  match c with CImage _ _ _ _ | CAudio _ _ _ _ | CText _ _ _ _ | CDuration _ _ => true | _ => false end.

(** C120: a slide may be filled after it was added: a message sends the same as when all
    slides are completed first. *)
Theorem C120_late : forall render w cs k rand,
  fst (h_encode render w rand k (h_run render w cs empty_heap)) =
  fst (h_encode render w rand k
         (h_run render w (filter on_some_slide cs ++ filter (fun c => negb (on_some_slide c)) cs)
                empty_heap)).
Proof.
  intros render w cs k rand.
  change (h_encode render w rand k) with (h_call render w (CEncode k rand)).
  rewrite !C120_program. cbn [answered]. do 2 f_equal.
  set (cs' := filter on_some_slide cs ++ filter (fun c => negb (on_some_slide c)) cs).
  assert (S : forall i g ds, fold_left (on_slide w i) ds g =
                             fold_left (on_slide w i) (filter on_some_slide ds) g).
  { intros i g ds. revert g. induction ds as [|d ds IH]; intros g; [reflexivity|].
    destruct d; cbn [filter on_some_slide fold_left on_slide]; apply IH. }
  assert (N : forall ds, filter on_some_slide (filter (fun c => negb (on_some_slide c)) ds) = []).
  { induction ds as [|d ds IH]; [reflexivity|]. destruct d; cbn; exact IH. }
  assert (I : forall ds, filter on_some_slide (filter on_some_slide ds) = filter on_some_slide ds).
  { induction ds as [|d ds IH]; [reflexivity|]. destruct d; cbn; now rewrite ?IH. }
  assert (M : forall P m ds, fold_left (on_message w P k) ds m =
                fold_left (on_message w P k) (filter (fun c => negb (on_some_slide c)) ds) m).
  { intros P m ds. revert m. induction ds as [|d ds IH]; intros m; [reflexivity|].
    destruct d; cbn [filter on_some_slide negb fold_left on_message]; apply IH. }
  assert (N' : forall P m ds, fold_left (on_message w P k) (filter on_some_slide ds) m = m).
  { intros P m ds. revert m. induction ds as [|d ds IH]; intros m; [reflexivity|].
    destruct d; cbn [filter on_some_slide fold_left on_message]; apply IH. }
  assert (E : forall i, slide w cs' i = slide w cs i).
  { intros i. unfold slide, cs'. rewrite fold_left_app, (S i new_page cs).
    rewrite (S i _ (filter (fun c => negb (on_some_slide c)) cs)), N. reflexivity. }
  assert (X : forall ds m, fold_left (on_message w (slide w cs) k) ds m =
                           fold_left (on_message w (slide w cs') k) ds m).
  { induction ds as [|d ds IH]; intros m; [reflexivity|]. cbn [fold_left].
    replace (on_message w (slide w cs') k m d) with (on_message w (slide w cs) k m d); [apply IH|].
    destruct d; cbn [on_message]; try reflexivity. now rewrite E. }
  unfold sent. rewrite X, M. unfold cs' at 3. rewrite fold_left_app, N'. reflexivity.
Qed.
Print Assumptions C120_late.

(** * Examples *)

Definition ex_share_world : world :=
  World (fun f => if leqb f (str "/a/b.gif") then Some [71; 73; 70] else None)
        (fun f => Some (str "image/gif")) (fun d => d).
(** Slide 0 is added to messages 0 and 1, twice to the latter, before it is filled; message
    0 is encoded before message 1. *)
Definition ex_program : list hcall :=
  [CAdd 0 0; CAdd 1 0; CImage 0 (str "/a/b.gif") 0 0; CAdd 1 0; CText 0 [65] 0 0;
   CHeader 0 (str "To") (HStr (str "x")); CEncode 0 1000; CText 1 [66] 0 0; CAdd 1 1].

(** The program is not one in which encoding fails, and the slides are really shared. *)
Example C120_case :
  let h := h_run (fun _ => [60]) ex_share_world ex_program empty_heap in
  hm_pages (h_msgs h 1%nat) = [0; 0; 1]%nat /\ hm_pages (h_msgs h 0%nat) = [0%nat] /\
  dp_data (h_parts h 0%nat) = Some [71; 73; 70] /\
  match fst (h_call (fun _ => [60]) ex_share_world (CEncode 1 2000) h) with
  | Ok l => last l 0 = 66
  | Err _ => False
  end.
Proof. vm_compute. repeat split. Qed.
