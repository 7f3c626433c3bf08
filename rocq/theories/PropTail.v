(** C121: octets after a multimedia message are ignored. *)
From Verif Require Import Py Iter Tables WspDec Message MmsDec SpecWsp SpecMms WspClaims
  SpecReader ReaderFacts PropReader TailFacts.
Open Scope Z_scope.

(** C121: once some data is decoded to a message with a part, the same data followed by
    anything is decoded to the same message. *)
Theorem C121_ignored : forall d x m, all_octets d -> all_octets x ->
  decode_data d = Ok m -> m_parts m <> [] -> decode_data (d ++ x) = Ok m.
Proof.
  intros d x m Hd Hx E N. rewrite C117_message in E by exact Hd.
  rewrite C117_message by (apply Forall_app; auto).
  destruct (a_message d) as [m' rest|e rest] eqn:Em; [|discriminate].
  cbn in E. inversion E. subst m'. now rewrite (message_tail d m rest x Em N).
Qed.
Print Assumptions C121_ignored.

(** C121: so data cut short and taken for a message is taken for one without parts or for
    the whole message. *)
Theorem C121_cut : forall d x m m', all_octets (d ++ x) ->
  decode_data (d ++ x) = Ok m -> decode_data d = Ok m' -> m_parts m' = [] \/ m' = m.
Proof.
  intros d x m m' H E E'. apply Forall_app in H. destruct H as (Hd & Hx).
  destruct (m_parts m') as [|p ps] eqn:P; [now left|right].
  assert (N : m_parts m' <> []) by (rewrite P; discriminate).
  pose proof (C121_ignored d x m' Hd Hx E' N) as X. congruence.
Qed.
Print Assumptions C121_cut.

(** C121: for files. *)
Theorem C121_file : forall w w' f f' d x m, all_octets (d ++ x) ->
  w_file w f = Some d -> w_file w' f' = Some (d ++ x) ->
  decode_file w f = Ok m -> m_parts m <> [] -> decode_file w' f' = Ok m.
Proof.
  intros w w' f f' d x m H E E' D N. apply Forall_app in H. destruct H as (Hd & Hx).
  unfold decode_file in *. rewrite E in D. rewrite E'. now apply C121_ignored.
Qed.
Print Assumptions C121_file.

(** C121 fails for messages without parts: a content type and nothing after it is
    decoded, and so is anything before it; what follows is then read. *)
Theorem C121_bare_refuted : exists d x m m', all_octets (d ++ x) /\
  decode_data d = Ok m /\ decode_data (d ++ x) = Ok m' /\ m' <> m.
Proof.
  exists [140; 132; 132; 163], [1; 1; 3; 131; 104; 105; 33].
  eexists _, _. split; [|split; [vm_compute; reflexivity|split; [vm_compute; reflexivity|discriminate]]].
  repeat constructor; discriminate.
Qed.
Print Assumptions C121_bare_refuted.

(** A message with a part, followed by the beginning of another. *)
Example C121_case : exists m,
  decode_data ([140; 132; 132; 163] ++ [1; 1; 3; 131; 104; 105; 33]) = Ok m /\ m_parts m <> [] /\
  decode_data (([140; 132; 132; 163] ++ [1; 1; 3; 131; 104; 105; 33]) ++ [140; 132; 132]) = Ok m.
Proof. eexists. vm_compute. repeat split. discriminate. Qed.
