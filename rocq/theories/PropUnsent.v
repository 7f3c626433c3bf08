(** What [SmsSubmit.to_pdu] refuses, and with which exception (C115).  The defects and
    their exceptions are listed in SpecUnsent.v ([unsendable]). *)
From Coq Require Import Lia ZifyBool ZifyNat.
From Verif Require Import Py SpecGsm SpecPack SpecTime SpecSubmit SpecCuts SpecUnsent
  Gsm Utils Submit SubmitClaims SubmitFacts GsmFacts ToPduFacts UnsentFacts PropSubmit PropCuts SplitFacts.
Open Scope Z_scope.

(** C115: when [to_pdu] raises an exception, the message has a defect that leads to
    just this exception. *)
Theorem C115_only : forall s e s', reachable s -> python_date (s_validity s) ->
  to_pdu s = (Err e, s') -> unsendable s e.
Proof.
  intros s e s' H Hv E. pose proof (to_pdu_out s (reachable_wf s H) Hv) as P. rewrite E in P. exact P.
Qed.
Print Assumptions C115_only.

(** C115: a message with a defect is never sent. *)
Theorem C115_all : forall s e, reachable s -> python_date (s_validity s) -> unsendable s e ->
  exists e' s', to_pdu s = (Err e', s').
Proof.
  intros s e H Hv U. pose proof (to_pdu_out s (reachable_wf s H) Hv) as P.
  destruct (to_pdu s) as [[p|e'] s']; [|eauto]. destruct (P e U).
Qed.
Print Assumptions C115_all.

(** C115: so [to_pdu] returns just when there is no defect, and a message whose
    defects lead to one exception only is refused with this exception. *)
Theorem C115_exact : forall s, reachable s -> python_date (s_validity s) ->
  ((exists pdus s', to_pdu s = (Ok pdus, s')) <-> forall e, ~ unsendable s e) /\
  (forall e, unsendable s e -> (forall e', unsendable s e' -> e' = e) ->
     exists s', to_pdu s = (Err e, s')).
Proof.
  intros s H Hv. split; [split|].
  - intros (p & s' & E) e U. destruct (C115_all s e H Hv U) as (e' & s2 & X). congruence.
  - intros N. destruct (to_pdu s) as [[p|e] s'] eqn:E; [eauto|]. destruct (N e). eapply C115_only; eauto.
  - intros e U O. destruct (C115_all s e H Hv U) as (e' & s' & X). exists s'. rewrite X.
    pose proof (C115_only _ _ _ H Hv X) as Q. rewrite (O e' Q). reflexivity.
Qed.
Print Assumptions C115_exact.

(** C115: a text of [n] letters to a number, in the GSM alphabet, is refused only for
    being too long, and then with [ValueError]. *)
Lemma plain_cuts w t ps : Cuts w t ps -> ~ In 27 t ->
  (length t <= length ps * w)%nat /\ (length ps * w < length t + w)%nat.
Proof.
  induction 1 as [t H1 H2 H3|p r ps H1 H2 H3 IH|p r ps H1 H2 IH]; intros N.
  - destruct t; [congruence|]. cbn [length] in *. lia.
  - rewrite app_length, H1. cbn [length]. rewrite in_app_iff in N. specialize (IH ltac:(tauto)). lia.
  - exfalso. apply N. rewrite in_app_iff. right. left. reflexivity.
Qed.
Lemma code_A : gsm_code 65 [65].
Proof. apply (code_default 65 65%nat); [reflexivity|discriminate]. Qed.
Theorem C115_letters : forall n, let s := sample (PyStr true (repeat 65 n)) in
  ((exists pdus s', to_pdu s = (Ok pdus, s')) <-> Z.of_nat n <= 255 * 153) /\
  (255 * 153 < Z.of_nat n -> exists s', to_pdu s = (Err ValueError, s')).
Proof.
  intros n s. assert (H : reachable s) by apply sample_reachable.
  assert (Hv : python_date (s_validity s)) by (intros d X; discriminate).
  assert (G : gsm_text (repeat 65 n) (repeat 65 n)).
  { exists (repeat [65] n). split; [|clear; induction n; cbn [repeat concat app]; [reflexivity|congruence]].
    clear. induction n as [|k IH]; [constructor|]. cbn [repeat]. constructor; [exact code_A|exact IH]. }
  assert (I : in_gsm (s_text s)).
  { apply Forall_forall. intros u Hu. apply repeat_spec in Hu. subst u. split; [|auto].
    exists [65]. exact code_A. }
  assert (S0 : forall c, sent_in s c -> c = 0).
  { intros c [X|[(_ & _ & X)|(_ & X & _)]]; [discriminate|exact X|contradiction]. }
  assert (N27 : ~ In 27 (repeat 65 n)) by (intros X; apply repeat_spec in X; discriminate).
  assert (U : forall e, unsendable s e <-> 255 * 153 < Z.of_nat n /\ e = ValueError).
  { intros e. split.
    - intros U. destruct U; try discriminate;
        try (match goal with X : sent_in s _ |- _ => apply S0 in X; discriminate || (subst; congruence) || (exfalso; lia) end).
      + exfalso. match goal with X : ~ octet _ |- _ => apply X; cbn; unfold octet; lia end.
      + split; [|reflexivity]. match goal with X : gsm_text _ g |- _ => rewrite (gsm_text_det _ _ _ X G) in * end.
        match goal with X : parts_beyond _ _ _ |- _ => destruct X as (ps & C & L) end.
        destruct (plain_cuts _ _ _ C N27) as (_ & B). rewrite repeat_length in B. lia.
    - intros (L & ->). apply (un_gsm_parts s (repeat 65 n)); [right; left; auto|exact G|rewrite repeat_length; lia|].
      assert (Hne : repeat 65 n <> []) by (destruct n; [lia|discriminate]).
      exists (cut (Datatypes.S (length (repeat 65 n))) 153 (repeat 65 n)).
      assert (C : Cuts 153 (repeat 65 n) (cut (Datatypes.S (length (repeat 65 n))) 153 (repeat 65 n))).
      { apply cut_cuts; [lia|lia|exact Hne]. }
      split; [exact C|]. destruct (plain_cuts _ _ _ C N27) as (B & _). rewrite repeat_length in B at 1. lia. }
  destruct (C115_exact s H Hv) as (A & B). split; [rewrite A; split|].
  - intros N. destruct (Z_le_dec (Z.of_nat n) (255 * 153)) as [L|L]; [exact L|]. destruct (N ValueError). apply U. split; [lia|reflexivity].
  - intros L e X. apply U in X. lia.
  - intros L. apply B; [apply U; auto|]. intros e' X. apply U in X. tauto.
Qed.
Print Assumptions C115_letters.

(** Nobody to send to: [AttributeError]; and a text too wide for 8 bits. *)
Example C115_nobody : exists s s', reachable s /\ unsendable s AttributeError /\ to_pdu s = (Err AttributeError, s').
Proof.
  exists (snd (set_number None (sample (PyStr true (str "hi"))))). eexists.
  split; [apply r_number, sample_reachable|]. split; [apply un_nobody; reflexivity|]. vm_compute. reflexivity.
Qed.
Example C115_eight : exists s s', reachable s /\ python_date (s_validity s) /\ unsendable s UnicodeError /\
  to_pdu s = (Err UnicodeError, s').
Proof.
  exists (with_fmt (Some 4) (sample (PyStr true (repeat 65 130)))). eexists.
  split; [apply r_fmt, sample_reachable|]. split; [intros d X; discriminate|].
  split; [apply un_8bit_unicode; [left; reflexivity|reflexivity|cbn; lia]|]. vm_compute. reflexivity.
Qed.
(** A message with two defects gets the exception of one of them. *)
Example C115_two : exists s s', reachable s /\ python_date (s_validity s) /\ unsendable s UnicodeError /\
  unsendable s ValueError /\ to_pdu s = (Err ValueError, s').
Proof.
  exists (with_pid 300 (with_fmt (Some 0) (sample (PyStr true [8364; 20013])))). eexists.
  split; [apply r_pid, r_fmt, sample_reachable|]. split; [intros d X; discriminate|].
  split; [|split; [apply un_pid; cbn; unfold octet; lia|vm_compute; reflexivity]].
  apply un_gsm; [left; reflexivity|]. apply strict_error. vm_compute. reflexivity.
Qed.
