(** The coding of messages sent after the first one, C27, and the number of 8-bit
    parts, C28. *)
From Coq Require Import Lia ZifyBool ZifyNat.
From Verif Require Import Py SpecGsm SpecPack SpecAddress SpecTime SpecSubmit Utils Gsm
  Submit SubmitClaims SubmitFacts ToPduFacts PropSubmit.
Open Scope Z_scope.

(** What a program can do with an object other than assigning a coding. *)
Inductive onward (s : submit) : submit -> Prop :=
| on_here : onward s s
| on_number v s' : onward s s' -> onward s (snd (set_number v s'))
| on_csca v s' : onward s s' -> onward s (snd (set_csca v s'))
| on_klass k s' : onward s s' -> onward s (snd (set_klass k s'))
| on_validity v s' : onward s s' -> onward s (with_validity v s')
| on_status v s' : onward s s' -> onward s (with_request_status v s')
| on_ref v s' : onward s s' -> onward s (with_ref v s')
| on_rand_id v s' : onward s s' -> onward s (with_rand_id v s')
| on_pid v s' : onward s s' -> onward s (with_pid v s')
| on_text v s' : onward s s' -> onward s (with_text v s')
| on_to_pdu s' : onward s s' -> onward s (snd (to_pdu s')).

(** * Facts *)

Definition stuck {A} (f : Z) (m : ST submit A) : Prop :=
  forall s, s_fmt s = Some f -> s_fmt (snd (m s)) = Some f.

Lemma stuck_bind {A B} f (m : ST submit A) (k : A -> ST submit B) :
  stuck f m -> (forall a, stuck f (k a)) -> stuck f (st_bind m k).
Proof.
  intros Hm Hk s Hs. unfold st_bind. specialize (Hm s Hs).
  destruct (m s) as [[a|e] s']; cbn in *; [now apply Hk|assumption].
Qed.

Ltac stuck_with t := repeat
  (first [t | apply stuck_bind; [|intros] | (intros ? HK; exact HK)
         | match goal with |- stuck _ (match ?x with _ => _ end) => destruct x end]).

Lemma stuck_rand f : stuck f get_rand_id.
Proof. unfold get_rand_id. stuck_with ltac:(fail). Qed.

Lemma stuck_tpmessref f : stuck f get_tpmessref_pdu.
Proof. unfold get_tpmessref_pdu. stuck_with ltac:(apply stuck_rand). Qed.

Lemma stuck_message_ud f c t : stuck f (message_ud c t).
Proof. unfold message_ud, split_sms_message. stuck_with ltac:(apply stuck_rand). Qed.

Lemma stuck_msg_pdu f : stuck f get_msg_pdu.
Proof.
  intros s Hs. unfold get_msg_pdu, st_bind at 1, st_get. rewrite Hs.
  unfold st_bind at 1, st_ret at 1. revert s Hs.
  match goal with |- forall s, s_fmt s = _ -> _ => intros s Hs end.
  generalize (s_klass s) (s_validity s) (s_text s). intros k v t.
  match goal with |- s_fmt (snd (?m s)) = _ => change (s_fmt (snd (m s)) = Some f); assert (X : stuck f m) end;
    [|exact (X s Hs)].
  stuck_with ltac:(apply stuck_message_ud).
Qed.

Lemma stuck_to_pdu f : stuck f to_pdu.
Proof. unfold to_pdu. stuck_with ltac:(apply stuck_tpmessref || apply stuck_msg_pdu). Qed.

(** A successful [to_pdu] fixes the coding. *)
Lemma to_pdu_fixes s pdus s' : wf_submit s -> validity_ok (s_validity s) ->
  to_pdu s = (Ok pdus, s') -> s_fmt s' = Some (coding_of s).
Proof.
  intros Hwf Hv E. pose proof (stuck_to_pdu (coding_of s)) as S.
  destruct (s_fmt s) as [f|] eqn:F.
  - specialize (S s). rewrite E in S. apply S. unfold coding_of. rewrite F. reflexivity.
  - revert E. unfold to_pdu, st_bind, st_get, st_lift, st_ret.
    destruct (get_smsc_pdu s); [|discriminate]. destruct (get_sms_submit_pdu s false); [|discriminate].
    destruct (get_tpmessref_pdu s) as [[r|] s1] eqn:E1; [|discriminate].
    destruct (get_phone_pdu s); [|discriminate]. destruct (get_tppid_pdu s); [|discriminate].
    destruct (get_msg_pdu s1) as [[ms|] s2] eqn:E2; [|discriminate].
    intros E. assert (s2 = s').
    { destruct ms as [|m [|m2 ms]]; [|congruence|]; (destruct (get_sms_submit_pdu s true); [congruence|discriminate]). }
    subst s2. clear E.
    assert (s_fmt s1 = None /\ s_text s1 = s_text s) as (F1 & T1).
    { revert E1. unfold get_tpmessref_pdu, get_rand_id, st_bind, st_get, st_lift, st_ret, st_upd.
      destruct (s_ref s) as [x|].
      - destruct (py_chr _); [|discriminate]. intros E. injection E as _ <-. split; [exact F|reflexivity].
      - destruct (pop0 _) as [[i l]|]; [|discriminate]. destruct (py_chr _); [|discriminate].
        intros E. injection E as _ <-. split; [exact F|reflexivity]. }
    revert E2. unfold get_msg_pdu, st_bind at 1, st_get. rewrite F1.
    unfold coding_of. rewrite F, T1. set (c := if is_gsm_text (Some (s_text s)) then 0 else 8).
    cbv zeta. unfold st_bind at 1 2, st_upd at 1, st_ret at 1.
    intros E2. match type of E2 with ?m ?x = _ => assert (X : stuck c m) end.
    { stuck_with ltac:(apply stuck_message_ud). }
    specialize (X (with_fmt (Some c) s1) eq_refl). rewrite E2 in X. exact X.
Qed.

Lemma onward_fmt f s s' : onward s s' -> s_fmt s = Some f -> s_fmt s' = Some f.
Proof.
  intros H F. induction H as [|v s' _ IH|v s' _ IH|k s' _ IH|v s' _ IH|v s' _ IH|v s' _ IH|v s' _ IH|v s' _ IH|v s' _ IH|s' _ IH];
    try exact IH; try exact F.
  - unfold set_number. destruct v as [[|c n]|]; [exact IH|destruct (valid_number _); exact IH|exact IH].
  - unfold set_csca. destruct v as [[|c n]|]; [exact IH|destruct (valid_number _); exact IH|exact IH].
  - unfold set_klass. destruct (_ && _); exact IH.
  - apply stuck_to_pdu. exact IH.
Qed.

Lemma onward_reachable s s' : reachable s -> onward s s' -> reachable s'.
Proof. intros H O. induction O; [exact H|..]; constructor; assumption. Qed.

(** * C27 *)

(** Once PDUs were made, every later message of the object is sent in the coding of
    the first text, whatever its own text and whatever was assigned in between
    (other than a coding). *)
Theorem C27_later_exact : forall s pdus s1 s2 pdus2 s3,
  reachable s -> validity_ok (s_validity s) -> s_fmt s = None ->
  to_pdu s = (Ok pdus, s1) -> onward s1 s2 -> validity_ok (s_validity s2) ->
  to_pdu s2 = (Ok pdus2, s3) ->
  forall p, In p pdus2 -> exists coding mr u udl ud, carries s2 coding mr u udl ud p /\
    (Forall (fun u => gsm_char u /\ (is_uni (s_text s) = true \/ u < 128)) (chars (s_text s)) ->
       coding = 0) /\
    (~ Forall (fun u => gsm_char u /\ (is_uni (s_text s) = true \/ u < 128)) (chars (s_text s)) ->
       coding = 8).
Proof.
  intros s pdus s1 s2 pdus2 s3 Hr Hv Hf E O Hv2 E2 p Hp.
  pose proof (to_pdu_fixes s pdus s1 (reachable_wf _ Hr) Hv E) as F1.
  pose proof (onward_fmt _ _ _ O F1) as F2.
  assert (Hr1 : reachable s1) by (replace s1 with (snd (to_pdu s)) by (rewrite E; reflexivity); now constructor).
  assert (Hr2 : reachable s2) by (eapply onward_reachable; eassumption).
  assert (Ec : coding_of s2 = coding_of s) by (unfold coding_of at 1; rewrite F2; reflexivity).
  destruct (auto_coding s Hf) as (A0 & A8).
  assert (N4 : coding_of s2 = 4 -> Forall octet (chars (s_text s2))).
  { rewrite Ec. unfold coding_of. rewrite Hf. destruct (is_gsm_text _); discriminate. }
  destruct (C22_submit_fields s2 pdus2 s3 Hr2 Hv2 N4 E2 p Hp) as (udl & ud & C).
  exists (coding_of s2). do 4 eexists. split; [exact C|]. rewrite Ec. split; assumption.
Qed.
Print Assumptions C27_later_exact.
Example C27_later_case : exists s pdus s1 s2 pdus2 s3,
  reachable s /\ validity_ok (s_validity s) /\ s_fmt s = None /\ to_pdu s = (Ok pdus, s1) /\
  onward s1 s2 /\ validity_ok (s_validity s2) /\ to_pdu s2 = (Ok pdus2, s3) /\ s_text s2 <> s_text s.
Proof.
  exists (sample (PyStr true [20013])). do 2 eexists. exists (with_text (PyStr true (str "hola"))
    (snd (to_pdu (sample (PyStr true [20013]))))). do 2 eexists.
  split; [apply sample_reachable|]. split; [exact I|]. split; [reflexivity|].
  split; [vm_compute; reflexivity|]. split; [apply on_text, on_here|]. split; [exact I|].
  split; [vm_compute; reflexivity|discriminate].
Qed.

(** * C28 *)

(** In 8-bit coding every message that does not fit 255 parts and is encoded goes
    out in more of them. *)
Theorem C28_eight_bit_all_refuted : forall s pdus s',
  reachable s -> validity_ok (s_validity s) -> coding_of s = 4 ->
  Forall octet (chars (s_text s)) -> to_pdu s = (Ok pdus, s') ->
  255 * part_capacity 4 < zlen (chars (s_text s)) -> 255 < zlen pdus.
Proof.
  intros s pdus s' Hr Hv Hc Ho E Hn. change (part_capacity 4) with 134 in Hn.
  destruct (Z.eq_dec (zlen pdus) 1) as [E1|N1].
  - exfalso. destruct pdus as [|p [|q r]]; try (unfold zlen in E1; cbn in E1; lia).
    destruct (C22_single_user_data s p s' Hr Hv (fun _ => Ho) E) as (udl & ud & C & U).
    rewrite Hc in U. inversion U as [|t Ho' Hl|]. unfold zlen in Hn. lia.
  - destruct (several_pdus s pdus s' (reachable_wf _ Hr) Hv (fun _ => Ho) E N1) as (parts & El & Hp & Hs & _).
    rewrite Hc in *. change (part_capacity 4) with 134 in *.
    change (concat parts = chars (s_text s)) in Hp. rewrite <- Hp in Hn.
    assert (L : zlen (concat parts) <= 134 * zlen parts).
    { clear - Hs. induction Hs as [|p parts Hp _ IH]; [reflexivity|]. cbn [concat].
      unfold zlen in *. rewrite app_length. cbn [length]. lia. }
    unfold zlen in *. rewrite El in L. lia.
Qed.
Print Assumptions C28_eight_bit_all_refuted.
