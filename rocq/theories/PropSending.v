(** Sending more than once with one SmsSubmit object: the references status reports
    are matched by (C93), what [to_pdu] may change (C94), and what a second call
    gives (C95). *)
From Coq Require Import Lia ZifyBool ZifyNat.
From Verif Require Import Py PyFacts SpecGsm SpecPack SpecAddress SpecTime SpecSubmit
  Gsm GsmFacts Utils PackFacts Submit SubmitClaims SplitFacts SubmitFacts ToPduFacts
  AssemblyClaims AssemblyFacts PropSubmit.
Open Scope Z_scope.

(** * What [to_pdu] leaves alone *)

(** The attributes a program sets have the same values. *)
Definition same_settings (s s' : submit) : Prop :=
  s_number s' = s_number s /\ s_csca s' = s_csca s /\ s_klass s' = s_klass s /\
  s_validity s' = s_validity s /\ s_request_status s' = s_request_status s /\
  s_pid s' = s_pid s /\ s_text s' = s_text s /\ s_rand_id s' = s_rand_id s.

Definition settles {A} (m : ST submit A) : Prop := forall s, same_settings s (snd (m s)).

Lemma same_refl s : same_settings s s.
Proof. repeat split. Qed.
Lemma settles_bind {A B} (m : ST submit A) (f : A -> ST submit B) :
  settles m -> (forall a, settles (f a)) -> settles (st_bind m f).
Proof.
  intros Hm Hf s. unfold st_bind. specialize (Hm s). destruct (m s) as [[a|e] s1]; cbn in *; [|exact Hm].
  specialize (Hf a s1). unfold same_settings in *. intuition congruence.
Qed.
Lemma settles_rand : settles get_rand_id.
Proof.
  intros s. unfold get_rand_id, st_bind, st_get, st_lift, st_upd, st_ret.
  destruct (pop0 _) as [[i l]|e]; repeat split.
Qed.
Ltac settles_with t := repeat
  (first [t | apply settles_rand | apply settles_bind; [|intros]
         | solve [intros ?; apply same_refl] | solve [intros ?; repeat split]
         | match goal with |- settles (match ?x with _ => _ end) => destruct x end]).
Lemma settles_tpmessref : settles get_tpmessref_pdu.
Proof. unfold get_tpmessref_pdu. settles_with ltac:(fail). Qed.
Lemma settles_message_ud c t : settles (message_ud c t).
Proof. unfold message_ud, split_sms_message. settles_with ltac:(fail). Qed.
Lemma settles_msg_pdu : settles get_msg_pdu.
Proof. unfold get_msg_pdu. settles_with ltac:(apply settles_message_ud). Qed.

(** C94: whatever the object, and whether [to_pdu] returns PDUs or raises, every
    attribute a program sets to say what to send is as before. *)
Theorem C94_settings : forall s r s', to_pdu s = (r, s') -> same_settings s s'.
Proof.
  intros s r s' E. assert (H : settles to_pdu).
  { unfold to_pdu. settles_with ltac:(apply settles_tpmessref || apply settles_msg_pdu). }
  specialize (H s). rewrite E in H. exact H.
Qed.
Print Assumptions C94_settings.
Example C94_case : match to_pdu (sample (PyStr true (repeat 20013 140))) with
  | (Ok _, s) => s_text s = PyStr true (repeat 20013 140) | _ => False end.
Proof. vm_compute. reflexivity. Qed.
Example C94_case_error : match to_pdu (with_fmt (Some 0) (sample (PyStr true [20013]))) with
  | (Err UnicodeError, s) => s_text s = PyStr true [20013] | _ => False end.
Proof. vm_compute. reflexivity. Qed.

(** * The references status reports are matched by *)

(** [r] is the TP-MR of an SMS-SUBMIT, which the status report for it repeats. *)
Definition sent_reference (p : pdu) (r : Z) : Prop :=
  exists o f, p_pdu p = hex_upper o /\ Forall octet o /\ parse_submit o = Some f /\ f_mr f = r.

Lemma carries_reference s c mr u l d p : carries s c mr u l d p ->
  forall x, sent_reference p x <-> x = mr.
Proof.
  intros (o & sc & da & vpf & vp & Ep & Ho & P & _) x. split.
  - intros (o' & f & Ep' & Ho' & P' & <-). assert (o' = o) by (apply hex_upper_inj; congruence).
    subst o'. rewrite P in P'. apply (f_equal (option_map f_mr)) in P'.
    cbn [option_map f_mr] in P'. congruence.
  - intros ->. exists o. eexists. split; [exact Ep|]. split; [exact Ho|]. split; [exact P|reflexivity].
Qed.

(** What a program may do with an object without assigning [ref]. *)
Inductive later : submit -> submit -> Prop :=
| l_same s : later s s
| l_number v s t : later s t -> later s (snd (set_number v t))
| l_csca v s t : later s t -> later s (snd (set_csca v t))
| l_klass k s t : later s t -> later s (snd (set_klass k t))
| l_validity v s t : later s t -> later s (with_validity v t)
| l_status v s t : later s t -> later s (with_request_status v t)
| l_rand_id v s t : later s t -> later s (with_rand_id v t)
| l_pid v s t : later s t -> later s (with_pid v t)
| l_text v s t : later s t -> later s (with_text v t)
| l_fmt v s t : later s t -> later s (with_fmt v t)
| l_to_pdu s t : later s t -> later s (snd (to_pdu t)).

Lemma later_reachable s t : reachable s -> later s t -> reachable t.
Proof. intros Hs H. induction H; eauto using reachable. Qed.

Definition same_ref {A} (m : ST submit A) : Prop :=
  forall s r, octet r -> s_ref s = Some r -> s_ref (snd (m s)) = Some r.
Lemma same_ref_bind {A B} (m : ST submit A) (f : A -> ST submit B) :
  same_ref m -> (forall a, same_ref (f a)) -> same_ref (st_bind m f).
Proof.
  intros Hm Hf s r Hr E. unfold st_bind. specialize (Hm s r Hr E).
  destruct (m s) as [[a|e] s1]; cbn in *; [|exact Hm]. exact (Hf a s1 r Hr Hm).
Qed.
Lemma same_ref_rand : same_ref get_rand_id.
Proof.
  intros s r _ E. unfold get_rand_id, st_bind, st_get, st_lift, st_upd, st_ret.
  destruct (pop0 _) as [[i l]|e]; exact E.
Qed.
Ltac same_ref_with t := repeat
  (first [t | apply same_ref_rand | apply same_ref_bind; [|intros]
         | solve [intros ? ? ? HK; exact HK]
         | match goal with |- same_ref (match ?x with _ => _ end) => destruct x end]).
Lemma same_ref_tpmessref : same_ref get_tpmessref_pdu.
Proof.
  intros s r Hr E. unfold get_tpmessref_pdu, st_bind, st_get, st_ret, st_upd, st_lift. rewrite E.
  rewrite land_255, Z.mod_small by exact Hr. rewrite py_chr_octet by exact Hr. reflexivity.
Qed.
Lemma same_ref_message_ud c t : same_ref (message_ud c t).
Proof. unfold message_ud, split_sms_message. same_ref_with ltac:(fail). Qed.
Lemma same_ref_msg_pdu : same_ref get_msg_pdu.
Proof. unfold get_msg_pdu. same_ref_with ltac:(apply same_ref_message_ud). Qed.
Lemma same_ref_to_pdu : same_ref to_pdu.
Proof. unfold to_pdu. same_ref_with ltac:(apply same_ref_tpmessref || apply same_ref_msg_pdu). Qed.

Lemma later_ref s t r : later s t -> octet r -> s_ref s = Some r -> s_ref t = Some r.
Proof.
  intros H Hr E. induction H; cbn [s_ref with_validity with_request_status with_rand_id with_pid with_text with_fmt];
    auto.
  - unfold set_number. destruct v as [[|c n]|]; cbn; auto. destruct (valid_number (c :: n)); cbn; auto.
  - unfold set_csca. destruct v as [[|c n]|]; cbn; auto. destruct (valid_number (c :: n)); cbn; auto.
  - unfold set_klass. destruct ((0 <=? k) && (k <=? 3)); cbn; auto.
  - apply same_ref_to_pdu; auto.
Qed.

Lemma ref_after s pdus s' : wf_submit s -> validity_ok (s_validity s) ->
  (coding_of s = 4 -> Forall octet (chars (s_text s))) -> to_pdu s = (Ok pdus, s') ->
  octet (message_ref s) /\ s_ref s' = Some (message_ref s).
Proof.
  intros Hwf Hv H4 E. destruct (to_pdu_inv s pdus s' Hwf Hv H4 E) as (mr & l & _ & Ho & -> & _ & _ & H).
  split; [exact Ho|]. cbv zeta in H.
  assert (R : s_ref (gsm_state (coding_of s) (s_text s) (ref_state s (message_ref s) l)) = Some (message_ref s)).
  { unfold gsm_state. destruct (_ =? 0); [destruct (gsm_encode _)|]; reflexivity. }
  destruct H as [(q & udl & ud & n & _ & _ & _ & _ & _ & _ & _ & ->)|
                 (ref & parts & l2 & n & _ & _ & _ & _ & _ & _ & _ & _ & _ & -> & _)]; exact R.
Qed.

(** C93 is false of the code: every PDU a program gets from one object, for one
    message in parts or for many messages, has the same reference, whatever is done
    with the object in between, as long as the program assigns no reference. *)
Theorem C93_reused_refuted : forall s pdus s1 t pdus' t',
  reachable s -> validity_ok (s_validity s) ->
  (coding_of s = 4 -> Forall octet (chars (s_text s))) -> to_pdu s = (Ok pdus, s1) ->
  later s1 t -> validity_ok (s_validity t) ->
  (coding_of t = 4 -> Forall octet (chars (s_text t))) -> to_pdu t = (Ok pdus', t') ->
  exists r, forall p, In p (pdus ++ pdus') -> forall x, sent_reference p x <-> x = r.
Proof.
  intros s pdus s1 t pdus' t' H Hv H4 E L Hv' H4' E'.
  destruct (ref_after s pdus s1 (reachable_wf _ H) Hv H4 E) as (Ho & Er).
  assert (Ht : reachable t).
  { apply (later_reachable s1); [|exact L]. replace s1 with (snd (to_pdu s)) by now rewrite E.
    now constructor. }
  exists (message_ref s). intros p Hp. apply in_app_or in Hp. destruct Hp as [Hp|Hp].
  - destruct (C22_submit_fields s pdus s1 H Hv H4 E p Hp) as (udl & ud & C).
    exact (carries_reference _ _ _ _ _ _ _ C).
  - destruct (C22_submit_fields t pdus' t' Ht Hv' H4' E' p Hp) as (udl & ud & C).
    pose proof (later_ref _ _ _ L Ho Er) as Et. unfold message_ref in C at 1. rewrite Et in C.
    rewrite Z.mod_small in C by exact Ho. exact (carries_reference _ _ _ _ _ _ _ C).
Qed.
Print Assumptions C93_reused_refuted.

(** And any two new objects begin with the same reference. *)
Theorem C93_new_refuted : forall number text s pdus s',
  new_submit number text = Ok s -> to_pdu s = (Ok pdus, s') ->
  forall p, In p pdus -> forall x, sent_reference p x <-> x = 0.
Proof.
  intros number text s pdus s' N E p Hp.
  destruct (new_reference _ _ _ N) as (Er & _).
  pose proof (new_submit_ids _ _ _ N) as (_ & _ & _ & _ & _).
  assert (S : s_validity s = NoValidity /\ s_fmt s = None).
  { revert N. unfold new_submit, set_number. destruct number as [[|c n]|]; cbn [fst st_upd].
    - intros N. injection N as <-. split; reflexivity.
    - destruct (valid_number (c :: n)); [|discriminate]. intros N. injection N as <-. split; reflexivity.
    - intros N. injection N as <-. split; reflexivity. }
  destruct S as (S1 & S2).
  assert (H4 : coding_of s = 4 -> Forall octet (chars (s_text s))).
  { unfold coding_of. rewrite S2. destruct (is_gsm_text _); discriminate. }
  assert (R : reachable s) by (econstructor; exact N).
  destruct (C22_submit_fields s pdus s' R ltac:(rewrite S1; exact I) H4 E p Hp) as (udl & ud & C).
  rewrite Er in C. exact (carries_reference _ _ _ _ _ _ _ C).
Qed.
Print Assumptions C93_new_refuted.

(** What is true of C93: a program that assigns a reference gets PDUs with it, so that
    it can give different messages of one part different references. *)
Theorem C93_assigned_partial : forall s r pdus s',
  reachable s -> validity_ok (s_validity s) ->
  (coding_of s = 4 -> Forall octet (chars (s_text s))) ->
  to_pdu (with_ref (Some r) s) = (Ok pdus, s') ->
  forall p, In p pdus -> forall x, sent_reference p x <-> x = r mod 256.
Proof.
  intros s r pdus s' H Hv H4 E p Hp.
  destruct (C22_submit_fields (with_ref (Some r) s) pdus s' ltac:(now constructor) Hv H4 E p Hp)
    as (udl & ud & C).
  exact (carries_reference _ _ _ _ _ _ _ C).
Qed.
Print Assumptions C93_assigned_partial.

(** A message in three parts, and another one afterwards. *)
Example C93_case :
  match to_pdu (sample (PyStr true (repeat 20013 140))) with
  | (Ok l, s) => zlen l = 3 /\
      match to_pdu (with_text (PyStr true (repeat 97 5)) s) with
      | (Ok l', _) => zlen l' = 1 /\
          map (fun p => firstn 2 (skipn 4 (p_pdu p))) (l ++ l') = repeat (str "00") 4
      | _ => False
      end
  | _ => False
  end.
Proof. vm_compute. split; [reflexivity|]. split; reflexivity. Qed.

(** * Calling [to_pdu] again for a message in parts *)

Lemma drawn_parts_ref s mr l st ref l2 :
  match s_ref s with
  | Some _ => l = s_id_list s
  | None => mr :: l = match s_id_list s with [] => id_range | _ => s_id_list s end
  end ->
  s_rand_id st = s_rand_id s -> s_id_list st = l -> drawn st ref l2 -> ref = parts_ref s.
Proof.
  intros Hm R1 R2 Hd. unfold drawn in Hd. rewrite R1, R2 in Hd.
  assert (El : l = match s_ref s with Some _ => s_id_list s | None => rest_of (s_id_list s) end).
  { destruct (s_ref s); [exact Hm|]. apply (f_equal (@tl Z)) in Hm. cbn [tl] in Hm. rewrite Hm.
    destruct (s_id_list s); reflexivity. }
  unfold parts_ref. rewrite <- El. destruct (s_rand_id s); [now destruct Hd|].
  apply (f_equal (hd 0)) in Hd. cbn [hd] in Hd. rewrite Hd. destruct l; reflexivity.
Qed.

Lemma wide_again uni t st st' ms st1 :
  Forall (fun i => 0 <= i < 255) (s_id_list st) -> Forall (fun i => 0 <= i < 255) (s_id_list st') ->
  67 < zlen t ->
  split_sms_message 8 (PyStr uni t) st = (Ok ms, st1) ->
  exists ref ref' l l' parts os os',
    ms = map hex_of os /\ split_sms_message 8 (PyStr uni t) st' = (Ok (map hex_of os'), with_id_list l' st') /\
    2 <= zlen parts /\ emitted 8 ref parts os /\ emitted 8 ref' parts os' /\
    drawn st ref l /\ drawn st' ref' l'.
Proof.
  intros Hid Hid' Hl E.
  destruct (split_sms_message_eq 8 (PyStr uni t) st Hid) as (r0 & l0 & p0 & _ & Hr0 & _ & Esp0 & Ec & Hlen & Es).
  destruct (split_sms_message_inv 8 (PyStr uni t) st ms st1) as
    (ref & parts & l & os & _ & Ems & Esp & H2 & _ & _ & Hem & Hd & Hr & _);
    [auto|exact Hid|discriminate|discriminate|exact Hl|exact E|].
  assert (p0 = parts) by congruence. subst p0. change (part_capacity 8) with 67 in *. cbn [chars is_uni] in *.
  rewrite Es in E. cbn [Z.eqb Pos.eqb] in E. cbv zeta in E.
  assert (E' : parts_loop (part_wide pack_8bits_to_ucs2 r0 (zlen parts)) 1 (map (PyStr uni) parts) = Ok ms)
    by congruence. clear E.
  destruct (parts_loop_inv _ _ _ _ E') as [_ Q].
  assert (A : Forall (fun p => (uni || is_ascii p = true) /\ Forall unit16 p) parts /\ zlen parts <= 255).
  { assert (Hz : zlen parts <= 255).
    { destruct (first_part parts H2) as (m0 & rest & Ep). destruct os as [|o0 os].
      { destruct Hem as (Hem & _). rewrite Ep in Hem. discriminate. }
      destruct Hem as (_ & Hem). destruct (Hem 0%nat m0 o0) as (udl & ud & _ & _ & Hud); [now rewrite Ep|reflexivity|].
      destruct Hud as (_ & Ho). unfold octet in Ho. lia. }
    split; [|exact Hz]. apply Forall_forall. intros p Hp. apply In_nth_error in Hp. destruct Hp as (k & Hk).
    assert (k < length parts)%nat by (apply nth_error_Some; congruence).
    destruct (Q k (PyStr uni p)) as (o & _ & F); [rewrite nth_error_map, Hk; reflexivity|].
    apply part_wide_inv in F; [|exact Hr0|unfold zlen in Hz; lia|unfold zlen; lia].
    destruct F as (F & _). apply pack_ucs2_inv in F. tauto. }
  destruct A as (A & Hz).
  destruct (split_ucs2_ok uni t st' parts Hid') as (ref' & l' & os' & E1 & Hm & Hd' & Hr' & _).
  { rewrite <- Ec. apply Forall_forall. intros x Hx. apply in_concat in Hx. destruct Hx as (p & Hp & Hx).
    rewrite Forall_forall in A. destruct (A p Hp) as (_ & B). rewrite Forall_forall in B. auto. }
  { destruct uni; [reflexivity|]. cbn [orb]. unfold is_ascii. apply forallb_forall. intros x Hx.
    rewrite <- Ec in Hx. apply in_concat in Hx. destruct Hx as (p & Hp & Hx).
    rewrite Forall_forall in A. destruct (A p Hp) as (B & _). cbn [orb] in B. unfold is_ascii in B.
    rewrite forallb_forall in B. auto. }
  { exact Esp. }
  { exact Hz. }
  exists ref, ref', l, l', parts, os, os'. do 4 (split; [assumption|]). split.
  { destruct Hm as (M1 & M2). split; [exact M1|]. intros k m o Hk Hk'.
    destruct (M2 k m o Hk Hk') as (udl & ud & B1 & B2 & B3). exists udl, ud. do 2 (split; [assumption|]).
    split; [exact B3|]. unfold octet, zlen in *. lia. }
  split; assumption.
Qed.

Lemma gsm_again g st st' ms st1 :
  Forall (fun i => 0 <= i < 255) (s_id_list st) -> Forall (fun i => 0 <= i < 255) (s_id_list st') ->
  Forall septet g -> 153 < zlen g ->
  split_sms_message 0 (PyStr false g) st = (Ok ms, st1) ->
  exists ref ref' l l' parts os os',
    ms = map hex_of os /\ split_sms_message 0 (PyStr false g) st' = (Ok (map hex_of os'), with_id_list l' st') /\
    2 <= zlen parts /\ emitted 0 ref parts os /\ emitted 0 ref' parts os' /\
    drawn st ref l /\ drawn st' ref' l'.
Proof.
  intros Hid Hid' Hg Hl E.
  destruct (split_sms_message_inv 0 (PyStr false g) st ms st1) as
    (ref & parts & l & os & _ & Ems & Esp & H2 & _ & _ & Hem & Hd & Hr & _);
    [auto|exact Hid|intros _; exact Hg|discriminate|exact Hl|exact E|].
  assert (Hz : zlen parts <= 255).
  { destruct (first_part parts H2) as (m0 & rest & Ep). destruct os as [|o0 os].
    { destruct Hem as (Hem & _). rewrite Ep in Hem. discriminate. }
    destruct Hem as (_ & Hem). destruct (Hem 0%nat m0 o0) as (udl & ud & _ & _ & Hud); [now rewrite Ep|reflexivity|].
    destruct Hud as (_ & Ho). unfold octet in Ho. lia. }
  destruct (split_7bit_ok g st' parts Hid' Hg Esp Hz) as (ref' & l' & os' & E1 & Hm & Hd' & Hr' & _).
  exists ref, ref', l, l', parts, os, os'. do 4 (split; [assumption|]). split.
  { destruct Hm as (M1 & M2). split; [exact M1|]. intros k m o Hk Hk'.
    destruct (M2 k m o Hk Hk') as (udl & ud & B1 & B2 & B3). exists udl, ud. do 2 (split; [assumption|]).
    split; [exact B3|]. unfold octet, zlen in *. lia. }
  split; assumption.
Qed.

Lemma ud_again c t st st' ms st1 : c = 0 \/ c = 8 ->
  Forall (fun i => 0 <= i < 255) (s_id_list st) -> Forall (fun i => 0 <= i < 255) (s_id_list st') ->
  message_ud c t st = (Ok ms, st1) -> zlen ms <> 1 ->
  exists st1' ref ref' l l' parts os os',
    ms = map hex_of os /\ message_ud c t st' = (Ok (map hex_of os'), st1') /\
    2 <= zlen parts /\ emitted c ref parts os /\ emitted c ref' parts os' /\
    drawn st ref l /\ drawn st' ref' l'.
Proof.
  intros [-> | ->] Hid Hid' E N; unfold message_ud in *; cbn [Z.eqb Pos.eqb] in *;
    unfold st_bind, st_lift, st_upd in *.
  - destruct (gsm_encode t) as [g|e] eqn:Eg; [|discriminate].
    apply gsm_encode_text in Eg as [_ Hg]. apply septets_of_text in Hg. unfold SEVENBIT_SIZE in *.
    destruct (zlen g <=? 160) eqn:L.
    + exfalso. destruct (pack_8bits_to_7bits g None); [|discriminate]. unfold st_ret in E.
      apply N. destruct ms as [|x [|y ms]]; [discriminate|reflexivity|discriminate].
    + destruct (gsm_again g (with_text_gsm (Some g) st) (with_text_gsm (Some g) st') ms st1
        Hid Hid' Hg ltac:(lia) E) as (ref & ref' & l & l' & parts & os & os' & A1 & A2 & A3 & A4 & A5 & A6 & A7).
      exists (with_id_list l' (with_text_gsm (Some g) st')), ref, ref', l, l', parts, os, os'.
      repeat (split; [assumption|]). assumption.
  - unfold UCS2_SIZE in *. destruct t as [uni t]. cbn [chars] in *. destruct (zlen t <=? 70) eqn:L.
    + exfalso. destruct (pack_8bits_to_ucs2 (PyStr uni t) None); [|discriminate]. unfold st_ret in E.
      apply N. destruct ms as [|x [|y ms]]; [discriminate|reflexivity|discriminate].
    + destruct (wide_again uni t st st' ms st1
        Hid Hid' ltac:(lia) E) as (ref & ref' & l & l' & parts & os & os' & A1 & A2 & A3 & A4 & A5 & A6 & A7).
      exists (with_id_list l' st'), ref, ref', l, l', parts, os, os'.
      repeat (split; [assumption|]). assumption.
Qed.

Lemma state_after s pdus s' : wf_submit s -> validity_ok (s_validity s) ->
  (coding_of s = 0 \/ coding_of s = 8) -> to_pdu s = (Ok pdus, s') ->
  s_fmt s' = Some (coding_of s) /\ Forall (fun i => 0 <= i < 255) (s_id_list s').
Proof.
  intros Hwf Hv Hc E. split; [|replace s' with (snd (to_pdu s)) by (now rewrite E); now apply (keeps_to_pdu s Hwf)].
  destruct (to_pdu_inv s pdus s' Hwf Hv ltac:(lia) E) as (mr & l & _ & _ & _ & _ & _ & H). cbv zeta in H.
  assert (R : s_fmt (gsm_state (coding_of s) (s_text s) (ref_state s mr l)) = Some (coding_of s)).
  { unfold gsm_state. destruct (_ =? 0); [destruct (gsm_encode _)|]; reflexivity. }
  destruct H as [(q & udl & ud & n & _ & _ & _ & _ & _ & _ & _ & ->)|
                 (ref & parts & l2 & n & _ & _ & _ & _ & _ & _ & _ & _ & _ & -> & _)]; exact R.
Qed.

(** The second call succeeds as well. *)
Lemma again_succeeds s pdus s' : wf_submit s -> validity_ok (s_validity s) ->
  (coding_of s = 0 \/ coding_of s = 8) -> to_pdu s = (Ok pdus, s') -> zlen pdus <> 1 ->
  exists pdus2 s2, to_pdu s' = (Ok pdus2, s2).
Proof.
  intros Hwf Hv Hc E N.
  destruct (state_after s pdus s' Hwf Hv Hc E) as (F8 & Hid').
  destruct (C94_settings _ _ _ E) as (F1 & F2 & F3 & F4 & F5 & F6 & F7 & _).
  assert (Fc : coding_of s' = coding_of s) by (unfold coding_of at 1; now rewrite F8).
  destruct Hwf as (W1 & W2 & W3 & Hid).
  destruct (tpmessref_ok s Hid) as (mr & l & Er & Hmr & Hl & _).
  destruct (tpmessref_ok s' Hid') as (mr' & l' & Er' & Hmr' & Hl' & _).
  revert E. unfold to_pdu, st_bind, st_get, st_lift, st_ret. rewrite Er, Er'.
  assert (get_smsc_pdu s' = get_smsc_pdu s) as -> by (unfold get_smsc_pdu; now rewrite F2).
  assert (get_phone_pdu s' = get_phone_pdu s) as -> by (unfold get_phone_pdu; now rewrite F1).
  assert (get_tppid_pdu s' = get_tppid_pdu s) as -> by (unfold get_tppid_pdu; now rewrite F6).
  rewrite !submit_octet, F4, F5.
  destruct (get_smsc_pdu s) as [sm|]; [|discriminate].
  destruct (get_phone_pdu s) as [ph|]; [|discriminate].
  destruct (get_tppid_pdu s) as [pid|]; [|discriminate].
  rewrite !get_msg_pdu_eq, !coding_ref_state, Fc.
  cbn [s_klass s_validity s_text with_ref with_id_list].
  rewrite F3, F4, F7. fold (ref_state s mr l). fold (ref_state s' mr' l').
  destruct (py_chr (dcs_of (coding_of s) (s_klass s))); [|discriminate].
  destruct (get_msgvp_pdu (s_validity s)); [|discriminate].
  destruct (message_ud (coding_of s) (s_text s) (ref_state s mr l)) as [[ms|] s3] eqn:Em; [|discriminate].
  intros E.
  destruct (ud_again (coding_of s) (s_text s) (ref_state s mr l) (ref_state s' mr' l') ms s3 Hc Hl Hl' Em)
    as (st1' & ref & ref' & x & x' & parts & os & os' & _ & E2 & _).
  { intros X. apply N. destruct ms as [|m [|m2 ms]]; [discriminate X| |rewrite !zlen_cons in X; pose proof (zlen_nonneg ms); lia].
    cbn [map] in E. destruct pdus as [|p [|]]; [discriminate E|reflexivity|discriminate E]. }
  rewrite E2. destruct (map _ (map hex_of os')) as [|? [|]]; do 2 eexists; reflexivity.
Qed.

Lemma nth_numbered {A} (f : Z * A -> pdu) (ms : list A) k p :
  nth_error (map f (combine (map (fun k => 1 + Z.of_nat k) (seq 0 (length ms))) ms)) k = Some p ->
  exists m, nth_error ms k = Some m /\ p = f (1 + Z.of_nat k, m).
Proof.
  assert (G : forall (ms : list A) j k p,
    nth_error (map f (combine (map (fun k => 1 + Z.of_nat k) (seq j (length ms))) ms)) k = Some p ->
    exists m, nth_error ms k = Some m /\ p = f (1 + Z.of_nat (j + k), m)).
  { induction ms0 as [|m ms0 IH]; intros j [|i] q H; try discriminate H; cbn [length seq map combine nth_error] in *.
    - exists m. split; [reflexivity|]. rewrite Nat.add_0_r. congruence.
    - destruct (IH _ _ _ H) as (m' & H1 & H2). exists m'. split; [exact H1|]. rewrite H2. do 3 f_equal. lia. }
  intros H. destruct (G _ _ _ _ H) as (m & H1 & H2). eauto.
Qed.

(** C95: a message in the GSM alphabet or UCS-2 that takes several parts can be sent
    again; the second time it is cut in the same parts, and the k-th PDU asks for
    the same with the same part of the text; only the reference in the header of
    the parts is the next one. *)
Theorem C95_again : forall s pdus s', reachable s -> validity_ok (s_validity s) ->
  (coding_of s = 0 \/ coding_of s = 8) -> to_pdu s = (Ok pdus, s') -> zlen pdus <> 1 ->
  exists pdus2 s2, to_pdu s' = (Ok pdus2, s2) /\ length pdus2 = length pdus /\
    (s_rand_id s = None -> parts_ref s' = (parts_ref s + 1) mod 255) /\
    (s_rand_id s <> None -> parts_ref s' = parts_ref s) /\
    forall k p q, nth_error pdus k = Some p -> nth_error pdus2 k = Some q ->
      exists part udl ud ud2,
        carries s (coding_of s) (message_ref s) true udl ud p /\
        part_ud (coding_of s) (parts_ref s) (zlen pdus) (1 + Z.of_nat k) part udl ud /\
        carries s (coding_of s) (message_ref s) true udl ud2 q /\
        part_ud (coding_of s) (parts_ref s') (zlen pdus) (1 + Z.of_nat k) part udl ud2.
Proof.
  intros s pdus s' H Hv Hc E N. pose proof (reachable_wf _ H) as Hwf.
  destruct (again_succeeds s pdus s' Hwf Hv Hc E N) as (pdus2 & s2 & E2).
  destruct (state_after s pdus s' Hwf Hv Hc E) as (F8 & Hid').
  destruct (C94_settings _ _ _ E) as (F1 & F2 & F3 & F4 & F5 & F6 & F7 & F9).
  assert (Fc : coding_of s' = coding_of s) by (unfold coding_of at 1; now rewrite F8).
  assert (Hwf' : wf_submit s') by (replace s' with (snd (to_pdu s)) by (now rewrite E); now apply keeps_to_pdu).
  destruct (ref_after s pdus s' Hwf Hv ltac:(lia) E) as (Ho & Er).
  assert (Fm : message_ref s' = message_ref s).
  { unfold message_ref at 1. rewrite Er. now apply Z.mod_small. }
  destruct (to_pdu_decompose s Hwf Hv) as (mr & l & _ & _ & Emr & Hl & Hm & D). rewrite E in D.
  destruct D as (_ & _ & mk & ms & Em & Ep & _ & Hcar).
  destruct (to_pdu_decompose s' Hwf' ltac:(now rewrite F4)) as (mr' & l' & _ & _ & Emr' & Hl' & Hm' & D).
  rewrite E2 in D. destruct D as (_ & _ & mk' & ms' & Em' & Ep' & _ & Hcar').
  assert (N' : zlen ms <> 1).
  { intros X. apply N. destruct ms as [|m [|m2 ms]]; [discriminate X| |rewrite !zlen_cons in X; pose proof (zlen_nonneg ms); lia].
    rewrite Ep. reflexivity. }
  rewrite Fc, F7 in Em'.
  destruct (ud_again (coding_of s) (s_text s) (ref_state s mr l) (ref_state s' mr' l') ms s' Hc Hl Hl' Em N')
    as (st1' & ref & ref' & x & x' & parts & os & os' & Ems & Em2 & H2 & (L1 & Q1) & (L2 & Q2) & D1 & D2).
  assert (Ems' : ms' = map hex_of os') by congruence.
  assert (R1 : ref = parts_ref s) by (eapply drawn_parts_ref; [exact Hm| | |exact D1]; reflexivity).
  assert (R2 : ref' = parts_ref s') by (eapply drawn_parts_ref; [exact Hm'| | |exact D2]; reflexivity).
  assert (P1 : forall A (f : list Z -> A) (g : list A) ls, 2 <= zlen ls ->
     match map hex_of ls with [m] => [f m] | _ => g end = g).
  { intros A f g ls Hls. destruct ls as [|a [|b ls]]; [| |reflexivity];
    exfalso; unfold zlen in Hls; cbn in Hls; lia. }
  assert (Z1 : 2 <= zlen os) by (unfold zlen in *; lia).
  assert (Z2 : 2 <= zlen os') by (unfold zlen in *; lia).
  subst ms ms'. rewrite P1 in Ep, Ep' by assumption. clear P1.
  assert (K1 : length pdus = length parts).
  { rewrite Ep, map_length, combine_length, map_length, seq_length, map_length. lia. }
  assert (K2 : length pdus2 = length parts).
  { rewrite Ep', map_length, combine_length, map_length, seq_length, map_length. lia. }
  exists pdus2, s2. split; [exact E2|]. split; [congruence|]. split; [|split].
  { intros Hn. replace s' with (with_text (s_text s') s') by (destruct s'; reflexivity).
    apply (next_reference s pdus s' _ H Hv); auto. lia. }
  { intros Hn. unfold parts_ref. rewrite F9. destruct (s_rand_id s); [reflexivity|congruence]. }
  intros k p q Hk Hk'. rewrite Ep in Hk. rewrite Ep' in Hk'.
  destruct (nth_numbered _ _ _ _ Hk) as (m & Hm1 & ->). destruct (nth_numbered _ _ _ _ Hk') as (m' & Hm2 & ->).
  rewrite nth_error_map in Hm1, Hm2.
  destruct (nth_error os k) as [o|] eqn:O1; [|discriminate Hm1].
  destruct (nth_error os' k) as [o'|] eqn:O2; [|discriminate Hm2]. cbn [option_map] in *.
  destruct (nth_error parts k) as [part|] eqn:O3.
  2:{ exfalso. apply nth_error_None in O3. assert (k < length os)%nat by (apply nth_error_Some; congruence). lia. }
  destruct (Q1 k part o O3 O1) as (udl & ud & -> & B1 & B2).
  destruct (Q2 k part o' O3 O2) as (udl' & ud' & -> & B1' & B2').
  unfold emitted_ud in B2, B2'. replace (coding_of s =? 4) with false in B2, B2' by lia.
  destruct B2 as (B2 & _). destruct B2' as (B2' & _).
  assert (udl' = udl).
  { inversion B2; inversion B2'; subst; try lia; congruence. }
  subst udl'. exists part, udl, ud, ud'.
  cbn [fst snd]. assert (m = hex_of (udl :: ud)) by congruence. assert (m' = hex_of (udl :: ud')) by congruence.
  subst m m'. assert (Zp : zlen pdus = zlen parts) by (unfold zlen; congruence). rewrite Zp.
  rewrite <- Emr, <- R1, <- R2. split; [now apply Hcar|]. split; [exact B2|]. split; [|exact B2'].
  specialize (Hcar' true (zlen (map hex_of os')) (1 + Z.of_nat k) udl ud' B1').
  destruct Hcar' as (o2 & sc & da & vpf & vp & C1 & C2 & C3 & C4 & C5 & C6 & C7).
  exists o2, sc, da, vpf, vp. split; [exact C1|]. split; [exact C2|]. split.
  { rewrite C3, Fc, F3, F5, F6, Emr', Fm, Emr. reflexivity. }
  rewrite F2 in C4. rewrite F1 in C5. rewrite F4 in C6. auto.
Qed.
Print Assumptions C95_again.
Example C95_case :
  match to_pdu (sample (PyStr true (repeat 97 170))) with
  | (Ok l, s) => zlen l = 2 /\ match to_pdu s with
      | (Ok l', _) => map (fun p => firstn 12 (skipn 28 (p_pdu p))) (l ++ l') =
          [str "050003010201"; str "050003010202"; str "050003020201"; str "050003020202"]
      | _ => False end
  | _ => False
  end.
Proof. vm_compute. split; reflexivity. Qed.
