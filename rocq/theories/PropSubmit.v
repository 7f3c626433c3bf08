(** C15-C17, C20 and C22-C28: what [SmsSubmit.to_pdu] returns.  The vocabulary
    ([carries], [reachable], [ready], [encodable]) is in SubmitClaims.v, the
    reader and the layout of user data in SpecSubmit.v. *)
From Coq Require Import Lia.
From Verif Require Import Py SpecGsm SpecPack SpecAddress SpecTime SpecSubmit Utils Gsm
  Submit SubmitClaims SubmitFacts ToPduFacts.
Open Scope Z_scope.

(** A concrete object for the cases below. *)
Definition sample (t : pystr) : submit :=
  Submit (Some (str "+34616585119")) None None NoValidity false None None id_range 0
         t None None None.
Lemma sample_reachable t : reachable (sample t).
Proof. apply (r_new (Some (str "+34616585119")) t). reflexivity. Qed.
Lemma sample_ready t f : f = 0 \/ f = 4 \/ f = 8 -> ready (with_fmt (Some f) (sample t)).
Proof.
  intros Hf. split; [|split; [|split; [|split]]].
  - exists (str "+34616585119"), true, (str "34616585119"). split; [reflexivity|].
    split; [repeat constructor; cbv; discriminate|]. split; [cbv; split; discriminate|].
    exists []. split; [now left|reflexivity].
  - cbv. split; congruence.
  - exact Hf.
  - exact I.
  - exact I.
Qed.

Lemma sample_ready_auto t : ready (sample t).
Proof.
  destruct (sample_ready t 0 (or_introl eq_refl)) as (H1 & H2 & _ & H3 & H4).
  split; [exact H1|]. split; [exact H2|]. split; [|auto].
  unfold coding_of. cbn [s_fmt sample]. destruct (is_gsm_text _); auto.
Qed.

(** C15: one PDU exactly when the message fits, at least two otherwise. *)
Theorem C15_threshold : forall s pdus s' n,
  reachable s -> validity_ok (s_validity s) ->
  (coding_of s = 4 -> Forall octet (chars (s_text s))) ->
  message_size (coding_of s) (chars (s_text s)) n ->
  to_pdu s = (Ok pdus, s') ->
  (n <= capacity (coding_of s) -> zlen pdus = 1) /\
  (capacity (coding_of s) < n -> 2 <= zlen pdus).
Proof. intros s pdus s' n H. apply single_pdus. now apply reachable_wf. Qed.
Print Assumptions C15_threshold.
Example C15_case_160 : exists p s', to_pdu (sample (PyStr true (repeat 97 160))) = (Ok [p], s').
Proof. do 2 eexists. vm_compute. reflexivity. Qed.
Example C15_case_161 : exists p q s', to_pdu (sample (PyStr true (repeat 97 161))) = (Ok [p; q], s').
Proof. do 3 eexists. vm_compute. reflexivity. Qed.

(** C16: the parts partition the message and each fits beside the header.
    [parts_of] says that the parts put together are the message; the user data
    of the [k]-th PDU is the [k]-th part (C22_parts). *)
Theorem C16_partition : forall s pdus s',
  reachable s -> validity_ok (s_validity s) ->
  (coding_of s = 4 -> Forall octet (chars (s_text s))) ->
  to_pdu s = (Ok pdus, s') -> zlen pdus <> 1 ->
  exists parts, length parts = length pdus /\
    parts_of (coding_of s) (chars (s_text s)) parts /\
    Forall (fun p => 1 <= zlen p <= part_capacity (coding_of s)) parts /\
    (coding_of s <> 4 -> 2 <= zlen pdus <= 255 /\
     exists ref, octet ref /\
       forall k p m, nth_error pdus k = Some p -> nth_error parts k = Some m ->
         exists udl ud, carries s (coding_of s) (message_ref s) true udl ud p /\
           part_ud (coding_of s) ref (zlen pdus) (1 + Z.of_nat k) m udl ud).
Proof. intros s pdus s' H. apply several_pdus. now apply reachable_wf. Qed.
Print Assumptions C16_partition.
(** Three parts: each of the escapes at the edges of the parts takes two septets. *)
Example C16_case : let s := sample (PyStr true (repeat 97 152 ++ repeat 8364 100)) in
  reachable s /\ validity_ok (s_validity s) /\ coding_of s = 0 /\
  exists p q r s', to_pdu s = (Ok [p; q; r], s').
Proof.
  cbv zeta. split; [apply sample_reachable|]. split; [exact I|]. split; [vm_compute; reflexivity|].
  do 4 eexists. vm_compute. reflexivity.
Qed.

(** C17: in the GSM alphabet every part is the GSM form of a piece of the text. *)
Theorem C17_no_split_escapes : forall s pdus s',
  reachable s -> validity_ok (s_validity s) -> coding_of s = 0 ->
  to_pdu s = (Ok pdus, s') -> zlen pdus <> 1 ->
  exists parts texts ref, length parts = length pdus /\
    Forall2 gsm_text texts parts /\ concat texts = chars (s_text s) /\
    forall k p m, nth_error pdus k = Some p -> nth_error parts k = Some m ->
      exists udl ud, carries s 0 (message_ref s) true udl ud p /\
        part_ud 0 ref (zlen pdus) (1 + Z.of_nat k) m udl ud.
Proof.
  intros s pdus s' H Hv Hc E Hne.
  destruct (several_pdus s pdus s' (reachable_wf _ H) Hv ltac:(lia) E Hne)
    as (parts & Hl & Hp & _ & Hr). rewrite Hc in *.
  destruct Hp as (texts & Ht & Ec). destruct (Hr ltac:(lia)) as (_ & ref & _ & Hk).
  exists parts, texts, ref. auto.
Qed.
Print Assumptions C17_no_split_escapes.
(** An escape sequence lies across the part boundary: 152 letters, a euro sign
    and more letters. *)
Example C17_case : exists p q s',
  to_pdu (sample (PyStr true (repeat 97 152 ++ [8364] ++ repeat 98 20))) = (Ok [p; q], s').
Proof. do 3 eexists. vm_compute. reflexivity. Qed.

(** C20 fails: whatever the message, 8-bit parts carry no concatenation header
    although the header indicator is set, and their length is three too large,
    so no part is well formed. *)
Theorem C20_eight_bit_parts_refuted :
  (forall s pdus s', reachable s -> validity_ok (s_validity s) ->
     coding_of s = 4 -> Forall octet (chars (s_text s)) -> 140 < zlen (chars (s_text s)) ->
     to_pdu s = (Ok pdus, s') ->
     2 <= zlen pdus /\
     forall p, In p pdus -> forall mr ref total i part udl ud,
       ~ (carries s 4 mr true udl ud p /\ part_ud 4 ref total i part udl ud)) /\
  (exists s pdus s', reachable s /\ validity_ok (s_validity s) /\ coding_of s = 4 /\
     Forall octet (chars (s_text s)) /\ 140 < zlen (chars (s_text s)) /\
     to_pdu s = (Ok pdus, s')).
Proof.
  split.
  - intros s pdus s' H. apply eight_bit_parts. now apply reachable_wf.
  - exists (with_fmt (Some 4) (sample (PyStr false (repeat 65 150)))).
    do 2 eexists. split; [apply r_fmt, sample_reachable|]. split; [exact I|].
    split; [reflexivity|]. split; [apply Forall_forall; intros x Hx; apply repeat_spec in Hx; subst; unfold octet; lia|].
    split; [reflexivity|]. vm_compute. reflexivity.
Qed.
Print Assumptions C20_eight_bit_parts_refuted.

(** C22: every PDU is a well-formed SMS-SUBMIT that asks for exactly what the
    attributes say (see [carries]); the header indicator is set when there are
    several PDUs. *)
Theorem C22_submit_fields : forall s pdus s',
  reachable s -> validity_ok (s_validity s) ->
  (coding_of s = 4 -> Forall octet (chars (s_text s))) ->
  to_pdu s = (Ok pdus, s') ->
  forall p, In p pdus ->
    exists udl ud, carries s (coding_of s) (message_ref s) (1 <? zlen pdus) udl ud p.
Proof.
  intros s pdus s' H Hv H4 E p Hin. apply In_nth_error in Hin as (k & Hk).
  now destruct (every_pdu s pdus s' (reachable_wf _ H) Hv H4 E k p Hk) as (_ & _ & C).
Qed.
Print Assumptions C22_submit_fields.

(** C22: the user data of a message sent in one PDU. *)
Theorem C22_single_user_data : forall s p s',
  reachable s -> validity_ok (s_validity s) ->
  (coding_of s = 4 -> Forall octet (chars (s_text s))) ->
  to_pdu s = (Ok [p], s') ->
  exists udl ud, carries s (coding_of s) (message_ref s) false udl ud p /\
    single_ud (coding_of s) (chars (s_text s)) udl ud.
Proof. intros s p s' H. apply one_pdu. now apply reachable_wf. Qed.
Print Assumptions C22_single_user_data.

(** C22: [to_pdu] does return PDUs for every text of at most 255 parts that the
    coding can represent. *)
Theorem C22_succeeds : forall s n, reachable s -> ready s ->
  encodable (coding_of s) (s_text s) ->
  is_uni (s_text s) || is_ascii (chars (s_text s)) = true ->
  (coding_of s = 4 -> n <= 140 /\ (is_uni (s_text s) = true -> n < 128)) ->
  message_size (coding_of s) (chars (s_text s)) n ->
  n <= 255 * (part_capacity (coding_of s) - 1) ->
  exists pdus s', to_pdu s = (Ok pdus, s').
Proof. intros s n H. apply to_pdu_succeeds. now apply reachable_wf. Qed.
Print Assumptions C22_succeeds.
Example C22_case : option_map (fun p => p_pdu p)
    (match to_pdu (sample (PyStr true (str "hola"))) with (Ok [p], _) => Some p | _ => None end)
  = Some (str "0001000B914316565811F9000004E8373B0C").
Proof. vm_compute. reflexivity. Qed.
Example C22_case_validity : forall d, d = Absolute (Datetime 2010 7 25 20 15 39 None) ->
  validity_ok d.
Proof. intros d ->. split; [unfold valid_civil; cbn; lia|exact I]. Qed.

(** C22 needs the restriction on 8-bit texts: with a character above 255 the
    user data is longer than announced. *)
Theorem C22_wide_8bit_refuted : exists s p s',
  reachable s /\ ready s /\ to_pdu s = (Ok [p], s') /\
  forall mr u udl ud, carries s 4 mr u udl ud p -> zlen ud <> udl.
Proof.
  exists (with_fmt (Some 4) (sample (PyStr true [20013]))). do 2 eexists.
  split; [apply r_fmt, sample_reachable|]. split; [apply sample_ready; auto|].
  split; [vm_compute; reflexivity|]. intros mr u udl ud C. apply carries_read in C.
  vm_compute in C. destruct C as (_ & _ & <- & <- & _). discriminate.
Qed.
Print Assumptions C22_wide_8bit_refuted.

(** C23: [length] is the number of octets after the service centre part, whose
    size is one more than the first octet. *)
Theorem C23_length : forall s pdus s',
  reachable s -> validity_ok (s_validity s) ->
  (coding_of s = 4 -> Forall octet (chars (s_text s))) ->
  to_pdu s = (Ok pdus, s') ->
  forall p, In p pdus -> exists o,
    Forall octet o /\ p_pdu p = hex_upper o /\ p_length p = zlen o - (1 + hd 0 o).
Proof.
  intros s pdus s' H Hv H4 E p Hin.
  destruct (C22_submit_fields s pdus s' H Hv H4 E p Hin)
    as (udl & ud & o & sc & da & vpf & vp & E1 & Ho & _ & _ & _ & _ & E2). eauto.
Qed.
Print Assumptions C23_length.
Example C23_case : match to_pdu (with_csca (Some (str "+34646456546")) (sample (PyStr true (str "hola")))) with
  | (Ok [p], _) => p_length p = 17 | _ => False end.
Proof. vm_compute. reflexivity. Qed.

(** C24: [cnt] is the number of PDUs and [seq] numbers them from 1.  That all
    headers carry one reference, this count and this number is C16_partition. *)
Theorem C24_bookkeeping : forall s pdus s',
  reachable s -> validity_ok (s_validity s) ->
  (coding_of s = 4 -> Forall octet (chars (s_text s))) ->
  to_pdu s = (Ok pdus, s') ->
  forall k p, nth_error pdus k = Some p ->
    p_cnt p = zlen pdus /\ p_seq p = 1 + Z.of_nat k.
Proof.
  intros s pdus s' H Hv H4 E k p Hk.
  destruct (every_pdu s pdus s' (reachable_wf _ H) Hv H4 E k p Hk) as (A & B & _). auto.
Qed.
Print Assumptions C24_bookkeeping.
Example C24_case : match to_pdu (sample (PyStr true (repeat 20013 140))) with
  | (Ok l, _) => map (fun p => (p_cnt p, p_seq p)) l = [(3, 1); (3, 2); (3, 3)] | _ => False end.
Proof. vm_compute. reflexivity. Qed.

(** C25: the [n]-th reference drawn from a new object, counted from 0. *)
Theorem C25_references : forall number text s n,
  new_submit number text = Ok s -> nth_draw n s = Ok (Z.of_nat n mod 255).
Proof. exact references. Qed.
Print Assumptions C25_references.
Example C25_case : nth_draw 300 (sample (PyStr true [])) = Ok 45.
Proof. vm_compute. reflexivity. Qed.

(** C26: calling [to_pdu] again, any number of times, returns the same PDU and
    changes nothing more. *)
Theorem C26_repeatable : forall s p s', reachable s -> validity_ok (s_validity s) ->
  (coding_of s = 4 -> Forall octet (chars (s_text s))) ->
  to_pdu s = (Ok [p], s') ->
  forall n, to_pdu_times n s' = s' /\ to_pdu (to_pdu_times n s') = (Ok [p], s').
Proof.
  intros s p s' H Hv H4 E n.
  pose proof (to_pdu_again s p s' (reachable_wf _ H) Hv H4 E) as A.
  induction n as [|n [I1 I2]]; [auto|]. cbn [to_pdu_times]. rewrite A. auto.
Qed.
Print Assumptions C26_repeatable.
Example C26_case : exists p s', to_pdu (sample (PyStr true (str "hola"))) = (Ok [p], s').
Proof. do 2 eexists. vm_compute. reflexivity. Qed.

(** C27, as far as it is true: while no coding has been fixed yet, the PDUs use
    the GSM alphabet for GSM text and UCS-2 otherwise.  Missing: texts assigned
    after a first [to_pdu]. *)
Theorem C27_first_coding_partial : forall s pdus s',
  reachable s -> validity_ok (s_validity s) -> s_fmt s = None ->
  to_pdu s = (Ok pdus, s') ->
  forall p, In p pdus -> exists coding mr u udl ud, carries s coding mr u udl ud p /\
    (Forall (fun u => gsm_char u /\ (is_uni (s_text s) = true \/ u < 128)) (chars (s_text s)) ->
       coding = 0) /\
    (~ Forall (fun u => gsm_char u /\ (is_uni (s_text s) = true \/ u < 128)) (chars (s_text s)) ->
       coding = 8).
Proof.
  intros s pdus s' H Hv Hf E p Hin.
  assert (coding_of s = 4 -> Forall octet (chars (s_text s))) as H4.
  { unfold coding_of. rewrite Hf. destruct (is_gsm_text _); discriminate. }
  destruct (C22_submit_fields s pdus s' H Hv H4 E p Hin) as (udl & ud & C).
  exists (coding_of s). do 4 eexists. split; [exact C|]. now apply auto_coding.
Qed.
Print Assumptions C27_first_coding_partial.

(** C27 fails once the text changes after a [to_pdu]: the coding chosen for the
    first text stays, a text that needs UCS-2 is refused, and a GSM text goes
    out in UCS-2. *)
Theorem C27_changed_text_refuted :
  (exists s p s1 s2, reachable s /\ ready s /\ s_fmt s = None /\ to_pdu s = (Ok [p], s1) /\
     encodable 8 (PyStr true [20013]) /\
     to_pdu (with_text (PyStr true [20013]) s1) = (Err UnicodeError, s2)) /\
  (exists s p s1 q s2, reachable s /\ ready s /\ s_fmt s = None /\ to_pdu s = (Ok [p], s1) /\
     is_gsm_text (Some (PyStr true (str "hola"))) = true /\
     to_pdu (with_text (PyStr true (str "hola")) s1) = (Ok [q], s2) /\
     forall c mr u udl ud, carries (with_text (PyStr true (str "hola")) s1) c mr u udl ud q ->
       dcs_octet c None = 8).
Proof.
  split.
  - exists (sample (PyStr true (str "hola"))). do 3 eexists.
    split; [apply sample_reachable|]. split; [apply sample_ready_auto|].
    split; [reflexivity|]. split; [vm_compute; reflexivity|].
    split; [repeat constructor; unfold unit16; lia|]. vm_compute. reflexivity.
  - exists (sample (PyStr true [20013])). do 4 eexists.
    split; [apply sample_reachable|]. split; [apply sample_ready_auto|].
    split; [reflexivity|]. split; [vm_compute; reflexivity|].
    split; [reflexivity|]. split; [vm_compute; reflexivity|].
    intros c mr u udl ud C. apply carries_read in C. vm_compute in C.
    destruct C as (_ & _ & _ & _ & C). symmetry. exact C.
Qed.
Print Assumptions C27_changed_text_refuted.

(** C28: in the GSM alphabet and UCS-2 a message that cannot fit 255 parts makes
    [to_pdu] raise ValueError (UnicodeError, a subclass, for a byte string). *)
Theorem C28_too_many_parts : forall s n, reachable s -> ready s ->
  coding_of s = 0 \/ coding_of s = 8 ->
  encodable (coding_of s) (s_text s) ->
  message_size (coding_of s) (chars (s_text s)) n ->
  255 * part_capacity (coding_of s) < n ->
  exists e s', to_pdu s = (Err e, s') /\ (e = ValueError \/ e = UnicodeError).
Proof. intros s n H. apply too_many. now apply reachable_wf. Qed.
Print Assumptions C28_too_many_parts.
Example C28_case : fst (to_pdu (sample (PyStr true (repeat 97 (Z.to_nat 39016))))) = Err ValueError.
Proof. vm_compute. reflexivity. Qed.

(** C28: whatever its length, a text the coding can represent either yields PDUs
    or ValueError (UnicodeError for a byte string). *)
Theorem C28_pdus_or_valueerror : forall s, reachable s -> ready s ->
  coding_of s = 0 \/ coding_of s = 8 ->
  encodable (coding_of s) (s_text s) ->
  (exists pdus s', to_pdu s = (Ok pdus, s')) \/
  (exists e s', to_pdu s = (Err e, s') /\ (e = ValueError \/ e = UnicodeError)).
Proof. intros s H. apply ready_total. now apply reachable_wf. Qed.
Print Assumptions C28_pdus_or_valueerror.

(** C28: and never are more than 255 parts emitted. *)
Theorem C28_at_most_255 : forall s pdus s', reachable s -> validity_ok (s_validity s) ->
  coding_of s <> 4 -> to_pdu s = (Ok pdus, s') -> 1 <= zlen pdus <= 255.
Proof.
  intros s pdus s' H Hv Hc E.
  destruct (Z.eq_dec (zlen pdus) 1) as [->|Hne]; [lia|].
  destruct (several_pdus s pdus s' (reachable_wf _ H) Hv ltac:(lia) E Hne)
    as (parts & _ & _ & _ & Hk). destruct (Hk Hc). lia.
Qed.
Print Assumptions C28_at_most_255.

(** C28 fails in 8-bit coding: 256 parts are emitted. *)
Theorem C28_eight_bit_refuted : exists s pdus s', reachable s /\ ready s /\
  coding_of s = 4 /\ to_pdu s = (Ok pdus, s') /\ zlen pdus = 256.
Proof.
  set (s := with_fmt (Some 4) (sample (PyStr false (repeat 65 (Z.to_nat 34304))))).
  assert (match to_pdu s with (Ok l, _) => zlen l = 256 | _ => False end) as H by (vm_compute; reflexivity).
  exists s. destruct (to_pdu s) as [[l|] s'] eqn:E; [|contradiction]. exists l, s'.
  split; [apply r_fmt, sample_reachable|]. split; [apply sample_ready; auto|]. auto.
Qed.
Print Assumptions C28_eight_bit_refuted.
