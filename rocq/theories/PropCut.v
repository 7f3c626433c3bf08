(** C83, C84: MMS data that was cut or extended, and what a message can take from
    it. *)
From Coq Require Import Lia ZifyBool ZifyNat.
From Verif Require Import Py Iter Tables WspDec WspEnc Message MmsEnc MmsDec
  SpecWsp WspClaims SpecMms SpecPieces GrammarClaims PyFacts IterFacts WspFacts MmsTotal GrammarFacts
  CutFacts PropGrammar.
Open Scope Z_scope.

(** * C83: truncated messages *)

(** When the beginning of some data decodes to a message with parts, the data
    decodes to that message.  So cutting a message never yields other parts, or
    fewer parts but some; and octets after the last part are ignored. *)
Theorem C83_parts : forall data rest m,
  decode_data data = Ok m -> m_parts m <> [] -> decode_data (data ++ rest) = Ok m.
Proof.
  intros data rest m E H. rewrite decode_data_run in *.
  destruct (decoding (new_iter data)) as [r it] eqn:D. cbn [fst] in E. subst r.
  destruct (decoding_followed data rest m it D H) as (it1 & l & p & D1 & _). rewrite D1. reflexivity.
Qed.
Print Assumptions C83_parts.
Example C83_parts_case : exists m,
  decode_data (one_part (str "X" ++ [0] ++ str "y" ++ [0])) = Ok m /\ length (m_parts m) = 1%nat.
Proof. eexists. split; vm_compute; reflexivity. Qed.

(** The headers of a message that was cut: no name that the whole does not
    have. *)
Theorem C83_headers : forall data rest m m',
  decode_data data = Ok m -> decode_data (data ++ rest) = Ok m' ->
  forall name, In name (map fst (m_headers m)) -> In name (map fst (m_headers m')).
Proof.
  intros data rest m m' E E'. rewrite decode_data_run in *.
  destruct (decoding (new_iter data)) as [r it] eqn:D. cbn [fst] in E. subst r.
  destruct (decoding (new_iter (data ++ rest))) as [r it'] eqn:D'. cbn [fst] in E'. subst r.
  eapply decoding_names; eauto.
Qed.
Print Assumptions C83_headers.

(** A message of the standard that was cut is refused or read without any part. *)
Theorem C83_message_partial : forall fs es l cut rest,
  Read_message fs es l -> n_octets l <= maxint -> l = cut ++ rest -> rest <> [] ->
  forall m, decode_data cut = Ok m -> m_parts m = [].
Proof.
  intros fs es l cut rest H Hl El Hr m E. rewrite decode_data_run in E.
  destruct (decoding (new_iter cut)) as [r it] eqn:D. cbn [fst] in E. subst r.
  destruct (m_parts m) as [|q ps] eqn:Em; [reflexivity|]. exfalso.
  destruct (decoding_followed cut rest m it D) as (it1 & l' & p & D1 & R1); [congruence|].
  destruct (message_runs fs es l H Hl) as (m2 & Hw & _).
  destruct (Hw _ (R_new l)) as (r & it2 & l2 & p2 & E2 & R2 & -> & -> & ->).
  rewrite El in E2. fold decoding in E2. rewrite D1 in E2. injection E2 as -> ->.
  destruct (R_det _ _ _ _ _ R1 R2) as [X _]. apply app_eq_nil in X. tauto.
Qed.
Print Assumptions C83_message_partial.

(** Cut behind the number of parts it raises StopIteration. *)
Theorem C83_body_partial : forall fs fl media ps ct n nl es el cut rest,
  Sequence Read_field fs fl -> Read_type media ps ct -> Uintvar n nl -> n = Z.of_nat (length es) ->
  Entries (Multipart_entry Read_type Read_part_header) es el ->
  n_octets (fl ++ (132 :: ct) ++ nl ++ el) <= maxint ->
  el = cut ++ rest -> rest <> [] ->
  decode_data (fl ++ (132 :: ct) ++ nl ++ cut) = Err StopIteration.
Proof.
  intros fs fl media ps ct n nl es el cut rest Hf Hc Hn En He Hl El Hr.
  assert (Hl' : n_octets ct <= maxint /\ n_octets el <= maxint /\ n <= maxint).
  { unfold n_octets in *. rewrite !app_length in Hl. cbn [length] in Hl.
    destruct (entries_read _ _ He) as (Hlen & _); unfold n_octets; lia. }
  destruct Hl' as (L1 & L2 & L3).
  destruct (head_runs fs fl media ps ct Hf Hc L1) as (D & _ & Hw).
  destruct (entries_read _ _ He L2) as (Hlen & parts & _ & Hew).
  rewrite decode_data_run. unfold decoding, st_bind at 1.
  destruct (Hw (nl ++ cut) _ (R_new _)) as (r & it & l & p & E1 & R1 & -> & -> & ->). rewrite E1.
  unfold st_bind at 1, decode_message_body.
  destruct (uintvar_read n nl 0%nat cut Hn it R1) as (r & it2 & l & p & E2 & R2 & -> & -> & ->). rewrite E2.
  unfold xrange_check. replace (maxint <? n) with false by lia. unfold st_bind at 1, st_ret at 1.
  assert (W : wp (fuelled (fun f => parts_loop f n)) (cut ++ rest) 0 (becomes parts [])).
  { apply wp_fuelled. rewrite En, <- El. rewrite <- (app_nil_r el) at 2. apply Hew. lia. }
  assert (R3 : R (Piter (cut ++ rest) [] 0) (cut ++ rest) 0) by apply R_new.
  destruct (cut_parts_loop n rest cut 0%nat _ it2 R3 R2)
    as [(e & i & E4 & ->)|(r & i1 & i2 & l & p & E4 & E5 & R4 & R5)].
  - rewrite E4. reflexivity.
  - exfalso. destruct (W _ R3) as (r' & i1' & l' & p' & E6 & R6 & -> & -> & ->).
    rewrite E4 in E6. injection E6 as -> ->. destruct (R_det _ _ _ _ _ R4 R6) as [X _].
    apply app_eq_nil in X. tauto.
Qed.
Print Assumptions C83_body_partial.

(** C83 is false of cutting right behind the header: every message is accepted
    then, without its parts. *)
Theorem C83_accepted_refuted : forall fs fl media ps ct,
  Sequence Read_field fs fl -> Read_type media ps ct -> n_octets ct <= maxint ->
  exists m, decode_data (fl ++ (132 :: ct)) = Ok m /\
    shows_message (fs ++ [(str "Content-Type", Media_type media ps)]) [] m.
Proof.
  intros fs fl media ps ct Hf Hc L1. destruct (head_runs fs fl media ps ct Hf Hc L1) as (D & HD & Hw).
  exists (Message D [] [] 176 220). split; [|split; [exact HD|split; [constructor|reflexivity]]].
  assert (W : wp decoding (fl ++ (132 :: ct)) 0 (becomes (Message D [] [] 176 220) [])).
  { eapply wp_seq with (v := D) (rest := []).
    - rewrite <- (app_nil_r ct). apply (Hw []).
    - eapply wp_seq; [apply body_at_end|]. wsteps. apply becomes_intro. }
  rewrite decode_data_run. destruct (wp_fst _ _ _ _ W) as (r & l & p & E & -> & _). exact E.
Qed.
Print Assumptions C83_accepted_refuted.
Example C83_accepted_case : exists rest m,
  two_parts_octets = [140; 132; 132; 163] ++ rest /\ length rest = 57%nat /\
  decode_data [140; 132; 132; 163] = Ok m /\ m_parts m = [].
Proof. do 2 eexists. repeat split; vm_compute; reflexivity. Qed.

(** The two parts cut anywhere behind their number, and the exception. *)
Example C83_case : decode_data (firstn 40 two_parts_octets) = Err StopIteration.
Proof. vm_compute. reflexivity. Qed.

(** * C84: what a message takes from the data *)

Lemma parts_pieces : forall fuel n l p,
  wp (parts_loop fuel n) l p (fun r l' p' => forall ps, r = Ok ps ->
    exists ds, map dp_data ps = map Some ds /\ Pieces 3 ds l).
Proof.
  induction fuel as [|f IH]; intros n l p; cbn [parts_loop]; (destruct (0 <? n);
    [|wsteps; intros ps E; injection E as <-; exists []; split; [reflexivity|constructor]]).
  - wsteps. congruence.
  - apply wp_bind. eapply wp_mono; [apply part_data|]. intros r l1 p1 H1.
    destruct r as [q|e]; [|congruence]. destruct (H1 q eq_refl) as (g & d & Eq & Hg & ->).
    apply wp_bind. eapply wp_mono; [apply IH|]. intros r l2 p2 H2.
    destruct r as [ps|e]; [|congruence]. wsteps. intros ps' E. injection E as <-.
    destruct (H2 ps eq_refl) as (ds & Ed & Hd). exists (d :: ds). split.
    + cbn. congruence.
    + constructor; assumption.
Qed.

Lemma pieces_app k pre ds l : Pieces k ds l -> Pieces k ds (pre ++ l).
Proof.
  intros H. destruct H as [l|g d ds l Hg H]; [constructor|]. rewrite app_assoc. constructor; [|exact H].
  rewrite app_length. lia.
Qed.

(** Whatever is decoded, the data of the parts are pieces of it, one after the
    other, each with three octets at least before it. *)
Theorem C84_pieces : forall data m, decode_data data = Ok m ->
  exists ds, map dp_data (m_parts m) = map Some ds /\ Pieces 3 ds data.
Proof.
  intros data m E. unfold decode_data in E.
  match type of E with fst (?k _) = _ =>
    assert (H : wp k data 0 (fun r _ _ => forall m, r = Ok m ->
      exists ds, map dp_data (m_parts m) = map Some ds /\ Pieces 3 ds data)) end.
  2:{ destruct (wp_fst _ _ data _ H) as (r & l & p & E' & Hr). rewrite E in E'. eauto. }
  clear m E. apply wp_bind. unfold decode_message_header. apply wp_fuelled.
  eapply wp_mono; [apply header_loop_safe; lia|].
  intros r l p (pre & -> & _). destruct r as [d|e]; [|congruence].
  apply wp_bind.
  eapply wp_then with (m := decode_uint_var)
    (j := fun r => match r with
                   | Err StopIteration => st_ret []
                   | Err e => st_err e
                   | Ok n => (_ <~ xrange_check n ;; fuelled (fun f => parts_loop f n))
                   end).
  { intros it. unfold decode_message_body.
    destruct (decode_uint_var it) as [[n|e] it']; [reflexivity|destruct e; reflexivity]. }
  eapply wp_mono; [apply safe_uint_var_stop|].
  intros r l1 p1 (pre1 & -> & Hr). destruct r as [n|e].
  2:{ subst e. wsteps. intros m E. injection E as <-. exists []. split; [reflexivity|constructor]. }
  unfold xrange_check. destruct (maxint <? n); wsteps; [congruence|].
  eapply wp_mono; [apply parts_pieces|]. intros r l2 p2 H2. destruct r as [ps|e]; [|congruence].
  wsteps. intros m E. injection E as <-. cbn [m_parts].
  destruct (H2 ps eq_refl) as (ds & Ed & Hd). exists ds. split; [exact Ed|].
  rewrite app_assoc. now apply pieces_app.
Qed.
Print Assumptions C84_pieces.

Lemma pieces_size k ds l : Pieces k ds l ->
  (k * length ds + length (concat ds) <= length l)%nat.
Proof. intros H. induction H; cbn [length concat]; rewrite ?app_length; lia. Qed.

(** So the parts are not larger than the data, and not many: no small message
    decodes to a large one. *)
Theorem C84_size : forall data m, decode_data data = Ok m ->
  exists ds, map dp_data (m_parts m) = map Some ds /\
  3 * Z.of_nat (length (m_parts m)) + n_octets (concat ds) <= n_octets data.
Proof.
  intros data m E. destruct (C84_pieces data m E) as (ds & Ed & H). exists ds. split; [exact Ed|].
  apply pieces_size in H. apply (f_equal (@length _)) in Ed. rewrite !map_length in Ed.
  unfold n_octets. lia.
Qed.
Print Assumptions C84_size.
Example C84_case : exists m p q, decode_data two_parts_octets = Ok m /\ m_parts m = [p; q] /\
  dp_data p = Some (str "Hello") /\ dp_data q = Some [0; 255; 7].
Proof. do 3 eexists. repeat split; vm_compute; reflexivity. Qed.

(** * C77 for all messages *)

(** Whatever the content of a message that is not multipart, it is the data of no
    part of the decoded message: every part found in it is shorter. *)
Theorem C77_lost_refuted : forall fs fl media ps ct data m,
  Sequence Read_field fs fl -> Read_type media ps ct -> n_octets ct <= maxint ->
  decode_data (fl ++ (132 :: ct) ++ data) = Ok m ->
  forall p, In p (m_parts m) -> exists d, dp_data p = Some d /\ n_octets d + 4 <= n_octets data.
Proof.
  intros fs fl media ps ct data m Hf Hc L1 E.
  destruct (head_runs fs fl media ps ct Hf Hc L1) as (D & _ & Hw).
  assert (W : wp decoding (fl ++ (132 :: ct) ++ data) 0 (fun r _ _ => forall m, r = Ok m ->
    forall p, In p (m_parts m) -> exists d, dp_data p = Some d /\ n_octets d + 4 <= n_octets data)).
  2:{ rewrite decode_data_run in E. destruct (wp_fst _ _ _ _ W) as (r & l & p & E' & Hr).
      rewrite E in E'. eauto. }
  clear m E. eapply wp_seq; [apply (Hw data)|]. cbv beta. apply wp_bind.
  eapply wp_then with (m := decode_uint_var)
    (j := fun r => match r with
                   | Err StopIteration => st_ret []
                   | Err e => st_err e
                   | Ok n => (_ <~ xrange_check n ;; fuelled (fun f => parts_loop f n))
                   end).
  { intros it. unfold decode_message_body.
    destruct (decode_uint_var it) as [[n|e] it']; [reflexivity|destruct e; reflexivity]. }
  eapply wp_mono; [apply safe_uint_var_stop|].
  intros r l1 p1 (pre1 & -> & Hr). destruct r as [n|e].
  2:{ subst e. wsteps. intros m E. injection E as <-. intros p []. }
  unfold xrange_check. destruct (maxint <? n); wsteps; [congruence|].
  eapply wp_mono; [apply parts_pieces|]. intros r l2 p2 H2. destruct r as [qs|e]; [|congruence].
  wsteps. intros m E. injection E as <-. cbn [m_parts].
  destruct (H2 qs eq_refl) as (ds & Ed & Hd). intros p Hp.
  apply (in_map dp_data) in Hp. rewrite Ed in Hp. apply in_map_iff in Hp as (d & <- & Hin).
  exists d. split; [reflexivity|]. apply pieces_size in Hd.
  assert (length d <= length (concat ds))%nat.
  { clear - Hin. induction ds as [|x ds IH]; [destruct Hin|]. cbn [concat]. rewrite app_length.
    destruct Hin as [->|Hin]; [lia|]. specialize (IH Hin). lia. }
  assert (1 <= length ds)%nat by (destruct ds; [destruct Hin|cbn; lia]).
  unfold n_octets. rewrite app_length. cbn in Hr. lia.
Qed.
Print Assumptions C77_lost_refuted.
(** A content that happens to look like a multipart body. *)
Example C77_lost_case : exists m p, decode_data (132 :: [131] ++ [1; 1; 2; 131; 72; 105]) = Ok m /\
  m_parts m = [p] /\ dp_data p = Some (str "Hi").
Proof. do 2 eexists. repeat split; vm_compute; reflexivity. Qed.
