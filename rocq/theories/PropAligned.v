(** C80, whole messages: exactly which are encoded as the standard has it. *)
From Coq Require Import Lia ZifyBool ZifyNat Permutation.
From Verif Require Import Py Iter Tables WspDec WspEnc Message MmsEnc MmsDec
  SpecWsp SpecVersion WspClaims MmsClaims PropVersion PropHeaderExact SpecMms GrammarClaims EncodeClaims
  SpecRefuse SpecWritten
  PyFacts BodyFacts EncodeFacts PropEncode PropFieldExact RefuseFacts WrittenFacts PropWritten AlignedFacts.
Open Scope Z_scope.

Lemma smil_written w text smil : uintvar_of (n_octets text) smil ->
  part_written w (smil_part text) (35 :: smil ++ str "application/smil" ++ [0] ++ str "Content-ID" ++ [0] ++
         str "<0000>" ++ [0] ++ text).
Proof.
  intros H.
  pose proof (part_is w (smil_part text) (HType (str "application/smil") []) (str "application/smil") [(str "Content-ID", HStr (str "<0000>"))]
    [(str "Content-ID" ++ [0]) ++ str "<0000>" ++ [0]] (n_octets text) text [35] smil (str "application/smil" ++ [0])) as X.
  cbn [concat] in X. rewrite app_nil_r in X. rewrite <- !app_assoc in X. cbn [app] in X |- *. apply X; clear X.
  - reflexivity.
  - left. reflexivity.
  - intros (c & r & Hc & Hr). apply (f_equal (hd 0)) in Hc. vm_compute in Hc. lia.
  - apply mw_name; [|discriminate]. intros n [_ Hn]. exfalso. apply nth_error_In in Hn. vm_compute in Hn. intuition discriminate.
  - apply Permutation_refl.
  - constructor; [|constructor]. apply (phw_text _ _ (str "<0000>") (str "Content-ID" ++ [0])).
    + discriminate.
    + left. reflexivity.
    + apply nw_name. exact content_id_not_numbered.
  - apply ss_data; [reflexivity|apply ds_held; reflexivity].
  - apply ds_held. reflexivity.
  - apply (uintvar_is 35 [] 35); [constructor|unfold digit128; lia|exact I|reflexivity].
  - exact H.
Qed.

Lemma entries_aligned w ps bs : Forall2 (part_written w) ps bs -> Forall (fun p => is_dict (dp_headers p)) ps ->
  forall es el r r', Entries (Multipart_entry Content_type Part_header) es el -> Forall2 (entry_is w) ps es ->
  el ++ r = concat bs ++ r' -> Forall (standard_part w) ps.
Proof.
  intros H. induction H as [|p b ps bs Hw _ IH]; intros HD es el r r' HE HF E; [constructor|].
  inversion HF as [|? e ? es' He HF']. subst. inversion HE as [|? l ? x Hl Hx]. subst. inversion HD. subst.
  cbn [concat] in E. rewrite <- !app_assoc in E.
  destruct (part_entry_aligned w p b e l _ _ ltac:(assumption) Hw Hl He E) as [E' Hs].
  constructor; [exact Hs|]. exact (IH ltac:(assumption) _ _ _ _ Hx HF' E').
Qed.

Lemma first_pairs rand d ks bs :
  Forall2 (fun k b => exists v, sent_headers rand d k = Some v /\ header_written k v b) ks bs ->
  exists L, map fst L = ks /\ Forall2 (fun e b => header_written (fst e) (snd e) b) L bs /\
    forall k v, In (k, v) L -> sent_headers rand d k = Some v.
Proof.
  intros H. induction H as [|k b ks bs (v & Hv & Hw) _ (L & <- & HF & HD)].
  - exists []. split; [reflexivity|]. split; [constructor|]. intros k v [].
  - exists ((k, v) :: L). split; [reflexivity|]. split; [constructor; assumption|].
    intros k' v' [E|Hin]; [|auto]. assert (k = k' /\ v = v') as [-> ->] by (split; congruence). exact Hv.
Qed.

Lemma aligned w rand m text bytes fs es :
  Forall (fun p => is_dict (dp_headers p)) (slide_parts m) ->
  (forall ty ps, h_get (str "Content-Type") (m_headers m) = Some (HType ty ps) -> is_dict ps) ->
  (forall s, sent_headers rand (m_headers m) (str "MMS-Version") = Some (HStr s) -> (dot_count s <= 1)%nat) ->
  message_written w rand m text bytes ->
  Multipart_message fs es bytes -> fields_are fs (sent_headers rand (m_headers m)) ->
  Forall2 (entry_is w) (smil_part text :: slide_parts m) es ->
  standard_headers rand (m_headers m) /\ Forall (standard_part w) (slide_parts m) /\ m_parts m = [] /\ all_octets text.
Proof.
  intros HP HT HV HW HM [HN HA] HE.
  destruct HW as [firsts others bs hv ty ps ct count smil eb HF1 HNo HO HF2 HC Hv Hct Hcount Hsmil Heb].
  remember (concat firsts ++ concat bs ++ 132 :: ct ++ count ++ 35 :: smil ++ str "application/smil" ++ [0] ++
    str "Content-ID" ++ [0] ++ str "<0000>" ++ [0] ++ text ++ concat eb) as bytes eqn:E.
  destruct HM as [fs fl media ps0 ct0 n nl es el HS HCt Hnl Hn Hes].
  destruct (first_pairs _ _ _ _ HF1) as (L1 & HL1 & HF1' & HD1). clear HF1.
  assert (HLall : forall k h, In (k, h) (L1 ++ others) <->
    sent_headers rand (m_headers m) k = Some h /\ k <> str "Content-Type").
  { intros k h. rewrite in_app_iff, HO. split.
    - intros [Hin|[Hk Hn']].
      + split; [exact (HD1 _ _ Hin)|]. apply (in_map fst) in Hin. rewrite HL1 in Hin. cbn [fst] in Hin.
        intros ->. cbn [first_three In] in Hin. intuition discriminate.
      + split; [exact Hk|]. intros ->. apply Hn'. left. reflexivity.
    - intros [Hk Hne]. destruct (in_dec (list_eq_dec Z.eq_dec) k first_three) as [Hi|Hi].
      + left. rewrite <- HL1 in Hi. apply in_map_iff in Hi. destruct Hi as ([k' v] & Ek & Hin).
        cbn [fst] in Ek. subst k'. pose proof (HD1 _ _ Hin). assert (v = h) as -> by congruence. exact Hin.
      + right. split; [exact Hk|]. intros [X|X]; [exact (Hne (eq_sym X))|exact (Hi X)]. }
  assert (HCT : exists d, hv = HType media d /\ shows_params ps0 d).
  { assert (X : last_value (str "Content-Type") (fs ++ [(str "Content-Type", Media_type media ps0)]) = Some (Media_type media ps0)).
    { apply last_value_In; [exact HN|]. apply in_app_iff. right. left. reflexivity. }
    pose proof (HA (str "Content-Type")) as Y. rewrite X in Y. destruct Y as (h & Y1 & d & -> & Y2).
    exists d. split; [congruence|exact Y2]. }
  destruct HCT as (d & Ed & Hsp).
  assert (d = ps /\ media = ty) as [-> ->] by (destruct Hv as [Hv|(Hv & _)]; split; congruence). subst hv. clear Hv.
  assert (HW : Forall2 (fun e b => header_written (fst e) (snd e) b) (L1 ++ others) (firsts ++ bs))
    by (apply Forall2_app; assumption).
  rewrite (app_assoc (concat firsts) (concat bs)), <- concat_app in E.
  destruct (items_aligned Field header_written shows
    (fun k h => forall s, k = str "MMS-Version" -> h = HStr s -> (dot_count s <= 1)%nat)
    same_name field_aligned (L1 ++ others) (firsts ++ bs) HW fs fl _ _ HS E) as (E' & _ & _ & HF).
  { apply Forall_forall. intros [k h] Hin. cbn [fst snd]. apply HLall in Hin. destruct Hin as [Hk Hne]. split.
    - intros s -> ->. exact (HV s Hk).
    - pose proof (HA k) as X. rewrite Hk in X. destruct (last_value k _) as [v|] eqn:Ev; [|discriminate X].
      apply last_value_In in Ev; [|exact HN]. apply in_app_iff in Ev. destruct Ev as [Ev|[Ev|[]]]; [|exfalso; congruence].
      destruct (sequence_item _ _ _ _ _ HS Ev) as (b & Hb). eauto. }
  { intros k v h Hin Hin'. apply HLall in Hin'. destruct Hin' as [Hk _].
    pose proof (HA k) as X.
    assert (Y : last_value k (fs ++ [(str "Content-Type", Media_type ty ps0)]) = Some v).
    { apply last_value_In; [exact HN|]. apply in_app_iff. left. exact Hin. }
    rewrite Y in X. destruct X as (h1 & X1 & X2). congruence. }
  { intros k v b x Hb X. destruct (field_start _ _ _ Hb) as [(c & y & -> & Hi)|(s & l & [Hk Ht] & _ & _ & _ & ->)].
    - apply numbers_range in Hi. apply (f_equal (hd 0)) in X. cbn [app hd] in X. lia.
    - destruct k as [|z k]; [congruence|]. apply (f_equal (hd 0)) in X. cbn [app hd] in X. apply Forall_inv in Ht. lia. }
  { intros k h b x v b2 Hb Hv X. destruct (header_start _ _ _ Hb) as [(c & y & -> & Hi)|(s & Hk & _ & ->)].
    - apply numbers_range in Hi. apply (f_equal (hd 0)) in X. cbn [app hd] in X. lia.
    - pose proof (field_known _ _ _ Hv Hk) as [Hk' Ht]. destruct k as [|z k]; [congruence|].
      apply (f_equal (hd 0)) in X. cbn [app hd] in X. apply Forall_inv in Ht. lia. }
  cbn [app] in E'. apply (f_equal (@tl Z)) in E'. cbn [tl] in E'.
  assert (HC' : h_get (str "Content-Type") (m_headers m) = Some (HType ty ps)) by exact HC.
  destruct (type_aligned _ _ _ _ _ _ _ HCt Hct (HT _ _ HC') Hsp E') as (-> & -> & Hmedia).
  apply app_inv_head in E'.
  destruct (uintvar_prefix _ _ _ _ _ _ Hnl (uintvar_of_is _ _ Hcount) E') as (En & _ & E2). clear E'.
  assert (Hlen : length es = S (length (slide_parts m))).
  { clear - HE. apply Forall2_same_length in HE. cbn [length] in HE. lia. }
  assert (HS2 : Forall (standard_part w) (smil_part text :: slide_parts m)).
  { pose proof (Forall2_cons _ _ (smil_written w text smil Hsmil) Heb) as F.
    refine (entries_aligned w _ _ F _ es el [] [] Hes HE _).
    { constructor; [|exact HP]. vm_compute. repeat constructor; cbn [In]; intuition discriminate. }
    rewrite !app_nil_r. rewrite E2. cbn [concat app]. rewrite <- !app_assoc. cbn [app]. rewrite <- !app_assoc. reflexivity. }
  inversion HS2 as [|? ? Hs0 Hs]. subst.
  split.
  { split; [unfold has; congruence|]. intros k h Hk. destruct (leqb k (str "Content-Type")) eqn:El.
    - apply leqb_eq in El. subst k. assert (h = HType ty []) as -> by congruence. exists ty. auto.
    - assert (Hin : In (k, h) (L1 ++ others)).
      { apply HLall. split; [exact Hk|]. intros ->. rewrite leqb_refl in El. discriminate. }
      clear - HF HW Hin. revert HF. induction HW as [|e b L bs0 Hw _ IH]; intros HF; [destruct Hin|].
      inversion HF as [|? ? ? ? (v & Hv & Hs) HF3]. subst. destruct Hin as [->|Hin]; [|exact (IH Hin HF3)].
      cbn [fst snd] in *. exact (field_standard _ _ _ _ Hv Hw Hs). }
  split; [exact Hs|]. split.
  { destruct (m_parts m) as [|p l]; [reflexivity|]. cbn [length] in En. lia. }
  destruct Hs0 as (_ & _ & _ & data & [_ Hd|f Hf _ _] & Ho).
  - assert (data = text) as -> by (cbn in Hd; congruence). exact Ho.
  - discriminate Hf.
Qed.

(** C80: exactly which messages are encoded as the standard has it.  [smil] has returned
    [text].  Versions with more than one dot go out as nothing (C47); they are left
    aside. *)
Theorem C80_exact : forall render w rand m text,
  is_dict (m_headers m) -> any_order w ->
  Forall (fun p => is_dict (dp_headers p)) (slide_parts m) ->
  (forall ty ps, h_get (str "Content-Type") (m_headers m) = Some (HType ty ps) -> is_dict ps) ->
  (forall s, sent_headers rand (m_headers m) (str "MMS-Version") = Some (HStr s) -> (dot_count s <= 1)%nat) ->
  smil render w m = Ok text ->
  ((exists bytes m1 fs es, encode render w rand m = (Ok bytes, m1) /\
      Multipart_message fs es bytes /\ fields_are fs (sent_headers rand (m_headers m)) /\
      Forall2 (entry_is w) (smil_part text :: slide_parts m) es) <->
   standard_headers rand (m_headers m) /\ Forall (standard_part w) (slide_parts m) /\
   m_parts m = [] /\ all_octets text).
Proof.
  intros render w rand m text Hd Hw HP HT HV Hs. split.
  - intros (bytes & m1 & fs & es & He & HM & HF & HE).
    destruct (C123_octets _ _ _ _ _ _ Hw Hd He) as (text' & Hs' & HW).
    assert (text' = text) as -> by congruence.
    exact (aligned _ _ _ _ _ _ _ HP HT HV HW HM HF HE).
  - intros (A & B & C & D). exact (C80_message_partial render w rand m text Hd Hw A B C Hs D).
Qed.
Print Assumptions C80_exact.

(** The message of C80_case meets these hypotheses and is encoded as the standard has it;
    with an attached part it is not. *)
Example C80_exact_case :
  let render := fun _ => str "<smil/>" in
  let good m := exists bytes m1 fs es, encode render sample_world 1234 m = (Ok bytes, m1) /\
      Multipart_message fs es bytes /\ fields_are fs (sent_headers 1234 (m_headers m)) /\
      Forall2 (entry_is sample_world) (smil_part (str "<smil/>") :: slide_parts m) es in
  let attached := Message (m_headers sample_message) (m_pages sample_message) [new_part] 176 220 in
  good sample_message /\ (exists b m1, encode render sample_world 1234 attached = (Ok b, m1)) /\ ~ good attached.
Proof.
  intros render good attached.
  destruct C80_case as (Hd & Hw & Hh & HP & _ & Hm & _).
  assert (HD : Forall (fun p => is_dict (dp_headers p)) (slide_parts sample_message)).
  { eapply Forall_impl; [|exact HP]. intros p (X & _). exact X. }
  assert (HT : forall ty ps, h_get (str "Content-Type") (m_headers sample_message) = Some (HType ty ps) -> is_dict ps).
  { intros ty ps X. vm_compute in X. injection X as _ <-. constructor. }
  assert (HV : forall s, sent_headers 1234 (m_headers sample_message) (str "MMS-Version") = Some (HStr s) -> (dot_count s <= 1)%nat).
  { intros s X. vm_compute in X. injection X as <-. vm_compute. lia. }
  assert (Ho : all_octets (str "<smil/>")).
  { apply Forall_forall. intros c Hc. assert (X : forallb (fun c => (0 <=? c) && (c <? 256)) (str "<smil/>") = true) by (vm_compute; reflexivity).
    rewrite forallb_forall in X. specialize (X c Hc). unfold is_octet. lia. }
  split.
  { refine (proj2 (C80_exact render sample_world 1234 sample_message (str "<smil/>") Hd Hw HD HT HV _) _); [vm_compute; reflexivity|].
    split; [exact Hh|]. split; [exact HP|]. split; [exact Hm|exact Ho]. }
  split; [clear; unfold attached, render; eexists; eexists; vm_compute; reflexivity|].
  intros G.
  assert (Hs : smil render sample_world attached = Ok (str "<smil/>")) by (vm_compute; reflexivity).
  change (m_headers sample_message) with (m_headers attached) in Hd, HT, HV.
  change (slide_parts sample_message) with (slide_parts attached) in HD.
  destruct (proj1 (C80_exact render sample_world 1234 attached (str "<smil/>") Hd Hw HD HT HV Hs) G) as (_ & _ & X & _).
  discriminate X.
Qed.
