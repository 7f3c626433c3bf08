(** C126: what is sent after any sequence of calls. *)
From Coq Require Import Lia ZifyBool ZifyNat.
From Verif Require Import Py PyFacts Utils Gsm Submit Setters SpecGsm SpecPack SpecAddress SpecTime
  SpecSubmit SpecCuts SpecUnsent SpecPdus SpecCalls SubmitClaims GsmFacts NumberFacts SubmitFacts SplitFacts
  ToPduFacts UnsentFacts PdusFacts PropSubmit PropSending PropUnsent PropPdus.
Open Scope Z_scope.

(** The object after a call. *)
Definition makes (c : call) (s : submit) : submit :=
  match c with
  | PutNumber v => snd (set_number v s)
  | PutCentre v => snd (set_csca v s)
  | PutClass v => snd (set_klass_value v s)
  | PutValidity v => snd (set_validity_value v s)
  | PutStatus b => with_request_status b s
  | PutRef v => with_ref v s
  | PutPartsRef v => with_rand_id v s
  | PutPid p => with_pid p s
  | PutText t => with_text t s
  | PutCoding v => with_fmt v s
  | Convert => snd (to_pdu s)
  end.
Definition after_calls (cs : list call) (s : submit) : submit := fold_left (fun s c => makes c s) cs s.

(** Dates are dates of Python. *)
Definition python_dates (cs : list call) : Prop :=
  forall d, In (PutValidity (VDatetime d)) cs -> python_date (Absolute d).

(** * The last value given *)

Lemma given_keep {A} (P : call -> A -> Prop) init cs a c :
  last_given P init cs a -> (forall a', ~ P c a') -> last_given P init (cs ++ [c]) a.
Proof.
  intros [cs' N|b c0 a0 af Hp N] Hc.
  - apply given_never. intros c' a' I. apply in_app_iff in I. destruct I as [I|[<-|[]]]; [now apply N|apply Hc].
  - rewrite <- app_assoc. cbn [app]. apply given_last; [exact Hp|]. intros c' a' I.
    apply in_app_iff in I. destruct I as [I|[<-|[]]]; [now apply N|apply Hc].
Qed.

Lemma given_new {A} (P : call -> A -> Prop) init cs a c : P c a -> last_given P init (cs ++ [c]) a.
Proof. intros H. apply given_last; [exact H|]. intros c' a' []. Qed.

Lemma given_nil {A} (P : call -> A -> Prop) init : last_given P init [] init.
Proof. apply given_never. intros c a []. Qed.

Lemma given_snoc {A} (P : call -> A -> Prop) init cs c a : last_given P init (cs ++ [c]) a ->
  P c a \/ ((forall a', ~ P c a') /\ last_given P init cs a).
Proof.
  intros H. remember (cs ++ [c]) as l eqn:E. destruct H as [l N|b c0 a af Hp N].
  - subst l. right. split.
    + intros a'. apply N. apply in_app_iff. right. now left.
    + apply given_never. intros c' a' I. apply N. apply in_app_iff. now left.
  - destruct af as [|x af _] using rev_ind.
    + apply app_inj_tail in E. destruct E as (-> & ->). now left.
    + change (b ++ c0 :: af ++ [x]) with (b ++ (c0 :: af) ++ [x]) in E. rewrite app_assoc in E.
      apply app_inj_tail in E. destruct E as (<- & ->). right. split.
      * intros a'. apply N. apply in_app_iff. right. now left.
      * apply given_last; [exact Hp|]. intros c' a' I. apply N. apply in_app_iff. now left.
Qed.

Lemma given_fun {A} (P : call -> A -> Prop) init :
  (forall c a b, P c a -> P c b -> a = b) ->
  forall cs a b, last_given P init cs a -> last_given P init cs b -> a = b.
Proof.
  intros F cs. induction cs as [|c cs IH] using rev_ind; intros a b Ha Hb.
  - assert (forall x, last_given P init [] x -> x = init) as K.
    { intros x H. remember [] as l eqn:E. destruct H as [|b0 c0 a0 af]; [reflexivity|].
      destruct b0; discriminate E. }
    rewrite (K a Ha), (K b Hb). reflexivity.
  - apply given_snoc in Ha, Hb. destruct Ha as [Ha|(Na & Ha)], Hb as [Hb|(Nb & Hb)].
    + exact (F _ _ _ Ha Hb).
    + destruct (Nb _ Ha).
    + destruct (Na _ Hb).
    + exact (IH _ _ Ha Hb).
Qed.

Ltac gives_fun := intros c a b H1 H2; inversion H1; subst; inversion H2; subst; reflexivity.
Lemma number_fun : forall c a b, gives_number c a -> gives_number c b -> a = b. Proof. gives_fun. Qed.
Lemma centre_fun : forall c a b, gives_centre c a -> gives_centre c b -> a = b. Proof. gives_fun. Qed.
Lemma class_fun : forall c a b, gives_class c a -> gives_class c b -> a = b. Proof. gives_fun. Qed.
Lemma validity_fun : forall c a b, gives_validity c a -> gives_validity c b -> a = b. Proof. gives_fun. Qed.
Lemma status_fun : forall c a b, gives_status c a -> gives_status c b -> a = b. Proof. gives_fun. Qed.
Lemma parts_ref_fun : forall c a b, gives_parts_ref c a -> gives_parts_ref c b -> a = b. Proof. gives_fun. Qed.
Lemma pid_fun : forall c a b, gives_pid c a -> gives_pid c b -> a = b. Proof. gives_fun. Qed.
Lemma text_fun : forall c a b, gives_text c a -> gives_text c b -> a = b. Proof. gives_fun. Qed.

(** * What [to_pdu] leaves behind *)

(** The queue of references after [k] draws. *)
Definition queue (k : Z) (l : list Z) : Prop :=
  exists j, (j <= 255)%nat /\ l = map Z.of_nat (seq j (255 - j)) /\ k mod 255 = Z.of_nat j mod 255.

Lemma queue_draw k l i l' : queue k l -> i :: l' = match l with [] => id_range | _ => l end ->
  i = k mod 255 /\ queue (k + 1) l'.
Proof.
  intros (j & Hj & -> & Hk) E.
  destruct (Nat.eq_dec j 255) as [->|N].
  - change (map Z.of_nat (seq 255 (255 - 255))) with (@nil Z) in E.
    change id_range with (0 :: map Z.of_nat (seq 1 254)) in E. injection E as -> ->.
    change (Z.of_nat 255 mod 255) with 0 in Hk. split; [lia|].
    exists 1%nat. split; [lia|]. split; [reflexivity|].
    rewrite Z.add_mod, Hk by lia. reflexivity.
  - replace (255 - j)%nat with (S (255 - S j)) in E by lia. cbn [seq map] in E.
    injection E as -> ->. split; [lia|].
    exists (S j). split; [lia|]. split; [reflexivity|].
    rewrite Z.add_mod, Hk, <- Z.add_mod by lia. f_equal. lia.
Qed.

Lemma queue_next k s : queue k (s_id_list s) ->
  nth 0 (to_draw s) 0 = k mod 255 /\ nth 1 (to_draw s) 0 = (k + 1) mod 255.
Proof.
  intros Q. destruct (s_id_list s) as [|i l] eqn:E.
  - destruct (queue_draw k [] 0 (map Z.of_nat (seq 1 254)) Q eq_refl) as (A & B).
    destruct (queue_draw (k + 1) _ 1 (map Z.of_nat (seq 2 253)) B eq_refl) as (C & _).
    rewrite <- A, <- C. unfold to_draw. rewrite E. split; reflexivity.
  - destruct (queue_draw k (i :: l) i l Q eq_refl) as (A & B). unfold to_draw. rewrite E. cbn [app nth].
    split; [exact A|]. destruct l as [|x l].
    + destruct (queue_draw (k + 1) _ 0 (map Z.of_nat (seq 1 254)) B eq_refl) as (C & _).
      rewrite <- C. reflexivity.
    + destruct (queue_draw (k + 1) _ x l B eq_refl) as (C & _). exact C.
Qed.

(** The same attributes apart from the queue and the text in the GSM alphabet. *)
Definition like (s s' : submit) : Prop := s_fmt s' = s_fmt s /\ s_ref s' = s_ref s.

Lemma split_state fmt text s k : fmt = 0 \/ fmt = 4 \/ fmt = 8 ->
  Forall (fun i => 0 <= i < 255) (s_id_list s) -> queue k (s_id_list s) ->
  like s (snd (split_sms_message fmt text s)) /\
  queue (k + match s_rand_id s with None => 1 | Some _ => 0 end)
        (s_id_list (snd (split_sms_message fmt text s))).
Proof.
  intros Hf Hid Q. unfold split_sms_message.
  assert (exists parts, split_text (chars text)
    (if fmt =? 0 then SEVENBIT_MP_SIZE else if fmt =? 4 then EIGHTBIT_MP_SIZE else UCS2_MP_SIZE) = Ok parts)
    as (parts & ->).
  { eexists. apply split_text_cut. destruct Hf as [->|[->| ->]]; cbv; discriminate. }
  unfold st_bind, st_lift, st_get, st_ret. destruct (s_rand_id s) as [x|] eqn:Er.
  - split; [split; reflexivity|]. now rewrite Z.add_0_r.
  - destruct (rand_id_ok s Hid) as (i & l & E & _ & _ & D). rewrite E.
    destruct (queue_draw k _ i l Q D) as (_ & Q'). split; [split; reflexivity|exact Q'].
Qed.


Lemma takes_fixed t c : takes_parts t c -> c = 0 \/ c = 4 \/ c = 8.
Proof. intros []; auto. Qed.

Lemma message_state c t s k : Forall (fun i => 0 <= i < 255) (s_id_list s) -> queue k (s_id_list s) ->
  like s (snd (message_ud c t s)) /\
  exists b, (takes_parts t c /\ s_rand_id s = None /\ b = 1 \/
             ~ (takes_parts t c /\ s_rand_id s = None) /\ b = 0) /\
            queue (k + b) (s_id_list (snd (message_ud c t s))).
Proof.
  intros Hid Q.
  assert (S : forall f x s0, f = 0 \/ f = 4 \/ f = 8 -> s_id_list s0 = s_id_list s ->
      s_rand_id s0 = s_rand_id s -> like s s0 -> takes_parts t c ->
      like s (snd (split_sms_message f x s0)) /\
      exists b, (takes_parts t c /\ s_rand_id s = None /\ b = 1 \/
             ~ (takes_parts t c /\ s_rand_id s = None) /\ b = 0) /\
            queue (k + b) (s_id_list (snd (split_sms_message f x s0)))).
  { intros f x s0 Hf E1 E2 (L1 & L2) T.
    destruct (split_state f x s0 k Hf) as ((A & B) & C); [rewrite E1; exact Hid|rewrite E1; exact Q|].
    split; [split; congruence|]. rewrite E2 in C. eexists. split; [|exact C].
    destruct (s_rand_id s); [right|left]; auto. split; [intros (_ & X); discriminate|reflexivity]. }
  assert (K : forall s0, s_id_list s0 = s_id_list s -> like s s0 -> ~ takes_parts t c ->
      like s s0 /\ exists b, (takes_parts t c /\ s_rand_id s = None /\ b = 1 \/
             ~ (takes_parts t c /\ s_rand_id s = None) /\ b = 0) /\ queue (k + b) (s_id_list s0)).
  { intros s0 E L N. split; [exact L|]. exists 0. split; [right; tauto|]. now rewrite E, Z.add_0_r. }
  unfold message_ud.
  destruct (c =? 0) eqn:E0; [assert (c = 0) as -> by lia|
    destruct (c =? 4) eqn:E4; [assert (c = 4) as -> by lia|
      destruct (c =? 8) eqn:E8; [assert (c = 8) as -> by lia|]]].
  - unfold st_bind, st_lift, st_upd, st_ret. destruct (gsm_encode t) as [g|e] eqn:Eg.
    2:{ apply K; [reflexivity|split; reflexivity|]. intros T.
        inversion T as [g G _ _| |]; subst. apply is_gsm_text_spec in G. unfold is_gsm_text in G.
        rewrite Eg in G. discriminate. }
    assert (G : in_gsm t).
    { unfold in_gsm. apply is_gsm_text_spec. unfold is_gsm_text. rewrite Eg. reflexivity. }
    apply gsm_encode_text in Eg as [_ Hg].
    destruct (zlen g <=? SEVENBIT_SIZE) eqn:L; unfold SEVENBIT_SIZE, zlen in L.
    + assert (N : ~ takes_parts t 0).
      { intros T. inversion T as [g' _ G' L'| |]; subst. rewrite (gsm_text_det _ _ _ G' Hg) in L'. lia. }
      destruct (pack_8bits_to_7bits g None); cbn [snd]; apply K; try reflexivity; auto; split; reflexivity.
    + apply S; auto; [split; reflexivity|]. apply (tp_gsm t g); auto. lia.
  - destruct (zlen (chars t) <=? EIGHTBIT_SIZE) eqn:L; unfold EIGHTBIT_SIZE, zlen in L.
    + assert (N : ~ takes_parts t 4) by (intros T; inversion T; subst; lia).
      unfold st_bind, st_lift, st_ret.
      destruct (pack_8bits_to_8bit t None); cbn [snd]; apply K; try reflexivity; auto; split; reflexivity.
    + apply S; auto; [split; reflexivity|]. apply tp_8bit. lia.
  - destruct (zlen (chars t) <=? UCS2_SIZE) eqn:L; unfold UCS2_SIZE, zlen in L.
    + assert (N : ~ takes_parts t 8) by (intros T; inversion T; subst; lia).
      unfold st_bind, st_lift, st_ret.
      destruct (pack_8bits_to_ucs2 t None); cbn [snd]; apply K; try reflexivity; auto; split; reflexivity.
    + apply S; auto; [split; reflexivity|]. apply tp_ucs2. lia.
  - apply K; [reflexivity|split; reflexivity|]. intros T. apply takes_fixed in T. lia.
Qed.

Definition far (s : submit) : Prop := (exists n c, s_number s = Some (c :: n)) /\ octet (s_pid s).
Definition drawing (s : submit) : Prop :=
  far s /\ expressible (s_validity s) /\ takes_parts (s_text s) (coding_of s) /\ s_rand_id s = None.

Lemma convert_state s k : wf_submit s -> python_date (s_validity s) -> queue k (s_id_list s) ->
  let s' := snd (to_pdu s) in
  s_ref s' = Some (match s_ref s with Some x => x mod 256 | None => k mod 255 end) /\
  (far s /\ s_fmt s' = Some (coding_of s) \/ ~ far s /\ s_fmt s' = s_fmt s) /\
  exists b, (drawing s /\ b = 1 \/ ~ drawing s /\ b = 0) /\
    queue (k + match s_ref s with Some _ => 0 | None => 1 end + b) (s_id_list s').
Proof.
  intros Hwf Hv Q s'. pose proof Hwf as (Hnum & _ & Hk & Hid).
  destruct (tpmessref_ok s Hid) as (mr & l & Er & Hmr & Hl & Hd).
  assert (HR : mr = match s_ref s with Some x => x mod 256 | None => k mod 255 end /\
               queue (k + match s_ref s with Some _ => 0 | None => 1 end) l).
  { destruct (s_ref s).
    - destruct Hd as (-> & ->). rewrite Z.add_0_r. auto.
    - apply queue_draw with (l := s_id_list s); auto. }
  destruct HR as (Hmr' & Ql). rewrite <- Hmr'.
  remember (k + match s_ref s with Some _ => 0 | None => 1 end) as k' eqn:Ek'. clear Ek' Hmr' Hd.
  assert (E1 : forall s1, snd (to_pdu s) = s1 -> s_ref s1 = Some mr -> s_fmt s1 = s_fmt s -> s_id_list s1 = l ->
     ~ far s -> s_ref s' = Some mr /\
  (far s /\ s_fmt s' = Some (coding_of s) \/ ~ far s /\ s_fmt s' = s_fmt s) /\
  exists b, (drawing s /\ b = 1 \/ ~ drawing s /\ b = 0) /\ queue (k' + b) (s_id_list s')).
  { intros s1 E A B C N. subst s'. rewrite E, A, B, C. split; [reflexivity|]. split; [auto|].
    exists 0. rewrite Z.add_0_r. split; [|exact Ql]. right. unfold drawing. tauto. }
  assert (E2 : forall s1, snd (to_pdu s) = s1 -> far s -> (s_ref s1 = Some mr /\ s_fmt s1 = Some (coding_of s)) ->
     (exists b, (drawing s /\ b = 1 \/ ~ drawing s /\ b = 0) /\ queue (k' + b) (s_id_list s1)) ->
     s_ref s' = Some mr /\
  (far s /\ s_fmt s' = Some (coding_of s) \/ ~ far s /\ s_fmt s' = s_fmt s) /\
  exists b, (drawing s /\ b = 1 \/ ~ drawing s /\ b = 0) /\ queue (k' + b) (s_id_list s')).
  { intros s1 E F (A & B) C. subst s'. rewrite E, A, B. auto. }
  clearbody s'.
  unfold to_pdu, st_bind, st_get, st_lift in E1, E2.
  destruct (smsc_pdu_ok s Hwf) as (sm & v & Esm & _). rewrite Esm in E1, E2.
  rewrite !submit_octet, Er in E1, E2.
  destruct (s_number s) as [[|c n]|] eqn:En.
  1:{ replace (get_phone_pdu s) with (Err IndexError : res (list Z)) in E1
        by (unfold get_phone_pdu; rewrite En; reflexivity).
      eapply E1; try reflexivity. intros ((n & c & X) & _). congruence. }
  2:{ replace (get_phone_pdu s) with (Err AttributeError : res (list Z)) in E1
        by (unfold get_phone_pdu; rewrite En; reflexivity).
      eapply E1; try reflexivity. intros ((n & c & X) & _). congruence. }
  cbn [settable] in Hnum. destruct Hnum as (intl & ds & Hn).
  destruct (phone_pdu_spec s intl ds _ En Hn) as (os & _ & Eph). rewrite Eph in E1, E2.
  unfold get_tppid_pdu in E1, E2. unfold py_chr in E1 at 1. unfold py_chr in E2 at 1.
  destruct ((0 <=? s_pid s) && (s_pid s <? 256)) eqn:Ep; cbn [bind] in E1, E2.
  2:{ eapply E1; try reflexivity. intros (_ & X). unfold octet in X. lia. }
  clear E1. assert (F : far s) by (split; [eauto|unfold octet; lia]).
  rewrite get_msg_pdu_eq, coding_ref_state in E2. cbn [s_klass s_validity s_text with_ref with_id_list] in E2.
  destruct (py_chr (dcs_of (coding_of s) (s_klass s))) as [c'|e] eqn:Ec.
  2:{ eapply E2; [reflexivity|exact F|split; reflexivity|]. exists 0. rewrite Z.add_0_r. split; [|exact Ql].
      right. split; [|reflexivity]. intros (_ & _ & T & _). apply takes_fixed in T.
      destruct (dcs_of_octet (coding_of s) (s_klass s) T Hk) as [Y Z].
      rewrite Y, py_chr_octet in Ec by exact Z. discriminate. }
  destruct (validity_out (s_validity s) Hv) as [(vp & Evp & V1 & V2)|(Evp & V)]; rewrite Evp in E2.
  2:{ eapply E2; [reflexivity|exact F|split; reflexivity|]. exists 0. rewrite Z.add_0_r. split; [|exact Ql].
      right. split; [|reflexivity]. intros (_ & X & _). unfold expressible in X.
      destruct V as [(t & A & B)|(d & A & B)]; rewrite A in X; lia. }
  assert (X : expressible (s_validity s)).
  { unfold expressible. destruct (s_validity s) as [|t|d]; [exact I| |auto].
    specialize (V1 t eq_refl). lia. }
  pose proof (message_state (coding_of s) (s_text s) (fmt_state (with_ref (Some mr) (with_id_list l s))) k' Hl Ql) as U.
  cbn [fmt_state s_rand_id with_ref with_id_list with_dcs with_fmt] in U.
  assert (D : forall b, takes_parts (s_text s) (coding_of s) /\ s_rand_id s = None /\ b = 1 \/
             ~ (takes_parts (s_text s) (coding_of s) /\ s_rand_id s = None) /\ b = 0 ->
             drawing s /\ b = 1 \/ ~ drawing s /\ b = 0) by (unfold drawing; tauto).
  change (with_dcs _ (with_fmt _ _)) with (fmt_state (with_ref (Some mr) (with_id_list l s))) in U.
  destruct (message_ud (coding_of s) (s_text s) (fmt_state (with_ref (Some mr) (with_id_list l s)))) as [[ms|e] s1].
  2:{ destruct U as ((A & B) & b & C & Q'). eapply E2; [reflexivity|exact F|split; [exact B|exact A]|].
      exists b. split; [apply D; exact C|exact Q']. }
  destruct U as ((A & B) & b & C & Q'). cbn [snd] in *.
  eapply E2; [|exact F|split; [exact B|exact A]|exists b; split; [apply D; exact C|exact Q']].
  destruct ms as [|m [|m2 ms]]; reflexivity.
Qed.

(** * After any sequence of calls *)

Lemma makes_reachable c s : reachable s -> reachable (makes c s).
Proof.
  intros H. destruct c as [v|v|v|v|b|v|v|p|t|v|]; cbn [makes]; try (constructor; exact H).
  - destruct v; cbn [set_klass_value]; try exact H; constructor; exact H.
  - destruct v; cbn [set_validity_value]; try exact H; unfold st_upd; cbn [snd]; constructor; exact H.
Qed.

Lemma after_reachable cs : forall s, reachable s -> reachable (after_calls cs s).
Proof. induction cs as [|c cs IH]; intros s H; [exact H|]. apply IH. now apply makes_reachable. Qed.

Lemma after_snoc cs c s : after_calls (cs ++ [c]) s = makes c (after_calls cs s).
Proof. unfold after_calls. now rewrite fold_left_app. Qed.

Definition settings (n0 : option (list Z)) (t0 : pystr) (cs : list call) (s : submit) : Prop :=
  last_given gives_number n0 cs (s_number s) /\ last_given gives_centre None cs (s_csca s) /\
  last_given gives_class None cs (s_klass s) /\ last_given gives_validity NoValidity cs (s_validity s) /\
  last_given gives_status false cs (s_request_status s) /\
  last_given gives_parts_ref None cs (s_rand_id s) /\
  last_given gives_pid 0 cs (s_pid s) /\ last_given gives_text t0 cs (s_text s).

Lemma number_ok v : (match v with None | Some [] => True | Some n => valid_number n = true end) <-> phone_number v.
Proof.
  unfold phone_number. destruct v as [[|c n]|].
  - tauto.
  - rewrite valid_number_spec. split.
    + intros (i & ds & H). right. right. eauto.
    + intros [X|[X|(i & ds & n' & X & H)]]; try discriminate. injection X as <-. eauto.
  - tauto.
Qed.

Lemma settings_step n0 t0 cs c s : settings n0 t0 cs s -> settings n0 t0 (cs ++ [c]) (makes c s).
Proof.
  intros (S1 & S2 & S3 & S4 & S5 & S6 & S7 & S8).
  assert (K : forall A (P : call -> A -> Prop) i a, last_given P i cs a -> (forall a', ~ P c a') ->
    last_given P i (cs ++ [c]) a) by (intros; now apply given_keep).
  assert (M : c <> Convert -> forall s',
    (gives_number c (s_number s') \/ (forall a, ~ gives_number c a) /\ s_number s' = s_number s) ->
    (gives_centre c (s_csca s') \/ (forall a, ~ gives_centre c a) /\ s_csca s' = s_csca s) ->
    (gives_class c (s_klass s') \/ (forall a, ~ gives_class c a) /\ s_klass s' = s_klass s) ->
    (gives_validity c (s_validity s') \/ (forall a, ~ gives_validity c a) /\ s_validity s' = s_validity s) ->
    (gives_status c (s_request_status s') \/ (forall a, ~ gives_status c a) /\ s_request_status s' = s_request_status s) ->
    (gives_parts_ref c (s_rand_id s') \/ (forall a, ~ gives_parts_ref c a) /\ s_rand_id s' = s_rand_id s) ->
    (gives_pid c (s_pid s') \/ (forall a, ~ gives_pid c a) /\ s_pid s' = s_pid s) ->
    (gives_text c (s_text s') \/ (forall a, ~ gives_text c a) /\ s_text s' = s_text s) ->
    settings n0 t0 (cs ++ [c]) s').
  { intros _ s' H1 H2 H3 H4 H5 H6 H7 H8. unfold settings.
    split; [|split; [|split; [|split; [|split; [|split; [|split]]]]]];
    match goal with |- last_given ?P _ _ (?f s') =>
      match goal with H : P c (f s') \/ _ |- _ =>
        destruct H as [H|(N & ->)]; [now apply given_new|now apply K] end end. }
  assert (R : forall s', same_settings s s' -> forall x, c = x -> (forall a, ~ gives_number x a) ->
    (forall a, ~ gives_centre x a) -> (forall a, ~ gives_class x a) -> (forall a, ~ gives_validity x a) ->
    (forall a, ~ gives_status x a) -> (forall a, ~ gives_parts_ref x a) -> (forall a, ~ gives_pid x a) ->
    (forall a, ~ gives_text x a) -> settings n0 t0 (cs ++ [c]) s').
  { intros s' (A1 & A2 & A3 & A4 & A5 & A6 & A7 & A8) x ->. intros. unfold settings.
    rewrite A1, A2, A3, A4, A5, A6, A7, A8. repeat split; apply K; assumption. }
  destruct c as [v|v|v|v|b|v|v|p|t|v|]; cbn [makes].
  - destruct (match v with None | Some [] => true | Some n => valid_number n end) eqn:E.
    + apply M; [discriminate|..]; try (right; split; [intros a X; inversion X; fail|]).
      all: unfold set_number; destruct v as [[|c n]|]; try rewrite E; try reflexivity.
      all: left; constructor; apply number_ok; try exact I; exact E.
    + eapply R; [|reflexivity|..]; try (intros a X; inversion X; fail).
      * unfold set_number; destruct v as [[|c n]|]; try rewrite E; try discriminate. apply same_refl.
      * intros a X. inversion X as [w Hw]; subst. apply number_ok in Hw.
        destruct a as [[|c n]|]; congruence.
  - destruct (match v with None | Some [] => true | Some n => valid_number n end) eqn:E.
    + apply M; [discriminate|..]; try (right; split; [intros a X; inversion X; fail|]).
      all: unfold set_csca; destruct v as [[|c n]|]; try rewrite E; try reflexivity.
      all: left; constructor; apply number_ok; try exact I; exact E.
    + eapply R; [|reflexivity|..]; try (intros a X; inversion X; fail).
      * unfold set_csca; destruct v as [[|c n]|]; try rewrite E; try discriminate. apply same_refl.
      * intros a X. inversion X as [w Hw]; subst. apply number_ok in Hw.
        destruct a as [[|c n]|]; congruence.
  - destruct v as [|b|n|n|t|d|].
    all: try (eapply R; [apply same_refl|reflexivity|..]; intros a X; inversion X; fail).
    + apply M; [discriminate|..]; try (right; split; [intros a X; inversion X; fail|destruct b; reflexivity]).
      left. destruct b; constructor.
    + cbn [set_klass_value]. unfold set_klass. destruct ((0 <=? n) && (n <=? 3)) eqn:E.
      * apply M; [discriminate|..]; try (right; split; [intros a X; inversion X; fail|reflexivity]).
        left. constructor. lia.
      * eapply R; [apply same_refl|reflexivity|..]; intros a X; inversion X; subst; lia.
  - destruct v as [|b|n|n|t|d|].
    all: try (eapply R; [apply same_refl|reflexivity|..]; intros a X; inversion X; fail).
    all: apply M; [discriminate|..]; try (right; split; [intros a X; inversion X; fail|reflexivity]); left; constructor.
  - apply M; [discriminate|..]; try (right; split; [intros a X; inversion X; fail|reflexivity]); left; constructor.
  - apply M; [discriminate|..]; try (right; split; [intros a X; inversion X; fail|reflexivity]); left; constructor.
  - apply M; [discriminate|..]; try (right; split; [intros a X; inversion X; fail|reflexivity]); left; constructor.
  - apply M; [discriminate|..]; try (right; split; [intros a X; inversion X; fail|reflexivity]); left; constructor.
  - apply M; [discriminate|..]; try (right; split; [intros a X; inversion X; fail|reflexivity]); left; constructor.
  - apply M; [discriminate|..]; try (right; split; [intros a X; inversion X; fail|reflexivity]); left; constructor.
  - eapply R; [|reflexivity|..]; try (intros a X; inversion X; fail).
    destruct (to_pdu s) as [r s'] eqn:E. exact (C94_settings _ _ _ E).
Qed.

Lemma given_date cs v : last_given gives_validity NoValidity cs v -> python_dates cs -> python_date v.
Proof.
  intros H D. destruct H as [cs' N|b c a af G N]; [intros d X; discriminate|].
  destruct G as [|t|d]; intros d' X; try discriminate. injection X as <-.
  exact (D d ltac:(apply in_app_iff; right; now left) d eq_refl).
Qed.

Lemma dates_before cs c : python_dates (cs ++ [c]) -> python_dates cs.
Proof. intros H d I. apply H. apply in_app_iff. now left. Qed.

(** The two readings of a call that gets far. *)
Lemma far_reaches n0 t0 cs s : settings n0 t0 cs s -> (far s <-> reaches_text n0 cs).
Proof.
  intros (S1 & _ & _ & _ & _ & _ & S7 & _). split.
  - intros ((n & c & E) & O). rewrite E in S1. split; eauto.
  - intros ((n & c & E) & (p & G & O)). split.
    + exists n, c. exact (given_fun _ _ number_fun _ _ _ S1 E).
    + now rewrite (given_fun _ _ pid_fun _ _ _ S7 G).
Qed.

Lemma drawing_draws n0 t0 cs s c' : settings n0 t0 cs s ->
  far s /\ c' = Some (coding_of s) \/ ~ far s ->
  (drawing s <-> draws_for_parts n0 t0 cs c').
Proof.
  intros S H. pose proof (far_reaches _ _ _ _ S) as F. destruct S as (_ & _ & _ & S4 & _ & S6 & _ & S8). split.
  - intros (A & B & C & D). destruct H as [(_ & ->)|H]; [|contradiction].
    rewrite D in S6. eapply dp_draws; eauto. now apply F.
  - intros W. destruct W as [v t c R V X T P G]. apply F in R.
    assert (c = coding_of s) as -> by (destruct H as [(_ & H)|H]; [congruence|contradiction]). unfold drawing. split; [exact R|].
    rewrite (given_fun _ _ validity_fun _ _ _ S4 V), (given_fun _ _ text_fun _ _ _ S8 T).
    split; [exact X|]. split; [exact P|]. exact (given_fun _ _ parts_ref_fun _ _ _ S6 G).
Qed.

Lemma tells_inv n0 t0 cs s0 : new_submit n0 t0 = Ok s0 -> python_dates cs ->
  settings n0 t0 cs (after_calls cs s0) /\
  exists k, stands n0 t0 cs (s_fmt (after_calls cs s0)) (s_ref (after_calls cs s0)) k /\
    queue k (s_id_list (after_calls cs s0)).
Proof.
  intros E0. induction cs as [|c cs IH] using rev_ind; intros D.
  - cbn [after_calls fold_left].
    assert (s0 = with_number n0 (Submit None None None NoValidity false None None id_range 0 t0 None None None)) as ->.
    { unfold new_submit, set_number in E0. destruct n0 as [[|c n]|]; try (destruct (valid_number _));
      unfold st_upd, st_err in E0; congruence. }
    split; [repeat split; apply given_nil|]. exists 0. split; [constructor|]. exists 0%nat.
    split; [lia|]. split; reflexivity.
  - specialize (IH (dates_before _ _ D)). destruct IH as (S & k & T & Q).
    pose proof (after_reachable cs s0 ltac:(eapply r_new; exact E0)) as Hr.
    rewrite after_snoc. split; [now apply settings_step|].
    set (s := after_calls cs s0) in *.
    assert (O : (forall v, c <> PutCoding v) -> (forall v, c <> PutRef v) -> c <> Convert ->
      s_fmt (makes c s) = s_fmt s -> s_ref (makes c s) = s_ref s -> s_id_list (makes c s) = s_id_list s ->
      exists k, stands n0 t0 (cs ++ [c]) (s_fmt (makes c s)) (s_ref (makes c s)) k /\
        queue k (s_id_list (makes c s))).
    { intros A B C -> -> ->. exists k. split; [now apply sd_other|exact Q]. }
    destruct c as [v|v|v|v|b|v|v|p|t|v|].
    + apply O; try discriminate; cbn [makes]; unfold set_number; destruct v as [[|c n]|];
        try destruct (valid_number _); reflexivity.
    + apply O; try discriminate; cbn [makes]; unfold set_csca; destruct v as [[|c n]|];
        try destruct (valid_number _); reflexivity.
    + apply O; try discriminate; cbn [makes]; destruct v; cbn [set_klass_value]; unfold set_klass;
        try destruct (_ && _); reflexivity.
    + apply O; try discriminate; cbn [makes]; destruct v; reflexivity.
    + apply O; try discriminate; reflexivity.
    + exists k. split; [|exact Q]. cbn [makes]. eapply (sd_ref n0 t0 cs); exact T.
    + apply O; try discriminate; reflexivity.
    + apply O; try discriminate; reflexivity.
    + apply O; try discriminate; reflexivity.
    + exists k. split; [|exact Q]. cbn [makes]. eapply (sd_coding n0 t0 cs); exact T.
    + pose proof (reachable_wf _ Hr) as Hwf.
      assert (Hv : python_date (s_validity s)).
      { destruct S as (_ & _ & _ & S4 & _). eapply given_date; [exact S4|]. eapply dates_before; exact D. }
      destruct (convert_state s k Hwf Hv Q) as (A & B & b & C & Q').
      exists (k + match s_ref s with Some _ => 0 | None => 1 end + b).
      split; [|exact Q']. cbn [makes]. rewrite A.
      pose proof (far_reaches _ _ _ _ S) as F.
      assert (N : chosen n0 t0 cs (s_fmt s) (s_fmt (snd (to_pdu s)))).
      { assert (St := S). destruct St as (_ & _ & _ & _ & _ & _ & _ & S8).
        destruct (s_fmt s) as [f|] eqn:Ef.
        - destruct B as [(_ & ->)|(_ & ->)]; [unfold coding_of; rewrite Ef|]; constructor.
        - destruct B as [(X & ->)|(X & ->)]; [|constructor; rewrite <- F; exact X].
          apply F in X. unfold coding_of. rewrite Ef. pose proof (is_gsm_text_spec (s_text s)) as G.
          destruct (is_gsm_text (Some (s_text s))).
          + eapply ch_gsm; eauto. now apply G.
          + eapply ch_ucs2; eauto. intros Y. apply G in Y. discriminate. }
      apply sd_convert with (c := s_fmt s); [exact T|exact N|destruct (s_ref s); [right|left]; split; congruence|].
      rewrite <- (drawing_draws n0 t0 cs s _ S); [exact C|]. destruct B as [(X & Y)|(X & _)]; auto.
Qed.

(** C126: after any calls in any order, refused assignments and failing calls of
    [to_pdu] included, the attributes are those SpecCalls.v tells from the calls. *)
Theorem C126_after : forall n0 t0 s0 cs, new_submit n0 t0 = Ok s0 -> python_dates cs ->
  tells n0 t0 cs (after_calls cs s0).
Proof.
  intros n0 t0 s0 cs E D.
  destruct (tells_inv n0 t0 cs s0 E D) as ((S1 & S2 & S3 & S4 & S5 & S6 & S7 & S8) & k & T & Q).
  constructor; try assumption. exists k. split; [exact T|]. now apply queue_next.
Qed.
Print Assumptions C126_after.

(** * SpecCalls.v leaves no choice *)

Lemma chosen_fun n0 t0 cs c a b : chosen n0 t0 cs c a -> chosen n0 t0 cs c b -> a = b.
Proof.
  intros H1 H2. destruct H1 as [x|N|t R T G|t R T G]; inversion H2 as [y|N2|t2 R2 T2 G2|t2 R2 T2 G2]; subst;
    try reflexivity; try contradiction; rewrite (given_fun _ _ text_fun _ _ _ T T2) in *; contradiction.
Qed.

Theorem C126_stands_once : forall n0 t0 cs c r k c' r' k',
  stands n0 t0 cs c r k -> stands n0 t0 cs c' r' k' -> c = c' /\ r = r' /\ k = k'.
Proof.
  intros n0 t0 cs c r k c' r' k' H. revert c' r' k'. induction H as
    [|cs c r k v H IH|cs c r k v H IH|cs c r k c1 a b H IH N A B|cs c r k x H IH X1 X2 X3];
    intros c' r' k' H'.
  - remember [] as l eqn:E. destruct H'; try (destruct cs; discriminate E). auto.
  - remember (cs ++ [PutCoding v]) as l eqn:E. destruct H' as
      [|cs' c2 r2 k2 v2 H2|cs' c2 r2 k2 v2 H2|cs' c2 r2 k2 c3 a2 b2 H2 N2 A2 B2|cs' c2 r2 k2 x2 H2 Y1 Y2 Y3];
      [destruct cs; discriminate E|apply app_inj_tail in E; destruct E as (-> & E)..].
    + injection E as ->. destruct (IH _ _ _ H2) as (_ & -> & ->). auto.
    + discriminate.
    + discriminate.
    + now destruct (Y1 v).
  - remember (cs ++ [PutRef v]) as l eqn:E. destruct H' as
      [|cs' c2 r2 k2 v2 H2|cs' c2 r2 k2 v2 H2|cs' c2 r2 k2 c3 a2 b2 H2 N2 A2 B2|cs' c2 r2 k2 x2 H2 Y1 Y2 Y3];
      [destruct cs; discriminate E|apply app_inj_tail in E; destruct E as (-> & E)..].
    + discriminate.
    + injection E as ->. destruct (IH _ _ _ H2) as (-> & _ & ->). auto.
    + discriminate.
    + now destruct (Y2 v).
  - remember (cs ++ [Convert]) as l eqn:E. destruct H' as
      [|cs' c2 r2 k2 v2 H2|cs' c2 r2 k2 v2 H2|cs' c2 r2 k2 c3 a2 b2 H2 N2 A2 B2|cs' c2 r2 k2 x2 H2 Y1 Y2 Y3];
      [destruct cs; discriminate E|apply app_inj_tail in E; destruct E as (-> & E)..].
    + discriminate.
    + discriminate.
    + destruct (IH _ _ _ H2) as (-> & -> & ->). rewrite (chosen_fun _ _ _ _ _ _ N N2) in *.
      split; [reflexivity|]. split; [reflexivity|]. intuition lia.
    + now destruct Y3.
  - remember (cs ++ [x]) as l eqn:E. destruct H' as
      [|cs' c2 r2 k2 v2 H2|cs' c2 r2 k2 v2 H2|cs' c2 r2 k2 c3 a2 b2 H2 N2 A2 B2|cs' c2 r2 k2 x2 H2 Y1 Y2 Y3];
      [destruct cs; discriminate E|apply app_inj_tail in E; destruct E as (-> & E)..].
    + now destruct (X1 v2).
    + now destruct (X2 v2).
    + now destruct X3.
    + destruct (IH _ _ _ H2) as (-> & -> & ->). auto.
Qed.
Print Assumptions C126_stands_once.

(** The attributes that decide what is sent agree. *)
Definition alike (a b : submit) : Prop :=
  same_settings a b /\ s_fmt b = s_fmt a /\ s_ref b = s_ref a /\
  nth 0 (to_draw b) 0 = nth 0 (to_draw a) 0 /\ nth 1 (to_draw b) 0 = nth 1 (to_draw a) 0.

Lemma tells_alike n0 t0 cs a b : tells n0 t0 cs a -> tells n0 t0 cs b -> alike a b.
Proof.
  intros [A1 A2 A3 A4 A5 A6 A7 A8 (k & A9 & A10 & A11)] [B1 B2 B3 B4 B5 B6 B7 B8 (k' & B9 & B10 & B11)].
  destruct (C126_stands_once _ _ _ _ _ _ _ _ _ A9 B9) as (C1 & C2 & C3). subst k'.
  unfold alike, same_settings.
  rewrite (given_fun _ _ number_fun _ _ _ A1 B1), (given_fun _ _ centre_fun _ _ _ A2 B2),
    (given_fun _ _ class_fun _ _ _ A3 B3), (given_fun _ _ validity_fun _ _ _ A4 B4),
    (given_fun _ _ status_fun _ _ _ A5 B5), (given_fun _ _ parts_ref_fun _ _ _ A6 B6),
    (given_fun _ _ pid_fun _ _ _ A7 B7), (given_fun _ _ text_fun _ _ _ A8 B8), C1, C2, A10, A11, B10, B11.
  repeat split.
Qed.

Lemma alike_sym a b : alike a b -> alike b a.
Proof. unfold alike, same_settings. intuition congruence. Qed.

Lemma alike_sent a b c : alike a b -> sent_in a c -> sent_in b c.
Proof.
  intros ((_ & _ & _ & _ & _ & _ & T & _) & F & _). unfold sent_in. now rewrite T, F.
Qed.

Lemma alike_unsendable a b e : alike a b -> unsendable a e -> unsendable b e.
Proof.
  intros H U. pose proof H as ((E1 & _ & _ & E4 & _ & E6 & E7 & _) & _).
  pose proof (fun c => alike_sent a b c H) as S.
  destruct U; try rewrite <- E7 in *; try rewrite <- E4 in *.
  - apply un_nobody. congruence.
  - apply un_empty. congruence.
  - apply un_pid. congruence.
  - eapply un_coding; eauto.
  - eapply un_relative; eauto.
  - eapply un_absolute; eauto.
  - apply un_gsm; auto.
  - eapply un_gsm_parts; eauto.
  - apply un_8bit_unicode; auto.
  - eapply un_8bit_bytes; eauto.
  - eapply un_8bit_parts; eauto.
  - eapply un_ucs2; eauto.
  - eapply un_ucs2_bytes; eauto.
  - eapply un_ucs2_parts; eauto.
Qed.

Lemma alike_front a b several coding ce f : alike a b ->
  front_written a several coding ce f -> front_written b several coding ce f.
Proof.
  intros ((E1 & E2 & E3 & E4 & E5 & E6 & E7 & E8) & F & R & D0 & D1) [c d v A B C].
  replace (first_written a several) with (first_written b several) by (unfold first_written; now rewrite E4, E5).
  replace (reference_written a) with (reference_written b) by (unfold reference_written; now rewrite R, D0).
  rewrite <- E6, <- E3. constructor; congruence.
Qed.

Lemma alike_written a b pdus : alike a b -> pdus_written a pdus -> pdus_written b pdus.
Proof.
  intros H W. pose proof H as ((_ & _ & _ & _ & _ & _ & E7 & E8) & F & R & D0 & D1).
  destruct W as [c ce f d S Fr Da|c ce f ps pdus S Fr Cu L P].
  - eapply pdus_one; [eapply alike_sent; eassumption|eapply alike_front; eassumption|].
    now rewrite E7.
  - eapply pdus_several; [eapply alike_sent; eassumption|eapply alike_front; eassumption|
      rewrite E7; eassumption|exact L|].
    replace (part_reference b) with (part_reference a); [exact P|].
    unfold part_reference. now rewrite R, D0, D1, E8.
Qed.

(** C126: what [to_pdu] returns after the calls is written by SpecPdus.v for any
    attributes the calls tell; it raises if and only if SpecUnsent.v says so of them. *)
Theorem C126_sent : forall n0 t0 s0 cs d pdus, new_submit n0 t0 = Ok s0 -> python_dates cs ->
  tells n0 t0 cs d -> Forall (fun c => 0 <= c) (chars (s_text d)) ->
  ((exists s', to_pdu (after_calls cs s0) = (Ok pdus, s')) <->
   (forall e, ~ unsendable d e) /\ pdus_written d pdus).
Proof.
  intros n0 t0 s0 cs d pdus E D T Hc.
  pose proof (C126_after n0 t0 s0 cs E D) as T'.
  pose proof (tells_alike _ _ _ _ _ T T') as A. pose proof (alike_sym _ _ A) as A'.
  pose proof (after_reachable cs s0 ltac:(eapply r_new; exact E)) as Hr.
  assert (Hv : python_date (s_validity (after_calls cs s0))).
  { eapply given_date; [exact (t_validity _ _ _ _ T')|exact D]. }
  rewrite C124_exact; [|exact Hr|exact Hv|].
  - split; intros (N & W); (split; [intros e U; apply (N e); eapply alike_unsendable; eassumption|
      eapply alike_written; eassumption]).
  - destruct A as ((_ & _ & _ & _ & _ & _ & -> & _) & _). exact Hc.
Qed.
Print Assumptions C126_sent.

(** A short text is converted, replaced by one of 80 Chinese characters, and converted
    again: the coding is still that of the first text, so this raises.  Then the coding is
    left to the object once more, a number and a class are refused, and the text is sent
    in two PDUs, after a call that fails for its protocol identifier.  One reference was
    drawn by the first call, one for the parts by the last; the next one is 2. *)
Definition some_calls : list call :=
  [Convert; PutText (PyStr true (repeat 20013 80)); Convert; PutCoding None;
   PutNumber (Some (str "nobody")); PutClass (VLong 1); PutPid 256; Convert; PutPid 0; Convert].
Example C126_case : exists s0,
  new_submit (Some (str "+34600000001")) (PyStr true (str "hello")) = Ok s0 /\ python_dates some_calls /\
  (exists k, stands (Some (str "+34600000001")) (PyStr true (str "hello")) some_calls (Some 8) (Some 0) k /\
     k mod 255 = 2) /\
  fst (to_pdu (after_calls (firstn 2 some_calls) s0)) = Err UnicodeError /\
  match to_pdu (after_calls some_calls s0) with
  | (Ok [a; b], _) => firstn 40 (p_pdu a) = str "0041000B914306000000F100088C050003020201" /\
                      firstn 40 (p_pdu b) = str "0041000B914306000000F1000820050003020202"
  | _ => False end.
Proof.
  eexists. split; [reflexivity|].
  assert (D : python_dates some_calls).
  { intros d I. exfalso. repeat (destruct I as [I|I]; [discriminate I|]). exact I. }
  split; [exact D|]. split; [|split; [vm_compute; reflexivity|vm_compute; split; reflexivity]].
  destruct (t_stands _ _ _ _ (C126_after (Some (str "+34600000001")) (PyStr true (str "hello")) _ some_calls eq_refl D))
    as (k & S & A & _).
  exists k. split; [|rewrite <- A; vm_compute; reflexivity].
  match type of S with stands _ _ _ ?f ?r _ =>
    replace f with (Some 8) in S by (vm_compute; reflexivity);
    replace r with (Some 0) in S by (vm_compute; reflexivity) end.
  exact S.
Qed.
