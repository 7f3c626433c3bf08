(** C79: exactly which headers are written as fields of the standard that mean them. *)
From Coq Require Import Lia ZifyBool ZifyNat.
From Verif Require Import Py Iter Tables WspDec WspEnc Message MmsEnc MmsDec
  SpecWsp SpecVersion WspClaims MmsClaims PropVersion PropHeaderExact SpecMms GrammarClaims EncodeClaims
  PyFacts IterFacts WspFacts ContentFacts HeaderFacts MmsTotal DeliverFacts BodyFacts MsgHeaderFacts GrammarFacts EncodeFacts PropEncode.
Open Scope Z_scope.

(** * Prefixes *)

Lemma octets_prefix : forall ds ds' d d' r r', Forall digit128 ds -> Forall digit128 ds' ->
  digit128 d -> digit128 d' -> uintvar_octets ds d ++ r = uintvar_octets ds' d' ++ r' ->
  ds = ds' /\ d = d' /\ r = r'.
Proof.
  unfold uintvar_octets.
  induction ds as [|x ds IH]; intros ds' d d' r r' H1 H2 Hd Hd' E; destruct ds' as [|y ds']; cbn [map app] in E.
  - split; [reflexivity|]. split; congruence.
  - apply (f_equal (hd 0)) in E. cbn [hd] in E. apply Forall_inv in H2. unfold digit128 in *. lia.
  - apply (f_equal (hd 0)) in E. cbn [hd] in E. apply Forall_inv in H1. unfold digit128 in *. lia.
  - pose proof (f_equal (hd 0) E) as E1. cbn [hd] in E1.
    apply (f_equal (@tl Z)) in E. cbn [tl] in E.
    destruct (IH ds' d d' r r') as (-> & -> & ->); try assumption;
      [eapply Forall_inv_tail; eassumption|eapply Forall_inv_tail; eassumption|].
    split; [f_equal; lia|auto].
Qed.

Lemma length_prefix n n' vl vl' r r' : Value_length n vl -> Value_length n' vl' ->
  vl ++ r = vl' ++ r' -> vl = vl' /\ r = r'.
Proof.
  intros H H' E. destruct H as [n Hn|n l U]; destruct H' as [n' Hn'|n' l' U']; cbn [app] in E.
  - split; congruence.
  - apply (f_equal (hd 0)) in E. cbn [hd] in E. lia.
  - apply (f_equal (hd 0)) in E. cbn [hd] in E. lia.
  - apply (f_equal (@tl Z)) in E. cbn [tl] in E. destruct U as [ds d A B], U' as [ds' d' A' B'].
    destruct (octets_prefix _ _ _ _ _ _ A A' B B' E) as (-> & -> & ->). auto.
Qed.

(** * Texts *)

Lemma text_written s : Text_string s (s ++ [0]) -> ascii_text s.
Proof.
  intros H. remember (s ++ [0]) as b eqn:Eb. destruct H as [s [Hn Ht] Hs|s Ht Hs].
  - split; [exact Hn|]. destruct s as [|c s]; [left; reflexivity|]. right.
    destruct Ht as [Ht|Ht]; [discriminate Ht|]. cbn [starts_with] in *. lia.
  - apply (f_equal (@length Z)) in Eb. cbn [length] in Eb. lia.
Qed.

Lemma text_long s l : Text_string s l -> (length s < length l)%nat.
Proof. intros [s' _ _|s' _ _]; cbn [length]; rewrite app_length; cbn [length]; lia. Qed.

Lemma encoded_written s : Encoded_string s (s ++ [0]) -> ascii_text s.
Proof.
  intros H. remember (s ++ [0]) as b eqn:Eb. destruct H as [s l H|s l charset cs n vl Hi Ht Hv Hn].
  - subst l. apply text_written. exact H.
  - exfalso. apply (f_equal (@length Z)) in Eb. rewrite !app_length in Eb. cbn [length] in Eb.
    apply text_long in Ht. assert (0 < length vl)%nat by (destruct Hv; cbn [length]; lia). lia.
Qed.

(** * Fields *)

Lemma application_start name t l k r : Token_text name t -> t ++ l = k :: r -> 128 <= k -> False.
Proof.
  intros H E Hk. destruct (token_text_head _ _ H) as (c & c2 & r' & -> & Hc & _).
  apply (f_equal (hd 0)) in E. cbn [hd app] in E. lia.
Qed.

Ltac names := repeat match goal with
  | H : In (_, _, _) _ |- _ => apply (in_map (fun p => fst (fst p))) in H; cbn [map fst] in H
  | H : In (_, _) _ |- _ => apply (in_map fst) in H; cbn [map fst] in H
  end.
Ltac no_name := solve [exfalso; names; match goal with
  | H : In ?n _, H' : In ?n _ |- _ => clear - H H'; cbn [In] in H, H'; intuition (subst; discriminate)
  | H : In ?n _ |- _ => clear - H; cbn [In] in H; intuition (subst; discriminate)
  end].

Lemma string_written name k s v :
  In (name, k) [(str "To", 151); (str "Cc", 130); (str "Bcc", 129); (str "Subject", 150);
                (str "Response-Text", 147); (str "Message-ID", 139); (str "Transaction-Id", 152)] ->
  Field name v (k :: s ++ [0]) -> shows name v (HStr s) -> ascii_text s.
Proof.
  intros Hin HF HS. remember (k :: s ++ [0]) as b eqn:Eb.
  assert (Hk : 128 <= k).
  { clear - Hin. cbn [In] in Hin. repeat (destruct Hin as [Hin|Hin]; [apply pair_equal_spec in Hin; lia|]). destruct Hin. }
  destruct HF as [name k' s' l' Hk' H|name k' s' l' Hk' H|t l' H|name k' y Hk'
    |name k' t l' n vl Hk' H Hv _|name k' t l' n vl Hk' H Hv _|s' l' n vl H Hv _|vl Hv
    |name k' table k2 s' Hk' H|s' l' H|s' l' H|n l' H|name s' l' t Ht Hne H];
    try no_name.
  - apply (f_equal (@tl Z)) in Eb. cbn [tl] in Eb. subst l'.
    cbn [shows] in HS. assert (s' = s) by (unfold HStr in HS; congruence). subst s'. apply encoded_written. exact H.
  - apply (f_equal (@tl Z)) in Eb. cbn [tl] in Eb. subst l'.
    cbn [shows] in HS. assert (s' = s) by (unfold HStr in HS; congruence). subst s'. apply text_written. exact H.
  - exfalso. exact (application_start _ _ _ _ _ Ht Eb Hk).
Qed.

Lemma from_written s v n : Value_length n (encode_value_length n) ->
  Field (str "From") v (137 :: encode_value_length n ++ [128] ++ s ++ [0]) ->
  shows (str "From") v (HStr s) -> ascii_text s.
Proof.
  intros Hvl HF HS. remember (137 :: encode_value_length n ++ [128] ++ s ++ [0]) as b eqn:Eb.
  remember (str "From") as name eqn:En.
  destruct HF as [name k' s' l' Hk' H|name k' s' l' Hk' H|t l' H|name k' y Hk'
    |name k' t l' n' vl Hk' H Hv _|name k' t l' n' vl Hk' H Hv _|s' l' n' vl H Hv _|vl Hv
    |name k' table k2 s' Hk' H|s' l' H|s' l' H|n' l' H|name s' l' t Ht Hne H];
    try (rewrite En in Hk'; no_name); try discriminate En.
  - apply (f_equal (@tl Z)) in Eb. cbn [tl] in Eb.
    destruct (length_prefix _ _ _ _ _ _ Hv Hvl Eb) as (_ & E). cbn [app] in E.
    apply (f_equal (@tl Z)) in E. cbn [tl] in E. subst l'.
    cbn [shows] in HS. assert (s' = s) by (unfold HStr in HS; congruence). subst s'. apply encoded_written. exact H.
  - exfalso. apply (f_equal (fun l => last l 0)) in Eb.
    change (137 :: vl ++ [129]) with ((137 :: vl) ++ [129]) in Eb.
    change (137 :: encode_value_length n ++ [128] ++ s ++ [0]) with ((137 :: encode_value_length n) ++ [128] ++ s ++ [0]) in Eb.
    rewrite !app_assoc, !last_last in Eb. discriminate Eb.
  - exfalso. eapply application_start; [exact Ht|exact Eb|lia].
Qed.

Lemma insert_not_empty v : Field (str "From") v [137; 1; 129] -> shows (str "From") v (HStr []) -> False.
Proof.
  intros HF HS. remember [137; 1; 129] as b eqn:Eb. remember (str "From") as name eqn:En.
  destruct HF as [name k' s' l' Hk' H|name k' s' l' Hk' H|t l' H|name k' y Hk'
    |name k' t l' n' vl Hk' H Hv _|name k' t l' n' vl Hk' H Hv _|s' l' n' vl H Hv _|vl Hv
    |name k' table k2 s' Hk' H|s' l' H|s' l' H|n' l' H|name s' l' t Ht Hne H];
    try (rewrite En in Hk'; no_name); try discriminate En.
  - apply (f_equal (@tl Z)) in Eb. cbn [tl] in Eb.
    assert (X : Value_length 1 [1]) by (apply vl_short; lia).
    change [1; 129] with ([1] ++ [129]) in Eb.
    destruct (length_prefix _ _ _ _ _ _ Hv X Eb) as (_ & E).
    apply (f_equal (hd 0)) in E. cbn [hd] in E. lia.
  - discriminate HS.
  - eapply application_start; [exact Ht|exact Eb|lia].
Qed.

Lemma code_written name k s v b :
  In (name, k) [(str "Message-Type", 140); (str "Status", 149)] ->
  Field name v [k; b] -> shows name v (HStr s) ->
  (name = str "Message-Type" /\ In (b, s) message_type_names) \/
  (name = str "Status" /\ In (b, s) status_names).
Proof.
  intros Hin HF HS. remember [k; b] as l eqn:Eb.
  assert (Hk : 128 <= k).
  { clear - Hin. cbn [In] in Hin. repeat (destruct Hin as [Hin|Hin]; [apply pair_equal_spec in Hin; lia|]). destruct Hin. }
  destruct HF as [name k' s' l' Hk' H|name k' s' l' Hk' H|t l' H|name k' y Hk'
    |name k' t l' n vl Hk' H Hv _|name k' t l' n vl Hk' H Hv _|s' l' n vl H Hv _|vl Hv
    |name k' table k2 s' Hk' H|s' l' H|s' l' H|n l' H|name s' l' t Ht Hne H];
    try no_name.
  - cbn [shows] in HS. assert (s' = s) by (unfold HStr in HS; congruence). subst s'.
    assert (k2 = b) by congruence. subst k2. clear Eb HS.
    cbn [In] in Hin. destruct Hin as [Hin|[Hin|[]]]; apply pair_equal_spec in Hin; destruct Hin as [<- <-];
      [left|right]; (split; [reflexivity|]); cbn [In] in Hk';
      repeat (destruct Hk' as [Hk'|Hk']; [apply pair_equal_spec in Hk'; destruct Hk' as [Hk' <-];
        apply pair_equal_spec in Hk'; destruct Hk' as [Hk' _]; first [exact H|discriminate Hk']|]);
      destruct Hk'.
  - exfalso. exact (application_start _ _ _ _ _ Ht Eb Hk).
Qed.

Lemma version_written s v l : Sent s l -> Field (str "MMS-Version") v (141 :: l) ->
  shows (str "MMS-Version") v (HStr s) -> standard (str "MMS-Version") (HStr s).
Proof.
  intros HE HF HS. remember (141 :: l) as b eqn:Eb. remember (str "MMS-Version") as name eqn:En.
  destruct HF as [name k' s' l' Hk' H|name k' s' l' Hk' H|t l' H|name k' y Hk'
    |name k' t l' n' vl Hk' H Hv _|name k' t l' n' vl Hk' H Hv _|s' l' n' vl H Hv _|vl Hv
    |name k' table k2 s' Hk' H|s' l' H|s' l' H|n' l' H|name s' l' t Ht Hne H];
    try (rewrite En in Hk'; no_name); try discriminate En.
  - apply (f_equal (@tl Z)) in Eb. cbn [tl] in Eb. subst l'.
    cbn [shows] in HS. assert (s' = s) by (unfold HStr in HS; congruence). subst s'. clear HS En.
    destruct H as [M m HM Hm|M HM|s l H].
    + apply std_version; assumption.
    + apply std_major; assumption.
    + destruct HE as [M m s HM|M s HM|s Hd|s HO].
      * exfalso. apply text_string_start in H. destruct HM as (? & ? & _ & _ & _ & _ & ? & ?).
        cbn [starts_with] in H. lia.
      * exfalso. apply text_string_start in H. destruct HM as (_ & _ & ?). cbn [starts_with] in H. lia.
      * exfalso. apply text_long in H. cbn [length] in H. lia.
      * apply std_version_text; [exact HO|apply text_written; exact H].
  - exfalso. eapply application_start; [exact Ht|exact Eb|lia].
Qed.

Lemma size_written v r n : Field (str "Message-Size") v (142 :: r) ->
  shows (str "Message-Size") v (HInt n) -> Long_integer n r.
Proof.
  intros HF HS. remember (142 :: r) as b eqn:Eb. remember (str "Message-Size") as name eqn:En.
  destruct HF as [name k' s' l' Hk' H|name k' s' l' Hk' H|t l' H|name k' y Hk'
    |name k' t l' n' vl Hk' H Hv _|name k' t l' n' vl Hk' H Hv _|s' l' n' vl H Hv _|vl Hv
    |name k' table k2 s' Hk' H|s' l' H|s' l' H|n' l' H|name s' l' t Ht Hne H];
    try (rewrite En in Hk'; no_name); try discriminate En.
  - cbn [shows] in HS. assert (n' = n) by (unfold HInt in HS; congruence). subst n'.
    assert (l' = r) by congruence. subst l'. exact H.
  - exfalso. eapply application_start; [exact Ht|exact Eb|lia].
Qed.

Lemma size_shown v r h : Field (str "Message-Size") v (142 :: r) -> shows (str "Message-Size") v h ->
  exists n, h = HInt n.
Proof.
  intros HF HS. remember (142 :: r) as b eqn:Eb. remember (str "Message-Size") as name eqn:En.
  destruct HF as [name k' s' l' Hk' H|name k' s' l' Hk' H|t l' H|name k' y Hk'
    |name k' t l' n' vl Hk' H Hv _|name k' t l' n' vl Hk' H Hv _|s' l' n' vl H Hv _|vl Hv
    |name k' table k2 s' Hk' H|s' l' H|s' l' H|n' l' H|name s' l' t Ht Hne H];
    try (rewrite En in Hk'; no_name); try discriminate En.
  - exists n'. exact HS.
  - exfalso. eapply application_start; [exact Ht|exact Eb|lia].
Qed.

Lemma field_name name v b : ~ In name (map (fun p => fst (snd p)) mms_field_names) -> Field name v b ->
  exists s l t, v = Text s /\ b = t ++ l /\ Token_text name t /\ Text_string s l.
Proof.
  intros Hm HF.
  assert (Hc : forall x, In x (map (fun p => fst (snd p)) mms_field_names) -> x <> name) by (intros x Hx ->; auto).
  destruct HF as [name k' s' l' Hk' H|name k' s' l' Hk' H|t l' H|name k' y Hk'
    |name k' t l' n vl Hk' H Hv _|name k' t l' n vl Hk' H Hv _|s' l' n vl H Hv _|vl Hv
    |name k' table k2 s' Hk' H|s' l' H|s' l' H|n l' H|name s' l' t Ht Hne H].
  all: try solve [exfalso; apply Hm; clear; vm_compute; auto 40].
  all: try solve [exfalso; apply Hm; clear - Hk'; cbn [In] in Hk';
    repeat (destruct Hk' as [Hk'|Hk']; [apply pair_equal_spec in Hk'; destruct Hk' as [<- _]; vm_compute; auto 40|]);
    destruct Hk'].
  - exfalso; apply Hm; clear - Hk'; cbn [In] in Hk';
    repeat (destruct Hk' as [Hk'|Hk']; [apply pair_equal_spec in Hk'; destruct Hk' as [Hk' _];
      apply pair_equal_spec in Hk'; destruct Hk' as [<- _]; vm_compute; auto 40|]);
    destruct Hk'.
  - exists s', l', t. auto.
Qed.

(** * C79 *)

(** No field shows a pair. *)
Lemma no_pair name v p q : ~ shows name v (HPragma p q).
Proof.
  destruct v; cbn [shows]; try discriminate.
  - destruct (leqb name _); discriminate.
  - destruct (leqb name _); discriminate.
  - intros (d & H & _). discriminate H.
Qed.

(** C79, exactly: a header is written as a field of the standard that means it just
    when it is one of the standard ones. *)
Theorem C79_exact : forall name h,
  (exists l b v, mms_encode_header name h = Ok l /\ array_of l = Ok b /\
     Field name v b /\ shows name v h) <-> standard name h.
Proof.
  intros name h. split; [|apply C79_field_partial]. intros (l & b & v & E & Ea & HF & HS).
  destruct (in_dec (list_eq_dec Z.eq_dec) name (map (fun p => fst (snd p)) mms_field_names)) as [Hi|Hi].
  2: { destruct (field_name name v b Hi HF) as (s & tl & t & -> & -> & Ht & Hx).
       cbn [shows] in HS. subst h. unfold mms_encode_header in E.
       rewrite find_field_none in E by exact Hi. rewrite encode_token_text_spec in E.
       destruct (existsb is_separator name) eqn:Es; [discriminate|].
       cbn [bind encode_text_string_h encode_text_string_p HStr] in E.
       assert (l = ints ((name ++ [0]) ++ s ++ [0])) as ->.
       { unfold encode_text_string in E. unfold ints in *. rewrite <- map_app in E. congruence. }
       apply array_octets in Ea. destruct Ea as [Ea _].
       destruct Ht as [name Ht]. apply app_inv_head in Ea. subst tl.
       apply std_application; [exact Ht|exact Hi|apply text_written; exact Hx]. }
  assert (HT : forall n nm t, In (n, (nm, t)) mms_field_names -> 0 <= n < 128 /\
             find_field nm = Some (n, (nm, t))).
  { intros n nm t Hin. cbn [mms_field_names In] in Hin.
    repeat (destruct Hin as [Hin|Hin]; [apply pair_equal_spec in Hin; destruct Hin as [<- Hin];
      apply pair_equal_spec in Hin; destruct Hin as [<- <-];
      split; [lia|vm_compute; reflexivity]|]). destruct Hin. }
  assert (X : exists n t, In (n, (name, t)) mms_field_names).
  { apply in_map_iff in Hi. destruct Hi as ([n [nm t]] & E' & Hin). cbn [fst snd] in E'. subst nm. eauto. }
  destruct X as (n & t & Hin). destruct (HT n name t Hin) as (Hn & F).
  assert (G : exists lv, encode_mms_value t h = Ok lv /\ l = ints [128 + n] ++ lv).
  { unfold mms_encode_header in E. rewrite F, encode_short_integer_ok in E by lia. cbn [bind] in E.
    destruct (encode_mms_value t h) as [lv|e]; [|discriminate E]. exists lv. cbn [bind] in E.
    split; [reflexivity|congruence]. }
  clear HT E F. destruct G as (lv & E & ->).
  assert (Hnames : (t = MEncodedString /\
                    In (name, 128 + n) [(str "To", 151); (str "Cc", 130); (str "Bcc", 129); (str "Subject", 150); (str "Response-Text", 147)]) \/
                   (t = MFrom /\ name = str "From" /\ n = 9) \/
                   (t = MTextString /\ In (name, 128 + n) [(str "Message-ID", 139); (str "Transaction-Id", 152)]) \/
                   (t = MMessageType /\ name = str "Message-Type" /\ n = 12) \/
                   (t = MVersion /\ name = str "MMS-Version" /\ n = 13) \/
                   (t = MStatus /\ name = str "Status" /\ n = 21) \/
                   (t = MLong /\ name = str "Message-Size" /\ n = 14) \/
                   (exists e, encode_mms_value t h = Err e)).
  { clear - Hin. cbn [mms_field_names In] in Hin.
    repeat (destruct Hin as [Hin|Hin]; [apply pair_equal_spec in Hin; destruct Hin as [<- Hin];
      apply pair_equal_spec in Hin; destruct Hin as [<- <-]; cbn [In];
      first [ solve [left; auto 10] | solve [right; left; auto] | solve [do 2 right; left; auto]
            | solve [do 3 right; left; auto] | solve [do 4 right; left; auto]
            | solve [do 5 right; left; auto] | solve [do 6 right; left; auto]
            | solve [do 7 right; eexists; reflexivity]]|]). destruct Hin. }
  clear Hi Hin.
  assert (P : forall x, lv = ints x -> b = (128 + n) :: x).
  { intros x ->. assert (Z : ints [128 + n] ++ ints x = ints ((128 + n) :: x)) by reflexivity.
    rewrite Z in Ea. apply array_octets in Ea. apply Ea. }
  destruct Hnames as [(-> & Hm)|[(-> & -> & ->)|[(-> & Hm)|[(-> & -> & ->)|[(-> & -> & ->)|[(-> & -> & ->)|[(-> & -> & ->)|(e & Hx)]]]]]]].
  - destruct h as [[s| | |]| | | |pn pv]; try discriminate E; [|exfalso; exact (no_pair _ _ _ _ HS)].
    cbn [encode_mms_value encode_encoded_string_value encode_text_string_h encode_text_string_p bind] in E.
    rewrite (P (s ++ [0])) in HF by (unfold encode_text_string in E; congruence).
    apply std_string.
    + clear - Hm. cbn [In] in Hm |- *. intuition (try (right; congruence); try congruence).
      all: match goal with H : (_, _) = (_, _) |- _ => apply pair_equal_spec in H; destruct H as [H _]; auto 10 end.
    + eapply string_written; [|exact HF|exact HS]. clear - Hm. cbn [In] in *. tauto.
  - destruct h as [[s| | |]| | | |pn pv]; try discriminate E; [|exfalso; exact (no_pair _ _ _ _ HS)].
    cbn [encode_mms_value encode_from_value] in E. destruct s as [|c s].
    + exfalso. rewrite (P [1; 129]) in HF by (vm_compute in E |- *; congruence).
      change (128 + 9) with 137 in HF. exact (insert_not_empty _ HF HS).
    + remember (c :: s) as t eqn:Et. cbn [bind] in E.
      rewrite (P (encode_value_length (zlen (t ++ [0]) + 1) ++ [128] ++ t ++ [0])) in HF
        by (rewrite Et; unfold encode_text_string in E; rewrite Et in E; congruence).
      change (128 + 9) with 137 in HF. pose proof (zlen_nonneg (t ++ [0])).
      apply std_from; [|subst t; discriminate].
      eapply from_written; [|exact HF|exact HS]. apply value_length_grammar. lia.
  - destruct h as [[s| | |]| | | |pn pv]; try discriminate E; [|exfalso; exact (no_pair _ _ _ _ HS)].
    cbn [encode_mms_value encode_text_string_h encode_text_string_p bind] in E.
    rewrite (P (s ++ [0])) in HF by (unfold encode_text_string in E; congruence).
    apply std_string.
    + clear - Hm. cbn [In] in Hm |- *.
      destruct Hm as [H|[H|[]]]; apply pair_equal_spec in H; destruct H as [H _]; auto 10.
    + eapply string_written; [|exact HF|exact HS]. clear - Hm. cbn [In] in *. tauto.
  - assert (X : exists k, encode_message_type_value h = Ok [k]).
    { destruct (encode_message_type_value h) as [x|e] eqn:Ex; [|cbn [encode_mms_value] in E; rewrite Ex in E; discriminate E].
      unfold encode_message_type_value in Ex. destruct h as [[s| | |]| | | |]; try discriminate Ex.
      all: match type of Ex with Ok [?k] = _ => exists k; congruence end. }
    destruct X as (k & Ek). cbn [encode_mms_value] in E. rewrite Ek in E. cbn [bind] in E.
    rewrite (P [k]) in HF by congruence. change (128 + 12) with 140 in HF.
    assert (Hs : exists s, h = HStr s).
    { clear - HF HS. remember [140; k] as l eqn:El. remember (str "Message-Type") as name eqn:En.
      destruct HF as [name k' s' l' Hk' H|name k' s' l' Hk' H|t l' H|name k' y Hk'
        |name k' t l' n' vl Hk' H Hv _|name k' t l' n' vl Hk' H Hv _|s' l' n' vl H Hv _|vl Hv
        |name k' table k2 s' Hk' H|s' l' H|s' l' H|n' l' H|name s' l' t Ht Hne H];
        try (rewrite En in Hk'; no_name); try discriminate En; eauto. }
    destruct Hs as (s & ->).
    destruct (code_written (str "Message-Type") 140 s v k) as [[_ H]|[H _]]; [cbn [In]; auto|exact HF|exact HS| |discriminate H].
    apply (std_type k). exact H.
  - destruct h as [[s| | |]| | | |]; try discriminate E.
    cbn [encode_mms_value encode_version_value_h encode_version_value_p bind] in E.
    rewrite (P (encode_version_value s)) in HF by congruence.
    eapply version_written; [apply version_sent|exact HF|exact HS].
  - destruct h as [[s| | |]| | | |].
    1: { unfold encode_mms_value, encode_status_value in E.
         destruct (d_get leqb s status_values) as [k|] eqn:Ek.
         - rewrite (P [k]) in HF by (unfold ints; cbn [map]; congruence). change (128 + 21) with 149 in HF.
           destruct (code_written (str "Status") 149 s v k) as [[H _]|[_ H]]; [cbn [In]; auto|exact HF|exact HS|discriminate H|].
           apply (std_status k). exact H.
         - exfalso. cbn [bind] in E. assert (lv = [EStr (str "Unrecognised")]) as -> by congruence.
           cbn [app ints map array_of] in Ea. discriminate Ea. }
    all: exfalso; cbn [encode_mms_value encode_status_value bind] in E;
         first [discriminate E
               |assert (lv = [EStr (str "Unrecognised")]) as -> by congruence; discriminate Ea].
  - assert (X : exists r, b = 142 :: r).
    { cbn [encode_mms_value] in E. destruct (encode_long_integer_h h) as [r|]; [|discriminate E].
      cbn [bind] in E. exists r. change 142 with (128 + 14). apply P. congruence. }
    destruct X as (r & ->). destruct (size_shown _ _ _ HF HS) as (n & ->).
    pose proof (size_written _ _ _ HF HS) as HL.
    cbn [encode_mms_value encode_long_integer_h HInt] in E.
    destruct (is_int n) eqn:Ei.
    2: { unfold encode_long_integer in E. rewrite Ei in E. discriminate E. }
    unfold is_int in Ei. destruct (Z.ltb_spec n 0) as [L|L].
    + exfalso. assert (Y : encode_long_integer n = Ok [0]).
      { unfold encode_long_integer, is_int. rewrite Ei. cbn [negb].
        cbn [long_enc]. replace (0 <? n) with false by lia. reflexivity. }
      rewrite Y in E. cbn [bind] in E. assert (r = [0]) as -> by
        (assert (Z : 142 :: r = [142; 0]) by (apply (P [0]); congruence); congruence).
      remember [0] as z eqn:Ez. destruct HL as [x _ Hx]. apply (f_equal (hd 0)) in Ez. cbn [hd] in Ez. lia.
    + destruct (octets_of n L) as (ds & Hd & Hm & <-).
      assert (Hx : big_endian ds <= maxint) by lia.
      pose proof (octets_short ds Hd Hm Hx) as Hl. rewrite encode_long_integer_spec in E by assumption.
      cbn [bind] in E. assert (r = zlen ds :: rev ds) as -> by
        (assert (Z : 142 :: r = (128 + 14) :: zlen ds :: rev ds) by (apply P; congruence); congruence).
      remember (zlen ds :: rev ds) as z eqn:Ez. remember (big_endian ds) as n eqn:En.
      destruct HL as [x Hx1 Hx2]. apply (f_equal (@tl Z)) in Ez. cbn [tl] in Ez. subst x.
      rewrite En. apply std_size; try assumption.
      * destruct ds; [|discriminate]. cbn in Hx2. lia.
      * apply PropEncode.big_endian_inj; [apply Forall_rev; exact Hd|exact Hd|apply rev_length|exact En].
      * rewrite <- En. exact Hx.
  - congruence.
Qed.
Print Assumptions C79_exact.
Example C79_exact_case : standard (str "Message-Size") (HInt 257) /\
  standard (str "MMS-Version") (HStr (str "2")) /\
  ~ standard (str "MMS-Version") (HStr (str " 1.0")) /\
  ~ standard (str "From") (HStr []) /\ ~ standard (str "Priority") (HStr (str "High")).
Proof.
  split; [|split; [|split; [|split]]].
  - apply (std_size [1; 1]); try reflexivity; try discriminate. repeat constructor; lia.
  - apply (std_major 2). lia.
  - intros H. apply C79_exact in H. destruct H as (l & b & v & E & Ea & HF & HS).
    assert (l = ints [141; 144]) as -> by (vm_compute in E |- *; congruence).
    apply array_octets in Ea. destruct Ea as [-> _].
    assert (X := version_written _ _ _ (version_sent (str " 1.0")) HF HS).
    remember (HStr (str " 1.0")) as h eqn:Eh. remember (str "MMS-Version") as nm eqn:En.
    destruct X as [name s Hn Hs|s Hs He|y s Hs|M m HM Hm|M HM|s HO Hs|y s Hs|ds Ho Hne Hm Hr Hx|name s Ht Hm Hs];
      try discriminate En.
    + subst name. cbn [In] in Hn. intuition discriminate.
    + unfold HStr in Eh. assert (Z : small_dec M ++ [46] ++ small_dec m = str " 1.0") by congruence.
      apply (f_equal (hd 0)) in Z. unfold small_dec in Z. replace (M <? 10) with true in Z by lia.
      cbn [hd app] in Z. change (hd 0 (str " 1.0")) with 32 in Z. lia.
    + unfold HStr in Eh. assert (Z : small_dec M = str " 1.0") by congruence.
      apply (f_equal (hd 0)) in Z. unfold small_dec in Z. replace (M <? 10) with true in Z by lia.
      cbn [hd app] in Z. change (hd 0 (str " 1.0")) with 32 in Z. lia.
    + assert (s = str " 1.0") by (unfold HStr in Eh; congruence). subst s.
      pose proof (sent_unique _ _ _ (sent_text _ HO) (version_sent (str " 1.0"))) as Z. vm_compute in Z. discriminate Z.
    + subst name. apply Hm. vm_compute. auto 40.
  - intros H. apply C79_exact in H. destruct H as (l & b & v & E & Ea & HF & HS).
    assert (l = ints [137; 1; 129]) as -> by (vm_compute in E |- *; congruence).
    apply array_octets in Ea. destruct Ea as [-> _]. exact (insert_not_empty _ HF HS).
  - intros H. apply C79_exact in H. destruct H as (l & b & v & E & _). discriminate E.
Qed.

(** * Content types *)

(** What is written for parameters all named "Level": 130 and perhaps the value. *)
Lemma level_written : forall params ps, Forall (fun p => fst p = str "Level") params ->
  mapM (fun p => encode_parameter (fst p) (snd p)) params = Ok ps ->
  Forall (fun p => exists r, p = 130 :: r) ps.
Proof.
  induction params as [|[k x] params IH]; intros ps H E; cbn [mapM fst snd] in E.
  - assert (ps = []) as -> by congruence. constructor.
  - pose proof (Forall_inv H) as Hk. cbn [fst] in Hk. subst k. apply Forall_inv_tail in H.
    destruct (encode_parameter (str "Level") x) as [a|] eqn:Ea; [|discriminate]. cbn [bind] in E.
    destruct (mapM _ params) as [b|] eqn:Eb; [|discriminate]. cbn [bind] in E.
    assert (ps = a :: b) as -> by congruence. constructor; [|apply IH; [exact H|reflexivity]].
    unfold encode_parameter, encode_parameter_in in Ea.
    destruct (get_well_known_parameters (str "1.2")) as [d|] eqn:Ed; [|discriminate]. cbn [bind] in Ea.
    assert (Ef : find_parameter (str "Level") d = Some (2, (str "Level", TVersion)))
      by (vm_compute in Ed; injection Ed as <-; vm_compute; reflexivity).
    rewrite Ef, encode_short_integer_ok in Ea by lia. cbn [bind] in Ea.
    destruct (encode_by_type TVersion x) as [y|]; [|discriminate]. cbn [bind] in Ea. exists y.
    cbn [app] in Ea. change (128 + 2) with 130 in Ea. congruence.
Qed.

Lemma concat_long : forall ps, Forall (fun p => exists r : list Z, p = 130 :: r) ps ->
  zlen ps <= zlen (concat ps) /\ (zlen ps = zlen (concat ps) -> Forall (fun c => c = 130) (concat ps)).
Proof.
  induction ps as [|p ps IH]; intros H; [split; [cbn; lia|constructor]|].
  destruct (Forall_inv H) as (r & ->). destruct (IH (Forall_inv_tail H)) as [A B].
  cbn [concat]. rewrite zlen_app, !zlen_cons. pose proof (zlen_nonneg r). split; [lia|]. intros E.
  assert (Hr : zlen r = 0) by lia. destruct r; [|rewrite zlen_cons in Hr; pose proof (zlen_nonneg r); lia].
  constructor; [reflexivity|]. apply B. lia.
Qed.

Lemma integer_start k i : Integer_value k i -> exists c r, i = c :: r /\ (c = 128 + k \/ 1 <= c <= 30).
Proof.
  intros [n l [m Hm]|n l [x _ Hx]].
  - exists (128 + m), []. auto.
  - exists (n_octets x), x. auto.
Qed.

(** No parameter starts with a bare 130. *)
Lemma no_level name v l r : Param name v l -> Forall (fun c => c = 130) (l ++ r) -> False.
Proof.
  intros HP HA.
  assert (A : forall k i t, Integer_value k i -> k <> 2 -> ~ Forall (fun c => c = 130) (i ++ t)).
  { intros k i t Hi Hk X. destruct (integer_start _ _ Hi) as (c & q & -> & Hc). cbn [app] in X.
    apply Forall_inv in X. lia. }
  assert (B : forall nm t q, Token_text nm t -> ~ Forall (fun c => c = 130) (t ++ q)).
  { intros nm t q Ht X. destruct (token_text_head _ _ Ht) as (c & c2 & r' & -> & Hc & _). cbn [app] in X.
    apply Forall_inv in X. lia. }
  destruct HP as [i q l n Hi _ _ _|i s l Hi _|i s l Hi Hv|i n l Hi _|nm k i s l Hk Hi _
    |i n l Hi _|i n l Hi _|i s l Hi _|nm t n l Ht _|nm t s l Ht _|nm t s l Ht _];
    try (rewrite <- app_assoc in HA); try solve [eapply A; [exact Hi| |exact HA]; lia];
    try solve [eapply B; [exact Ht|exact HA]].
  - apply Forall_app in HA. destruct HA as [_ HA].
    destruct Hv as [M m HM Hm|M HM|s l Ht].
    + apply Forall_inv in HA. lia.
    + apply Forall_inv in HA. lia.
    + apply text_string_start in Ht. destruct l as [|c l]; [destruct Ht|]. cbn [app starts_with] in *.
      apply Forall_inv in HA. lia.
  - eapply A; [exact Hi| |exact HA]. clear - Hk. cbn [In] in Hk. intros ->.
    repeat (destruct Hk as [Hk|Hk]; [apply pair_equal_spec in Hk; lia|]). destruct Hk.
Qed.

(** C80 is false for content types with parameters: nothing that is written for one
    is a content type, of whatever media and parameters. *)
Theorem C80_parameters_exact : forall media params l bytes, params <> [] ->
  encode_content_type_value media params = Ok l -> array_of (flatten_list l) = Ok bytes ->
  ~ exists media' params', Content_type media' params' bytes.
Proof.
  intros media params l bytes Hne H Hb.
  destruct (Forall_Exists_dec (fun p : list Z * pval => fst p = str "Level")
    (fun p => list_eq_dec Z.eq_dec (fst p) (str "Level")) params) as [Hall|Hex];
    [|exact (C80_parameters_refuted media params l bytes Hex H Hb)].
  intros (media' & params' & HC).
  assert (Y : exists v ps, bytes = encode_value_length (1 + zlen params) ++ v ++ concat ps /\
                zlen ps = zlen params /\ Forall (fun p => exists r : list Z, p = 130 :: r) ps /\
                1 <= zlen v /\ forall x, v = [x] -> x = 0 \/ 128 <= x).
  { unfold encode_content_type_value in H.
    destruct params as [|q0 params0] eqn:Eq; [congruence|]. rewrite <- Eq in *. clear Eq q0 params0.
    cbn [on_encode_error] in H.
    unfold encode_content_general_form in H. unfold encode_media_type in H.
    destruct (match index_of media well_known_content_types with
              | Some i => encode_short_integer i
              | None => Ok (encode_text_string media) end) as [v|] eqn:Ev; [|discriminate].
    cbn [bind] in H.
    destruct (mapM (fun p => encode_parameter (fst p) (snd p)) params) as [ps|] eqn:E;
      [|discriminate].
    cbn [bind] in H. cbv zeta in H.
    assert (X : forall (a b : list elt), Ok a = Ok b -> a = b) by (intros; congruence).
    apply X in H. subst l. clear X.
    pose proof (mapM_length _ _ _ _ _ E) as El.
    exists v, ps. split; [|split; [|split; [exact (level_written _ _ Hall E)|]]].
    - replace (zlen [EList (ints v)] + zlen ps) with (1 + zlen params) in Hb
        by (unfold zlen; rewrite El; cbn [length]; lia).
      rewrite flatten_app, flatten_ints in Hb.
      apply array_of_app in Hb as (x & y & E1 & E2 & ->).
      apply array_of_ints_inv in E1. subst x.
      assert (F : flatten_list ([EList (ints v)] ++ map (fun p => EList (ints p)) ps) = ints (v ++ concat ps)).
      { unfold ints. rewrite map_app. unfold flatten_list. rewrite flat_map_app. cbn [flat_map flatten_elt app].
        rewrite app_nil_r. fold (flatten_list (map EInt v)). f_equal; [apply flatten_list_ints|].
        clear. induction ps as [|p ps IH]; [reflexivity|]. cbn [map flat_map concat flatten_elt].
        rewrite map_app. f_equal; [apply flatten_list_ints|exact IH]. }
      rewrite F in E2. apply array_of_ints_inv in E2. subst y. reflexivity.
    - unfold zlen. rewrite El. reflexivity.
    - destruct (index_of media well_known_content_types) as [i|].
      + unfold encode_short_integer in Ev. destruct ((i <? 0) || (127 <? i)) eqn:Ei; [discriminate|].
        assert (v = [Z.lor i 128] \/ exists z, v = [z] /\ 128 <= z) as [->|(z & -> & Hz)].
        { right. assert (V : encode_short_integer i = Ok v) by (unfold encode_short_integer; rewrite Ei; exact Ev).
          rewrite encode_short_integer_ok in V by lia. exists (128 + i). split; [congruence|lia]. }
        * split; [cbn; lia|]. intros x Hx. right. assert (x = Z.lor i 128) by congruence.
          assert (V : encode_short_integer i = Ok [Z.lor i 128]) by (unfold encode_short_integer; rewrite Ei; exact Ev).
          rewrite encode_short_integer_ok in V by lia. assert (Z.lor i 128 = 128 + i) by congruence. lia.
        * split; [cbn; lia|]. intros x Hx. right. assert (x = z) by congruence. lia.
      + assert (v = media ++ [0]) as -> by (unfold encode_text_string in Ev; congruence).
        rewrite zlen_app. pose proof (zlen_nonneg media). change (zlen [0]) with 1. split; [lia|].
        intros x Hx. left. destruct media as [|c [|d m]]; cbn [app] in Hx; [congruence|discriminate Hx|discriminate Hx]. }
  destruct Y as (v & ps & -> & Hl & Hps & Hv1 & Hvx).
  assert (Hk : 0 <= 1 + zlen params) by (pose proof (zlen_nonneg params); lia).
  pose proof (value_length_grammar _ Hk) as Hvl.
  destruct (value_length_head _ _ Hvl) as (b & r & Ehd & Hb').
  destruct (concat_long ps Hps) as [C1 C2].
  remember (encode_value_length (1 + zlen params) ++ v ++ concat ps) as w eqn:Ew.
  destruct HC as [n md w Hn Hs|md w Hx|md psx ml pl n vl Hml Hpl Hv En].
  - destruct Hs as [n' Hn']. rewrite Ehd in Ew. apply (f_equal (hd 0)) in Ew. cbn [hd app] in Ew. lia.
  - destruct Hx as [s Hnn Hs]. rewrite Ehd in Ew. apply (f_equal (hd 0)) in Ew.
    destruct s as [|c s]; [contradiction|]. cbn [hd app starts_with] in Ew, Hs. lia.
  - destruct (value_length_unique _ _ _ _ _ _ Hv Hvl Ew) as [-> E'].
    assert (L : zlen (ml ++ pl) = zlen (v ++ concat ps)) by (rewrite E'; reflexivity).
    rewrite !zlen_app in L. unfold n_octets in En. fold (zlen ml) (zlen pl) in En.
    assert (zlen v = 1) as Hv1' by lia. specialize (C2 ltac:(lia)).
    destruct v as [|x [|y v]]; [discriminate Hv1'| |rewrite !zlen_cons in Hv1'; pose proof (zlen_nonneg v); lia].
    specialize (Hvx x eq_refl). cbn [app] in E'.
    assert (M : ml = [x]).
    { destruct Hml as [n md l1 _ Hi|md l1 Hx].
      - destruct Hi as [n l1 [n' Hn]|n l1 [z _ Hz]].
        + cbn [app] in E'. congruence.
        + cbn [app] in E'. apply (f_equal (hd 0)) in E'. cbn [hd] in E'. lia.
      - destruct Hx as [s Hnn Hs]. apply (f_equal (hd 0)) in E'.
        destruct s as [|c s]; [contradiction|]. cbn [hd app starts_with] in E', Hs. lia. }
    subst ml. cbn [app] in E'. assert (pl = concat ps) by congruence. subst pl.
    remember (concat ps) as cps eqn:Ec. destruct Hpl as [|nm pv l1 vs r1 HP _].
    + destruct params as [|q params]; [congruence|]. rewrite zlen_cons in Hl.
      pose proof (zlen_nonneg params). unfold zlen at 2 in C1. cbn [length] in C1. lia.
    + exact (no_level _ _ _ _ HP C2).
Qed.
Print Assumptions C80_parameters_exact.
Example C80_parameters_level_case :
  encode_content_type_value (str "text/plain") [(str "Level", PStr (str "1.2.3"))] =
    Ok (ints [2] ++ [EList (ints [131]); EList (ints [130])]).
Proof. vm_compute. reflexivity. Qed.

(** Exactly which content types are written as content types of the standard that
    mean them. *)
Theorem C80_media_exact : forall media params,
  (exists l bytes ps, encode_content_type_value media params = Ok l /\
     array_of (flatten_list l) = Ok bytes /\ Content_type media ps bytes /\ shows_params ps params) <->
  params = [] /\ standard_media media.
Proof.
  intros media params. split.
  2: { intros [-> H]. destruct (standard_media_run media H) as (b & E & Ho & HC).
       exists (ints b), b, []. rewrite flatten_ints, array_of_ints by exact Ho.
       split; [exact E|]. split; [reflexivity|]. split; [exact HC|]. intros k. reflexivity. }
  intros (l & bytes & ps & E & Ea & HC & HS).
  destruct params as [|q params].
  2: { exfalso. apply (C80_parameters_exact media (q :: params) l bytes); [discriminate|exact E|exact Ea|eauto]. }
  split; [reflexivity|].
  assert (Hg : forall v, bytes = 1 :: v -> 2 <= zlen v -> False).
  { intros v -> Hv. remember (1 :: v) as w eqn:Ew.
    destruct HC as [n md w Hn Hs|md w Hx|md psx ml pl n vl Hml Hpl Hvv En].
    - destruct Hs. apply (f_equal (hd 0)) in Ew. cbn [hd] in Ew. lia.
    - destruct Hx as [s Hnn Hs]. apply (f_equal (hd 0)) in Ew.
      destruct s as [|c s]; [contradiction|]. cbn [hd app starts_with] in Ew, Hs. lia.
    - assert (V : Value_length 1 [1]) by (apply vl_short; lia).
      change (1 :: v) with ([1] ++ v) in Ew.
      destruct (value_length_unique _ _ _ _ _ _ Hvv V Ew) as [-> E']. subst v.
      rewrite zlen_app in Hv. unfold n_octets, zlen in *. lia. }
  unfold encode_content_type_value, encode_constrained_media in E.
  destruct (index_of media well_known_content_types) as [i|] eqn:Ei.
  - destruct (index_of_nth _ _ _ Ei) as [Hi En]. pose proof content_types_few as Hf.
    unfold encode_constrained_encoding in E. replace (is_int i) with true in E by (unfold is_int, maxint; lia).
    rewrite encode_short_integer_ok in E by lia. cbn [bind on_encode_error] in E.
    assert (l = ints [128 + i]) as -> by congruence. rewrite flatten_ints in Ea.
    apply array_octets in Ea. destruct Ea as [-> _].
    assert (Hin : In media well_known_content_types) by (rewrite <- En; apply nth_In; unfold zlen in Hi; lia).
    assert (X : forallb (fun m => forallb (fun c => negb (c =? 0)) m &&
        match m with [] => false | c :: _ => (32 <=? c) && (c <? 127) end) well_known_content_types = true)
      by (vm_compute; reflexivity).
    rewrite forallb_forall in X. specialize (X media Hin).
    apply Bool.andb_true_iff in X. destruct X as [X1 X2].
    split; [|split].
    + apply Forall_forall. intros c Hc. rewrite forallb_forall in X1. specialize (X1 c Hc).
      assert (0 <= c < 256).
      { assert (X : forallb (forallb (fun c => (0 <=? c) && (c <? 256))) well_known_content_types = true) by (vm_compute; reflexivity).
        rewrite forallb_forall in X. specialize (X media Hin). rewrite forallb_forall in X. specialize (X c Hc). lia. }
      lia.
    + destruct media; [discriminate X2|]. cbn [starts_with]. lia.
    + intros ->. remember [128 + i] as w eqn:Ew. remember (str "multipart/byterantes") as md0 eqn:Em.
      destruct HC as [n md w [Hn0 Hn] Hs|md w Hx|md psx ml pl n vl Hml Hpl Hvv En'].
      * apply nth_error_In in Hn. rewrite Em in Hn. clear - Hn.
        assert (X : forallb (fun m => negb (leqb m (str "multipart/byterantes"))) assigned_media = true) by (vm_compute; reflexivity).
        rewrite forallb_forall in X. specialize (X _ Hn). rewrite leqb_refl in X. discriminate X.
      * destruct Hx as [s Hnn Hs]. apply (f_equal (hd 0)) in Ew.
        destruct s as [|c s]; [contradiction|]. cbn [hd app starts_with] in Ew, Hs. lia.
      * destruct (value_length_head _ _ Hvv) as (b & r & -> & Hb). cbn [app] in Ew.
        apply (f_equal (hd 0)) in Ew. cbn [hd] in Ew. lia.
  - cbn [encode_constrained_encoding] in E. unfold encode_extension_media in E.
    destruct media as [|c media]; [discriminate E|].
    destruct ((c <? 32) || (c =? 127)) eqn:C.
    + exfalso. cbn [bind on_encode_error] in E.
      unfold encode_content_general_form, encode_media_type in E. rewrite Ei in E.
      cbn [bind mapM map] in E. rewrite app_nil_r in E.
      change (zlen [EList (ints (encode_text_string (c :: media)))] + zlen (@nil (list Z))) with 1 in E.
      change (encode_value_length 1) with [1] in E.
      assert (l = ints [1] ++ [EList (ints (encode_text_string (c :: media)))]) as -> by congruence.
      rewrite flatten_app, flatten_ints in Ea. unfold flatten_list in Ea at 1.
      cbn [flat_map flatten_elt] in Ea. rewrite app_nil_r in Ea. fold (flatten_list (ints (encode_text_string (c :: media)))) in Ea.
      rewrite flatten_ints in Ea.
      assert (Z : ints [1] ++ ints (encode_text_string (c :: media)) = ints (1 :: encode_text_string (c :: media))) by reflexivity.
      rewrite Z in Ea. apply array_octets in Ea. destruct Ea as [Ea _].
      apply (Hg _ Ea). unfold encode_text_string. rewrite zlen_app, zlen_cons. pose proof (zlen_nonneg media).
      change (zlen [0]) with 1. lia.
    + cbn [bind on_encode_error] in E. assert (l = ints (c :: media ++ [0])) as -> by (unfold encode_text_string in E; cbn [app] in E; congruence).
      rewrite flatten_ints in Ea. apply array_octets in Ea. destruct Ea as [-> _].
      remember (c :: media ++ [0]) as w eqn:Ew. remember (c :: media) as md0 eqn:Em.
      destruct HC as [n md w [Hn0 Hn] Hs|md w Hx|md psx ml pl n vl Hml Hpl Hvv En'].
      * destruct Hs. exfalso. apply (f_equal (@length Z)) in Ew. cbn [length] in Ew. rewrite app_length in Ew. cbn [length] in Ew. lia.
      * destruct Hx as [s Hnn Hs]. split; [exact Hnn|]. split; [exact Hs|].
        intros ->. vm_compute in Ei. discriminate Ei.
      * exfalso. destruct (value_length_head _ _ Hvv) as (b & r & -> & Hb). cbn [app] in Ew.
        apply (f_equal (hd 0)) in Ew. cbn [hd] in Ew. lia.
Qed.
Print Assumptions C80_media_exact.

(** Exactly which headers of a part are written as headers of the standard that mean
    them, among the numbered text headers and the application headers (the grammar
    has no others). *)
Theorem C80_part_header_exact : forall name h,
  In name (map fst part_header_names) \/ ~ In name (firstn 56 header_field_names) ->
  ((exists l b s, wsp_encode_header name h = Ok l /\ array_of l = Ok b /\
      Part_header name s b /\ h = HStr s) <-> standard_part_header name h).
Proof.
  intros name h Hname. split.
  2: { intros H. destruct (standard_part_header_run name h H) as (b & E & Ho & s & Es & HP).
       cbn [fst snd] in *. exists (ints b), b, s. rewrite array_of_ints by exact Ho. auto. }
  intros (l & b & s & E & Ea & HP & ->). unfold wsp_encode_header in E.
  rewrite header_names_12 in E. cbn [bind] in E. destruct Hname as [Hn|Hi].
  - destruct (part_header_numbers name Hn) as (c & Hin & Hc & Ei & Ee).
    rewrite Ei, encode_short_integer_ok in E by lia. cbn [bind] in E. rewrite Ee in E.
    cbn [encode_text_string_h encode_text_string_p bind HStr] in E.
    assert (l = ints (c :: s ++ [0])) as ->.
    { replace (128 + (c - 128)) with c in E by lia. unfold encode_text_string, ints in *. cbn [map app] in *. congruence. }
    apply array_octets in Ea. destruct Ea as [-> _]. apply sph_number; [exact Hn|].
    remember (c :: s ++ [0]) as w eqn:Ew.
    destruct HP as [name c' s' l' _ H|s' l' H|name s' l' t Ht _ H].
    + apply (f_equal (@tl Z)) in Ew. cbn [tl] in Ew. subst l'. apply text_written. exact H.
    + exfalso. clear - Hn. vm_compute in Hn. intuition discriminate.
    + exfalso. eapply application_start; [exact Ht|exact Ew|lia].
  - rewrite index_of_none in E by exact Hi. rewrite encode_token_text_spec in E.
    destruct (existsb is_separator name) eqn:Es; [discriminate|]. cbn [bind] in E.
    assert (He : header_field_encoding name = OtherValue).
    { unfold header_field_encoding.
      destruct (leqb name (str "Accept")) eqn:E1.
      { apply leqb_eq in E1. subst. exfalso. apply Hi. vm_compute. auto. }
      destruct (leqb name (str "Pragma")) eqn:E2; [|reflexivity].
      apply leqb_eq in E2. subst. exfalso. apply Hi. vm_compute. auto 40. }
    rewrite He in E. cbn [encode_text_string_h encode_text_string_p bind HStr] in E.
    assert (l = ints ((name ++ [0]) ++ s ++ [0])) as ->.
    { unfold encode_text_string in E. unfold ints in *. rewrite <- map_app in E. congruence. }
    apply array_octets in Ea. destruct Ea as [-> _].
    remember ((name ++ [0]) ++ s ++ [0]) as w eqn:Ew.
    destruct HP as [name c' s' l' Hin H|s' l' H|name s' l' t Ht _ H].
    + exfalso. apply Hi. apply (in_map fst) in Hin. cbn [fst] in Hin.
      destruct (part_header_numbers name Hin) as (c & _ & _ & Ei & _).
      destruct (index_of_nth _ _ _ Ei) as [Hr <-]. apply nth_In. unfold zlen in Hr. lia.
    + exfalso. apply (f_equal (hd 0)) in Ew. vm_compute in Ew. discriminate Ew.
    + destruct Ht as [name Ht]. apply app_inv_head in Ew. subst l'.
      apply sph_application; [exact Ht|exact Hi|apply text_written; exact H].
Qed.
Print Assumptions C80_part_header_exact.
Example C80_part_header_case :
  standard_part_header (str "Content-Location") (HStr (str "cat.jpg")) /\
  standard_part_header (str "Content-ID") (HStr (str "<1>")) /\
  ~ standard_part_header (str "Content-Location") (HStr [228]).
Proof.
  split; [|split].
  - apply sph_number; [vm_compute; auto|apply sample_ascii; reflexivity].
  - apply sph_application; [|vm_compute; intuition discriminate|apply sample_ascii; reflexivity].
    split; [discriminate|]. vm_compute. repeat constructor; intuition discriminate.
  - intros H. remember (str "Content-Location") as nm eqn:En. remember (HStr [228]) as h eqn:Eh.
    destruct H as [nm s Hn Hs|nm s Ht Hn Hs].
    + assert (s = [228]) as -> by (unfold HStr in Eh; congruence). destruct Hs as [_ [Hs|Hs]]; [discriminate Hs|].
      cbn [starts_with] in Hs. lia.
    + subst nm. apply Hn. vm_compute. auto 60.
Qed.
