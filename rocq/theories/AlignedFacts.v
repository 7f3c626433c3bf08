(** Readings of what is written, for C80_exact: an octet string that the encoder wrote
    and that the grammar derives is cut by both at the same places. *)
From Coq Require Import Lia ZifyBool ZifyNat Permutation.
From Verif Require Import Py Iter Tables WspDec WspEnc Message MmsEnc MmsDec
  SpecWsp SpecVersion WspClaims MmsClaims PropVersion PropHeaderExact SpecMms GrammarClaims EncodeClaims
  SpecRefuse SpecWritten
  PyFacts IterFacts WspFacts ContentFacts HeaderFacts MmsTotal DeliverFacts BodyFacts MsgHeaderFacts GrammarFacts EncodeFacts PropEncode PropFieldExact RefuseFacts WrittenFacts PropWritten.
Open Scope Z_scope.

(** * Numbers *)

Lemma uintvar_prefix n n' l l' r r' : Uintvar n l -> Uintvar n' l' -> l ++ r = l' ++ r' ->
  n = n' /\ l = l' /\ r = r'.
Proof.
  intros [ds d A B] [ds' d' A' B'] E. destruct (octets_prefix _ _ _ _ _ _ A A' B B' E) as (-> & -> & ->). auto.
Qed.

Lemma uintvar_of_is n l : uintvar_of n l -> Uintvar n l.
Proof. intros [ds d A B C D]. rewrite <- D. constructor; assumption. Qed.

Lemma value_length_of_is n l : 0 <= n -> value_length_of n l -> Value_length n l.
Proof. intros Hn [H|l' H U]; constructor; [lia|apply uintvar_of_is; exact U]. Qed.

Lemma length_value n n' vl vl' r r' : Value_length n vl -> Value_length n' vl' ->
  vl ++ r = vl' ++ r' -> n = n' /\ vl = vl' /\ r = r'.
Proof.
  intros H H' E. destruct H as [n Hn|n l U]; destruct H' as [n' Hn'|n' l' U']; cbn [app] in E.
  - apply (f_equal (hd 0)) in E as E1. cbn [hd] in E1. split; [lia|]. split; congruence.
  - apply (f_equal (hd 0)) in E. cbn [hd] in E. lia.
  - apply (f_equal (hd 0)) in E. cbn [hd] in E. lia.
  - apply (f_equal (@tl Z)) in E. cbn [tl] in E.
    destruct (uintvar_prefix _ _ _ _ _ _ U U' E) as (-> & -> & ->). auto.
Qed.

Lemma length_start n vl : Value_length n vl -> exists c r, vl = c :: r /\ 0 <= c <= 31 /\ (c = 31 \/ c = n).
Proof. intros [k H|k l U]; [exists k, []|exists 31, l]; (split; [reflexivity|lia]). Qed.

Lemma same_length_prefix (a a' r r' : list Z) : length a = length a' -> a ++ r = a' ++ r' -> a = a' /\ r = r'.
Proof.
  intros H E. revert a' H E. induction a as [|x a IH]; intros [|y a'] H E; try discriminate H.
  - split; [reflexivity|exact E].
  - cbn [app] in E. apply (f_equal (hd 0)) in E as E1. apply (f_equal (@tl Z)) in E. cbn [hd tl] in *.
    destruct (IH a' ltac:(cbn in H; lia) E) as [-> ->]. subst. auto.
Qed.

Lemma up_to_nul s s' r r' : no_nul s -> no_nul s' -> s ++ 0 :: r = s' ++ 0 :: r' -> s = s' /\ r = r'.
Proof.
  unfold no_nul. revert s'. induction s as [|x s IH]; intros [|y s'] H H' E; cbn [app] in E.
  - split; [reflexivity|congruence].
  - exfalso. apply (f_equal (hd 0)) in E. cbn [hd] in E. apply Forall_inv in H'. lia.
  - exfalso. apply (f_equal (hd 0)) in E. cbn [hd] in E. apply Forall_inv in H. lia.
  - apply (f_equal (hd 0)) in E as E1. apply (f_equal (@tl Z)) in E. cbn [hd tl] in *.
    destruct (IH s' (Forall_inv_tail H) (Forall_inv_tail H') E) as [-> ->]. subst. auto.
Qed.

(** * Texts *)

Lemma text_align s l r r' : Text_string s l -> l ++ r = (s ++ [0]) ++ r' -> l = s ++ [0].
Proof.
  intros [s' _ _|s' Ht Hs] E; [reflexivity|]. exfalso. destruct s' as [|c s']; [destruct Hs|].
  cbn [starts_with app] in *. apply (f_equal (hd 0)) in E. cbn [hd] in E. lia.
Qed.

Lemma text_of_grammar s l : Text_string s l -> text s.
Proof. intros [s' H _|s' H _]; exact H. Qed.

Lemma encoded_align s l r r' : Encoded_string s l -> l ++ r = (s ++ [0]) ++ r' -> l = s ++ [0].
Proof.
  intros [s' l' H|s' l' charset cs n vl Hi Ht Hv Hn] E; [exact (text_align _ _ _ _ H E)|]. exfalso.
  destruct (length_start _ _ Hv) as (c & vr & -> & Hc & Hcn). cbn [app] in E.
  destruct (text_of_grammar _ _ Ht) as [_ [->|Hs]].
  - cbn [app] in E. apply (f_equal (hd 0)) in E. cbn [hd] in E. apply text_long in Ht. unfold n_octets in Hn.
    cbn [length] in Ht. lia.
  - destruct s' as [|d s']; [destruct Hs|]. cbn [starts_with app] in *. apply (f_equal (hd 0)) in E. cbn [hd] in E. lia.
Qed.

(** * Names *)

Definition field_numbers : list (list Z * Z) :=
  [(str "Bcc", 129); (str "Cc", 130); (str "Content-Location", 131); (str "Date", 133);
   (str "Delivery-Report", 134); (str "Delivery-Time", 135); (str "Expiry", 136); (str "From", 137);
   (str "Message-Class", 138); (str "Message-ID", 139); (str "Message-Type", 140);
   (str "MMS-Version", 141); (str "Message-Size", 142); (str "Priority", 143); (str "Read-Reply", 144);
   (str "Report-Allowed", 145); (str "Response-Status", 146); (str "Response-Text", 147);
   (str "Sender-Visibility", 148); (str "Status", 149); (str "Subject", 150); (str "To", 151);
   (str "Transaction-Id", 152)].

Lemma numbers_once k k' c : In (k, c) field_numbers -> In (k', c) field_numbers -> k = k'.
Proof.
  intros H H'. unfold field_numbers in *. cbn [In] in H, H'.
  repeat (destruct H as [H|H]; [apply pair_equal_spec in H; destruct H as [<- <-];
    repeat (destruct H' as [H'|H']; [apply pair_equal_spec in H'; destruct H' as [<- E];
      first [reflexivity|discriminate E]|]); destruct H'|]).
  destruct H.
Qed.

Lemma numbers_range k c : In (k, c) field_numbers -> 128 < c /\ c <> 132.
Proof.
  intros H. unfold field_numbers in *. cbn [In] in H.
  repeat (destruct H as [H|H]; [apply pair_equal_spec in H; destruct H as [_ <-]; lia|]). destruct H.
Qed.

Lemma numbers_known k c : In (k, c) field_numbers -> In k (text_fields ++ read_only_fields ++ coded_fields).
Proof.
  intros H. unfold field_numbers in *. cbn [In] in H.
  repeat (destruct H as [H|H]; [apply pair_equal_spec in H; destruct H as [<- _]; vm_compute; auto 40|]). destruct H.
Qed.

Lemma field_start k v b : Field k v b ->
  (exists c r, b = c :: r /\ In (k, c) field_numbers) \/
  (exists s l, token k /\ k <> str "Content-Type" /\ v = Text s /\ Text_string s l /\ b = (k ++ [0]) ++ l).
Proof.
  intros [name k' s' l' Hk' H|name k' s' l' Hk' H|t l' H|name k' y Hk'
    |name k' t l' n vl Hk' H Hv _|name k' t l' n vl Hk' H Hv _|s' l' n vl H Hv _|vl Hv
    |name k' table k2 s' Hk' H|s' l' H|s' l' H|n l' H|name s' l' t Ht Hne H].
  13: { right. destruct Ht as [name Ht]. exists s', l'. auto. }
  all: left; eexists; eexists; (split; [reflexivity|]).
  all: try solve [vm_compute; auto 40].
  all: cbn [In] in Hk'; repeat (destruct Hk' as [Hk'|Hk'];
    [repeat match goal with E : (_, _) = (_, _) |- _ => apply pair_equal_spec in E; destruct E end;
     subst; vm_compute; auto 40|]); destruct Hk'.
Qed.

Lemma header_start k h b : header_written k h b ->
  (exists c r, b = c :: r /\ In (k, c) field_numbers) \/
  (exists s, ~ In k (text_fields ++ read_only_fields ++ coded_fields) /\ text_of h s /\ b = (k ++ [0]) ++ s ++ [0]).
Proof.
  intros [n s Hin Hs|s l -> Hs Hne Hl| -> ->|s c -> -> Hin| -> Hno|s l -> -> Hs|n l -> Hv Hl|s c -> -> Hin|s Hin Hs].
  9: { right. exists s. rewrite <- app_assoc. auto. }
  all: left; eexists; eexists; (split; [reflexivity|]).
  all: try solve [vm_compute; auto 40].
  unfold numbered_texts in Hin. cbn [In] in Hin.
  repeat (destruct Hin as [Hin|Hin]; [apply pair_equal_spec in Hin; destruct Hin as [<- <-]; vm_compute; auto 40|]).
  destruct Hin.
Qed.

Lemma token_nul s : token s -> no_nul s.
Proof. intros [_ H]. eapply Forall_impl; [|exact H]. cbn beta. intros c [X _]. lia. Qed.

Lemma field_known k v b : Field k v b -> ~ In k (text_fields ++ read_only_fields ++ coded_fields) -> token k.
Proof.
  intros H Hn. destruct (field_start _ _ _ H) as [(c & r & _ & Hi)|(s & l & Ht & _)]; [|exact Ht].
  exfalso. apply Hn. exact (numbers_known _ _ Hi).
Qed.

Lemma same_name k v b k' h b' v' b2 r r' : Field k v b -> header_written k' h b' -> Field k' v' b2 ->
  b ++ r = b' ++ r' -> k = k'.
Proof.
  intros HF HW HF' E.
  destruct (field_start _ _ _ HF) as [(c & x & -> & Hi)|(s & l & Ht & _ & _ & _ & ->)];
  destruct (header_start _ _ _ HW) as [(c' & x' & -> & Hi')|(s' & Hn & _ & ->)].
  - cbn [app] in E. apply (f_equal (hd 0)) in E. cbn [hd] in E. subst c'. exact (numbers_once _ _ _ Hi Hi').
  - exfalso. apply field_known in HF'; [|exact Hn]. destruct HF' as [Hne HF']. destruct k' as [|y k']; [congruence|].
    cbn [app] in E. apply (f_equal (hd 0)) in E. cbn [hd] in E. apply numbers_range in Hi.
    apply Forall_inv in HF'. lia.
  - exfalso. destruct Ht as [Hne Ht]. destruct k as [|y k]; [congruence|].
    cbn [app] in E. apply (f_equal (hd 0)) in E. cbn [hd] in E. apply numbers_range in Hi'.
    apply Forall_inv in Ht. lia.
  - apply field_known in HF'; [|exact Hn]. rewrite <- !app_assoc in E. cbn [app] in E.
    destruct (up_to_nul _ _ _ _ (token_nul _ Ht) (token_nul _ HF') E) as [-> _]. reflexivity.
Qed.

(** * One header *)

Ltac nums := match goal with
  | H : In (_, _) _ |- _ => clear - H; cbn [In] in H; intuition congruence
  end.

(** A field that means a header and starts where the header was written is what was
    written, and the header is a standard one. *)
Lemma field_aligned k v b h b' r r' : Field k v b -> header_written k h b' -> shows k v h ->
  (forall s, k = str "MMS-Version" -> h = HStr s -> (dot_count s <= 1)%nat) ->
  b ++ r = b' ++ r' -> b = b'.
Proof.
  intros HF HW HS HV E.
  destruct HW as [n s Hin Hs|s l -> Hs Hne Hl| -> ->|s c -> -> Hin| -> Hno|s l -> -> Hs|n l -> Hv Hl|s c -> -> Hin|s Hin Hs].
  - (* texts *)
    assert (Hn : 128 <= n) by (clear - Hin; unfold numbered_texts in Hin; cbn [In] in Hin; repeat (destruct Hin as [Hin|Hin]; [apply pair_equal_spec in Hin; lia|]); destruct Hin).
    assert (X : exists l s', b = n :: l /\ v = Text s' /\ Encoded_string s' l).
    { destruct HF as [name k' s' l' Hk' H|name k' s' l' Hk' H|t l' H|name k' y Hk'
        |name k' t l' n' vl Hk' H Hv _|name k' t l' n' vl Hk' H Hv _|s' l' n' vl H Hv _|vl Hv
        |name k' table k2 s' Hk' H|s' l' H|s' l' H|n' l' H|name s' l' t Ht Hne H];
        try (unfold numbered_texts in Hin; no_name).
      - cbn [app] in E. apply (f_equal (hd 0)) in E. cbn [hd] in E. subst k'. eauto.
      - cbn [app] in E. apply (f_equal (hd 0)) in E. cbn [hd] in E. subst k'. eexists; eexists; split; [reflexivity|]. split; [reflexivity|]. constructor; exact H.
      - exfalso. eapply application_start; [exact Ht|rewrite <- app_assoc in E; cbn [app] in E; exact E|exact Hn]. }
    destruct X as (l & s' & -> & -> & He). cbn [shows] in HS. subst h.
    assert (s' = s) as ->.
    { destruct Hs as [Hs|(a & c & Hs & _)]; unfold HStr in Hs; [congruence|discriminate]. }
    cbn [app] in E. apply (f_equal (@tl Z)) in E. cbn [tl] in E. f_equal. exact (encoded_align _ _ _ _ He E).
  - (* From *)
    assert (Hvl : Value_length (n_octets s + 2) l) by (apply value_length_of_is; [unfold n_octets; lia|exact Hl]).
    remember (str "From") as name eqn:En.
    destruct HF as [name k' s' l' Hk' H|name k' s' l' Hk' H|t l' H|name k' y Hk'
      |name k' t l' n' vl Hk' H Hv _|name k' t l' n' vl Hk' H Hv _|s' l' n' vl H Hv Hn'|vl Hv
      |name k' table k2 s' Hk' H|s' l' H|s' l' H|n' l' H|name s' l' t Ht Hne' H];
      try (rewrite En in Hk'; no_name); try discriminate En.
    + cbn [shows] in HS. subst h.
      assert (s' = s) as ->.
      { destruct Hs as [Hs|(a & c & Hs & _)]; unfold HStr in Hs; [congruence|discriminate]. }
      cbn [app] in E. apply (f_equal (@tl Z)) in E. cbn [tl] in E. rewrite <- !app_assoc in E.
      destruct (length_value _ _ _ _ _ _ Hv Hvl E) as (Eq & -> & E'). cbn [app] in E'.
      apply (f_equal (@tl Z)) in E'. cbn [tl] in E'. do 3 f_equal.
      apply (encoded_align _ _ _ _ H E').
    + exfalso. cbn [app] in E. apply (f_equal (@tl Z)) in E. cbn [tl] in E. rewrite <- !app_assoc in E.
      destruct (length_value _ _ _ _ _ _ Hv Hvl E) as (Eq & _). unfold n_octets in Eq.
      destruct s; [congruence|]. cbn [length] in Eq. lia.
    + exfalso. eapply application_start; [exact Ht|rewrite <- app_assoc in E; cbn [app] in E; exact E|lia].
  - exfalso. remember (str "From") as name eqn:En.
    assert (Hvl : Value_length 1 [1]) by (apply SpecMms.vl_short; lia).
    destruct HF as [name k' s' l' Hk' H|name k' s' l' Hk' H|t l' H|name k' y Hk'
      |name k' t l' n' vl Hk' H Hv _|name k' t l' n' vl Hk' H Hv _|s' l' n' vl H Hv Hn'|vl Hv
      |name k' table k2 s' Hk' H|s' l' H|s' l' H|n' l' H|name s' l' t Ht Hne' H];
      try (rewrite En in Hk'; no_name); try discriminate En.
    + cbn [app] in E. apply (f_equal (@tl Z)) in E. cbn [tl] in E. rewrite <- !app_assoc in E.
      change (1 :: 129 :: r') with ([1] ++ 129 :: r') in E.
      destruct (length_value _ _ _ _ _ _ Hv Hvl E) as (Eq & _ & E'). cbn [app] in E'.
      apply (f_equal (hd 0)) in E'. cbn [hd] in E'. lia.
    + discriminate HS.
    + eapply application_start; [exact Ht|rewrite <- app_assoc in E; cbn [app] in E; exact E|lia].
  - remember (str "Message-Type") as name eqn:En.
    destruct HF as [name k' s' l' Hk' H|name k' s' l' Hk' H|t l' H|name k' y Hk'
      |name k' t l' n' vl Hk' H Hv _|name k' t l' n' vl Hk' H Hv _|s' l' n' vl H Hv Hn'|vl Hv
      |name k' table k2 s' Hk' H|s' l' H|s' l' H|n' l' H|name s' l' t Ht Hne' H];
      try (rewrite En in Hk'; no_name); try discriminate En.
    + exact (proj1 (same_length_prefix [k'; k2] [140; c] r r' eq_refl E)).
    + exfalso. eapply application_start; [exact Ht|rewrite <- app_assoc in E; cbn [app] in E; exact E|lia].
  - remember (str "Message-Type") as name eqn:En.
    destruct HF as [name k' s' l' Hk' H|name k' s' l' Hk' H|t l' H|name k' y Hk'
      |name k' t l' n' vl Hk' H Hv _|name k' t l' n' vl Hk' H Hv _|s' l' n' vl H Hv Hn'|vl Hv
      |name k' table k2 s' Hk' H|s' l' H|s' l' H|n' l' H|name s' l' t Ht Hne' H];
      try (rewrite En in Hk'; no_name); try discriminate En.
    + exact (proj1 (same_length_prefix [k'; k2] [140; 128] r r' eq_refl E)).
    + exfalso. eapply application_start; [exact Ht|rewrite <- app_assoc in E; cbn [app] in E; exact E|lia].
  - (* version *)
    specialize (HV s eq_refl eq_refl). remember (str "MMS-Version") as name eqn:En.
    destruct HF as [name k' s' l' Hk' H|name k' s' l' Hk' H|t l' H|name k' y Hk'
      |name k' t l' n' vl Hk' H Hv _|name k' t l' n' vl Hk' H Hv _|s' l' n' vl H Hv Hn'|vl Hv
      |name k' table k2 s' Hk' H|s' l' H|s' l' H|n' l' H|name s' l' t Ht Hne' H];
      try (rewrite En in Hk'; no_name); try discriminate En.
    + cbn [shows] in HS. assert (s' = s) as -> by (unfold HStr in HS; congruence).
      cbn [app] in E. apply (f_equal (@tl Z)) in E. cbn [tl] in E. f_equal.
      assert (Hdec : forall M x, 1 <= M <= 7 -> small_dec M ++ x = (48 + M) :: x).
      { intros M x HM. unfold small_dec. replace (M <? 10) with true by lia. reflexivity. }
      remember s as s0 eqn:Es0 in Hs. rewrite <- Es0 in HV.
      destruct H as [M m HM Hm|M HM|s l0 H];
        destruct Hs as [M' m' s0 HM'|M' s0 HM'|s0 Hd|s0 HO].
      all: try (exfalso; lia).
      all: try (refine (proj1 (same_length_prefix _ _ r r' _ E)); reflexivity).
      * exfalso. rewrite Es0, <- !app_assoc, Hdec in E by exact HM. cbn [app] in E.
        apply (f_equal (hd 0)) in E. cbn [hd] in E. lia.
      * exfalso. rewrite Es0, <- !app_assoc, Hdec in E by exact HM. cbn [app] in E.
        apply (f_equal (hd 0)) in E. cbn [hd] in E. lia.
      * exfalso. apply text_string_start in H. destruct HM' as (? & ? & _ & _ & _ & _ & ? & ?).
        destruct l0 as [|y l0]; [destruct H|]. cbn [starts_with app] in *. apply (f_equal (hd 0)) in E. cbn [hd] in E. lia.
      * exfalso. apply text_string_start in H. destruct HM' as (_ & _ & ?).
        destruct l0 as [|y l0]; [destruct H|]. cbn [starts_with app] in *. apply (f_equal (hd 0)) in E. cbn [hd] in E. lia.
      * subst s0. exact (text_align _ _ _ _ H E).
    + exfalso. eapply application_start; [exact Ht|rewrite <- app_assoc in E; cbn [app] in E; exact E|lia].
  - (* size *)
    remember (str "Message-Size") as name eqn:En.
    destruct HF as [name k' s' l' Hk' H|name k' s' l' Hk' H|t l' H|name k' y Hk'
      |name k' t l' n' vl Hk' H Hv' _|name k' t l' n' vl Hk' H Hv' _|s' l' n' vl H Hv' Hn'|vl Hv'
      |name k' table k2 s' Hk' H|s' l' H|s' l' H|n' l' H|name s' l' t Ht Hne' H];
      try (rewrite En in Hk'; no_name); try discriminate En.
    + cbn [app] in E. apply (f_equal (@tl Z)) in E. cbn [tl] in E. f_equal.
      destruct H as [d Hd Hr]. destruct Hl as [ds _ A B C|_ A].
      * apply (same_length_prefix _ _ r r'); [|exact E].
        cbn [app] in E. apply (f_equal (hd 0)) in E. cbn [hd] in E. unfold n_octets in E. cbn [length]. rewrite rev_length. lia.
      * exfalso. cbn [app] in E. apply (f_equal (hd 0)) in E. cbn [hd] in E. lia.
    + exfalso. eapply application_start; [exact Ht|rewrite <- app_assoc in E; cbn [app] in E; exact E|lia].
  - remember (str "Status") as name eqn:En.
    destruct HF as [name k' s' l' Hk' H|name k' s' l' Hk' H|t l' H|name k' y Hk'
      |name k' t l' n' vl Hk' H Hv _|name k' t l' n' vl Hk' H Hv _|s' l' n' vl H Hv Hn'|vl Hv
      |name k' table k2 s' Hk' H|s' l' H|s' l' H|n' l' H|name s' l' t Ht Hne' H];
      try (rewrite En in Hk'; no_name); try discriminate En.
    + exact (proj1 (same_length_prefix [k'; k2] [149; c] r r' eq_refl E)).
    + exfalso. eapply application_start; [exact Ht|rewrite <- app_assoc in E; cbn [app] in E; exact E|lia].
  - destruct (field_start _ _ _ HF) as [(c & x & -> & Hi)|(s' & l & Ht & _ & -> & Hx & ->)].
    + exfalso. apply Hin. exact (numbers_known _ _ Hi).
    + cbn [shows] in HS. subst h.
      assert (s' = s) as ->.
      { destruct Hs as [Hs|(a & c & Hs & _)]; unfold HStr in Hs; [congruence|discriminate]. }
      rewrite <- !app_assoc in E. apply app_inv_head in E. cbn [app] in E. apply (f_equal (@tl Z)) in E. cbn [tl] in E.
      change (0 :: s ++ [0]) with ([0] ++ s ++ [0]). rewrite <- app_assoc. do 2 f_equal.
      apply (text_align _ _ r r' Hx). rewrite <- app_assoc. exact E.
Qed.

Lemma known_same name : ~ In name (text_fields ++ read_only_fields ++ coded_fields) ->
  ~ In name (map (fun p => fst (snd p)) mms_field_names).
Proof.
  intros H X. apply H. vm_compute in X.
  repeat (destruct X as [X|X]; [subst name; vm_compute; auto 40|]). destruct X.
Qed.

Lemma field_standard k v b h : Field k v b -> header_written k h b -> shows k v h -> standard k h.
Proof.
  intros HF HW HS.
  destruct HW as [n s Hin Hs|s l Ek Hs Hne Hl|Ek Eh|s c Ek Eh Hin|Ek Hno|s l Ek Eh Hs|n l Ek Hv Hl|s c Ek Eh Hin|s Hin Hs];
    try subst k; try subst h.
  - assert (h = HStr s) as ->.
    { destruct Hs as [Hs|(a & c & Hs & _)]; [exact Hs|]. subst h. destruct (no_pair _ _ _ _ HS). }
    assert (X : ascii_text s).
    { apply (string_written k n s v); [|exact HF|exact HS]. clear - Hin. unfold numbered_texts in Hin.
      cbn [In] in *. intuition. }
    apply std_string; [|exact X]. clear - Hin. unfold numbered_texts in Hin. cbn [In] in *. intuition congruence.
  - assert (h = HStr s) as ->.
    { destruct Hs as [Hs|(a & c & Hs & _)]; [exact Hs|]. subst h. destruct (no_pair _ _ _ _ HS). }
    apply std_from; [|exact Hne].
    assert (El : l = encode_value_length (n_octets s + 2)).
    { eapply value_length_once; [exact Hl|]. apply value_length_written. unfold n_octets. lia. }
    rewrite El in HF. apply (from_written s v (n_octets s + 2)); [|exact HF|exact HS].
    apply value_length_grammar. unfold n_octets. lia.
  - destruct (insert_not_empty _ HF HS).
  - destruct (code_written (str "Message-Type") 140 s v c) as [[_ H]|[H _]];
      [cbn [In]; auto|exact HF|exact HS| |discriminate H]. exact (std_type _ _ H).
  - exfalso. assert (X : exists s, h = HStr s /\ In (128, s) message_type_names).
    { remember [140; 128] as l eqn:El. remember (str "Message-Type") as name eqn:En.
      destruct HF as [name k' s' l' Hk' H|name k' s' l' Hk' H|t l' H|name k' y Hk'
        |name k' t l' n' vl Hk' H Hv _|name k' t l' n' vl Hk' H Hv _|s' l' n' vl H Hv Hn'|vl Hv
        |name k' table k2 s' Hk' H|s' l' H|s' l' H|n' l' H|name s' l' t Ht Hne' H];
        try (rewrite En in Hk'; no_name); try discriminate En.
      - exists s'. split; [exact HS|]. assert (k2 = 128) as -> by congruence. subst name.
        cbn [In] in Hk'.
        repeat (destruct Hk' as [Hk'|Hk']; [apply pair_equal_spec in Hk'; destruct Hk' as [Hk' <-];
          apply pair_equal_spec in Hk'; destruct Hk' as [Hk' _]; first [exact H|discriminate Hk']|]);
        destruct Hk'.
      - exfalso. eapply application_start; [exact Ht|exact El|lia]. }
    destruct X as (s & -> & H). apply (Hno s); [|reflexivity].
    cbn [message_type_names In] in H.
    repeat (destruct H as [H|H]; [apply pair_equal_spec in H; destruct H as [_ <-]; vm_compute; auto 40|]).
    destruct H.
  - exact (version_written _ _ _ Hs HF HS).
  - destruct (size_shown _ _ _ HF HS) as (n' & ->).
    pose proof (size_written _ _ _ HF HS) as HL.
    assert (n' = n) as ->.
    { unfold HInt in Hv. destruct Hv as [Hv|[(Hv & _)|(Hv & _)]]; congruence. }
    destruct Hl as [ds M A B C|M A].
    + remember (n_octets ds :: rev ds) as z eqn:Ez. remember n as n0 eqn:En0 in HL.
      destruct HL as [x Hx1 Hx2]. apply (f_equal (@tl Z)) in Ez. cbn [tl] in Ez. subst x.
      rewrite <- C. apply std_size; try assumption.
      * destruct ds; [|discriminate]. cbn in Hx2. lia.
      * apply PropEncode.big_endian_inj; [apply Forall_rev; exact A|exact A|apply rev_length|congruence].
      * apply machine_iff in M. unfold is_int in M. lia.
    + exfalso. remember [0] as z eqn:Ez. destruct HL as [x Hx1 Hx2]. apply (f_equal (hd 0)) in Ez. cbn [hd] in Ez. lia.
  - destruct (code_written (str "Status") 149 s v c) as [[H _]|[_ H]];
      [cbn [In]; auto|exact HF|exact HS|discriminate H|]. exact (std_status _ _ H).
  - destruct (field_start _ _ _ HF) as [(c & x & _ & Hi)|(s' & l & Ht & _ & -> & Hx & E)].
    + exfalso. apply Hin. exact (numbers_known _ _ Hi).
    + cbn [shows] in HS. subst h.
      assert (s' = s) as ->.
      { destruct Hs as [Hs|(a & c & Hs & _)]; unfold HStr in Hs; [congruence|discriminate]. }
      rewrite <- app_assoc in E. apply app_inv_head in E. cbn [app] in E. apply (f_equal (@tl Z)) in E. cbn [tl] in E.
      subst l. apply std_application; [exact Ht|apply known_same; exact Hin|apply text_written; exact Hx].
Qed.

(** * Sequences *)

(** Items read one after the other from what was written item by item, each written
    item being the meaning of some item, are the written ones. *)
Lemma items_aligned {V} (Item : list Z -> V -> list Z -> Prop) (W : list Z -> hval -> list Z -> Prop)
  (sh : list Z -> V -> hval -> Prop) (ok : list Z -> hval -> Prop) :
  (forall k v b k' h b' v' b2 r r', Item k v b -> W k' h b' -> Item k' v' b2 -> b ++ r = b' ++ r' -> k = k') ->
  (forall k v b h b' r r', Item k v b -> W k h b' -> sh k v h -> ok k h -> b ++ r = b' ++ r' -> b = b') ->
  forall L bs, Forall2 (fun e b => W (fst e) (snd e) b) L bs ->
  forall fs fl r r', Sequence Item fs fl -> fl ++ r = concat bs ++ r' ->
  Forall (fun e => ok (fst e) (snd e) /\ exists v b, Item (fst e) v b) L ->
  (forall k v h, In (k, v) fs -> In (k, h) L -> sh k v h) ->
  (forall k v b x, Item k v b -> r' <> b ++ x) ->
  (forall k h b x v b2, W k h b -> Item k v b2 -> r <> b ++ x) ->
  r = r' /\ fl = concat bs /\ map fst fs = map fst L /\
  Forall2 (fun e b => exists v, Item (fst e) v b /\ sh (fst e) v (snd e)) L bs.
Proof.
  intros H1 H2 L bs HW. induction HW as [|[k h] b' L bs Hw HW IH]; intros fs fl r r' HS E HL Hsh He He'.
  - cbn [concat app] in E. destruct HS as [|name v l vs x Hi HS].
    + cbn [app] in E. auto.
    + exfalso. rewrite <- app_assoc in E. exact (He _ _ _ _ Hi (eq_sym E)).
  - cbn [fst snd concat] in *. destruct (Forall_inv HL) as [Hok (v0 & b0 & Hv0)]. cbn [fst snd] in *.
    destruct HS as [|name v l vs x Hi HS].
    + exfalso. cbn [app] in E. rewrite <- app_assoc in E. exact (He' _ _ _ _ _ _ Hw Hv0 E).
    + rewrite <- !app_assoc in E. pose proof (H1 _ _ _ _ _ _ _ _ _ _ Hi Hw Hv0 E) as ->.
      assert (X : sh k v h) by (apply Hsh; left; reflexivity).
      pose proof (H2 _ _ _ _ _ _ _ Hi Hw X Hok E) as ->. apply app_inv_head in E.
      destruct (IH vs x r r' HS E (Forall_inv_tail HL)) as (-> & -> & En & HF); [|exact He|exact He'|].
      { intros k' v' h' A B. apply Hsh; right; assumption. }
      split; [reflexivity|]. split; [reflexivity|]. split; [cbn [map fst]; congruence|].
      constructor; [|exact HF]. exists v. auto.
Qed.

(** * Content types *)

Lemma assigned_start m : In m assigned_media -> starts_with (fun c => 32 <= c < 127) m /\ no_nul m.
Proof.
  assert (X : forallb (fun m => match m with c :: _ => (32 <=? c) && (c <? 127) | [] => false end
                                && forallb (fun c => (0 <? c) && (c <? 256)) m) assigned_media = true)
    by (vm_compute; reflexivity).
  intros H. rewrite forallb_forall in X. specialize (X m H). apply andb_prop in X. destruct X as [X Y]. split.
  - destruct m; [discriminate|]. cbn [starts_with]. lia.
  - apply Forall_forall. intros c Hc. rewrite forallb_forall in Y. specialize (Y c Hc). cbn beta in *. lia.
Qed.

Lemma media_start media l : Media media l -> starts_with (fun c => 32 <= c < 127) media /\ no_nul media.
Proof.
  intros [n m l' [_ Hm] _|m l' [s Hn Hs]].
  - apply assigned_start. exact (nth_error_In _ _ Hm).
  - auto.
Qed.

Lemma media_aligned m l l' r r' : Media m l -> media_written m l' -> l ++ r = l' ++ r' ->
  l = l' /\ standard_media m.
Proof.
  intros H HW E. destruct (media_start _ _ H) as [Hs Hn].
  destruct HW as [n Hm Hne|Hm|Hno Hm].
  - assert (X : standard_media m).
    { split; [exact Hn|]. split; [exact Hs|]. intros ->. destruct Hm as [_ Hm]. apply nth_error_In in Hm. vm_compute in Hm. intuition discriminate. }
    split; [|exact X]. destruct H as [k m l0 Hk Hi|m l0 He].
    + assert (k = n) as ->.
      { destruct Hk as [K0 K], Hm as [M0 M].
        pose proof (proj1 (NoDup_nth_error assigned_media) assigned_once (Z.to_nat k) (Z.to_nat n)) as Y.
        rewrite K, M in Y. specialize (Y ltac:(apply nth_error_Some; congruence) eq_refl). lia. }
      destruct Hi as [n l0 [n0 Hr]|n l0 [x Ho Hr]]; [reflexivity|].
      exfalso. cbn [app] in E. apply (f_equal (hd 0)) in E. cbn [hd] in E. destruct Hm. lia.
    + exfalso. destruct He as [s _ Hs']. destruct s as [|c s]; [destruct Hs'|]. cbn [starts_with app] in *.
      apply (f_equal (hd 0)) in E. cbn [hd] in E. destruct Hm. lia.
  - exfalso. destruct H as [k m l0 Hk Hi|m l0 He].
    + destruct Hk as [_ Hk]. apply nth_error_In in Hk. rewrite Hm in Hk. vm_compute in Hk. intuition discriminate.
    + destruct He as [s _ Hs']. destruct s as [|c s]; [destruct Hs'|]. cbn [starts_with app] in *.
      apply (f_equal (hd 0)) in E. cbn [hd] in E. lia.
  - assert (X : standard_media m) by (split; [exact Hn|split; [exact Hs|exact Hm]]). split; [|exact X].
    destruct H as [k m l0 Hk Hi|m l0 He].
    + exfalso. destruct m as [|c m]; [destruct Hs|]. cbn [starts_with app] in *.
      destruct Hi as [n l0 [n0 Hr]|n l0 [x Ho Hr]]; cbn [app] in E; apply (f_equal (hd 0)) in E; cbn [hd] in E; lia.
    + destruct He as [s _ _]. reflexivity.
Qed.

Lemma control_not m : starts_with (fun c => 32 <= c < 127) m -> ~ control m.
Proof. intros H (c & r & -> & Hc). cbn [starts_with] in H. lia. Qed.

Lemma param_long name v l : Param name v l -> (2 <= length l)%nat.
Proof.
  assert (HI : forall n i, Integer_value n i -> (1 <= length i)%nat).
  { intros n i [n0 l0 [? ?]|n0 l0 [? ? ?]]; cbn [length]; lia. }
  assert (HT : forall s i, Text_string s i -> (1 <= length i)%nat).
  { intros s i [s0 _ _|s0 _ _]; cbn [length]; rewrite app_length; cbn [length]; lia. }
  assert (HK : forall s i, Token_text s i -> (1 <= length i)%nat).
  { intros s i [s0 _]; rewrite app_length; cbn [length]; lia. }
  intros [i q l0 n H _ _ [ds d _ _]|i s l0 H Hc|i s l0 H Hv|i n l0 H Hn|nm k i s l0 _ H Ht|i n l0 H [n0 _]|i n l0 H [n0 _]
    |i s l0 H [s0 _ _]|nm t n l0 Ht Hn|nm t s l0 Ht Hs|nm t s l0 Ht [s0 _]]; rewrite app_length;
    repeat match goal with
    | H : Integer_value _ ?i |- _ => apply HI in H
    | H : Text_string _ ?i |- _ => apply HT in H
    | H : Token_text _ ?i |- _ => apply HK in H
    end; cbn [length]; unfold uintvar_octets; try rewrite !app_length; cbn [length]; try lia.
  - destruct Hc as [|n nm l1 _ Hi]; [cbn [length]; lia|]. apply HI in Hi. lia.
  - destruct Hv as [M m _ _|M _|s0 l1 Ht]; cbn [length]; try lia. apply HT in Ht. lia.
Qed.

Lemma params_long ps l : Sequence Param ps l -> (2 * length ps <= length l)%nat.
Proof.
  intros H. induction H as [|name v l vs r Hp _ IH]; [cbn; lia|]. rewrite app_length. cbn [length].
  apply param_long in Hp. lia.
Qed.

Lemma last_value_name {V} k (l : list (list Z * V)) : last_value k l <> None -> In k (map fst l).
Proof.
  induction l as [|[a v] l IH]; cbn [last_value map fst In]; [congruence|].
  destruct (last_value k l); [right; apply IH; congruence|]. destruct (list_eq_dec Z.eq_dec k a); [left; congruence|congruence].
Qed.

Lemma params_enough ps d : is_dict d -> shows_params ps d -> (length d <= length ps)%nat.
Proof.
  intros Hd H. rewrite <- (map_length fst d), <- (map_length fst ps). apply NoDup_incl_length; [exact Hd|].
  intros k Hk. apply last_value_name. intros X. specialize (H k). rewrite X in H. unfold nothing in H.
  apply in_map_iff in Hk. destruct Hk as ([k' v] & E & Hi). cbn [fst] in E. subst k'.
  clear X. induction d as [|[a x] d IH]; [destruct Hi|]. cbn [d_get] in H.
  destruct (leqb k a) eqn:El; [discriminate|]. destruct Hi as [Hi|Hi].
  - assert (a = k) by congruence. subst. rewrite leqb_refl in El. discriminate.
  - apply IH; [inversion Hd; assumption|exact H|exact Hi].
Qed.

Lemma params_none ps : shows_params ps [] -> ps = [].
Proof.
  intros H. destruct ps as [|[k v] ps]; [reflexivity|]. specialize (H k). cbn [d_get] in H. exfalso.
  assert (X : last_value k ((k, v) :: ps) <> None).
  { cbn [last_value]. destruct (last_value k ps); [congruence|]. destruct (list_eq_dec Z.eq_dec k k); congruence. }
  destruct (last_value k ((k, v) :: ps)); [|congruence]. destruct H as (x & H & _). discriminate H.
Qed.

Lemma type_aligned media ps ct d ct' r r' : Content_type media ps ct -> type_written media d ct' ->
  is_dict d -> shows_params ps d -> ct ++ r = ct' ++ r' -> ct = ct' /\ d = [] /\ standard_media media.
Proof.
  intros HC HW Hd HP E.
  destruct HW as [l -> Hc Hm|n l bs Hc Hn Hm HF].
  - apply params_none in HP. subst ps. rewrite and_comm, and_assoc. split; [reflexivity|]. rewrite and_comm.
    remember [] as ps0 eqn:Ep in HC.
    destruct HC as [n media l0 Hn Hs|media l0 He|media ps ml pl n vl HM HS Hv Hn].
    + apply (media_aligned _ _ _ _ _ (m_number _ _ _ Hn (iv_short _ _ Hs)) Hm E).
    + apply (media_aligned _ _ _ _ _ (m_text _ _ He) Hm E).
    + exfalso. destruct (length_start _ _ Hv) as (c & vr & -> & Hr & _). cbn [app] in E.
      destruct (media_start _ _ HM) as [Hst _].
      destruct Hm as [k Hk _|Hk|_ _]; cbn [app] in E.
      * apply (f_equal (hd 0)) in E. cbn [hd] in E. destruct Hk. lia.
      * apply (f_equal (hd 0)) in E. cbn [hd] in E. lia.
      * destruct media as [|y media]; [destruct Hst|]. cbn [starts_with app] in *. apply (f_equal (hd 0)) in E. cbn [hd] in E. lia.
  - exfalso.
    assert (Hvl : Value_length (1 + Z.of_nat (length d)) n) by (apply value_length_of_is; [lia|exact Hn]).
    destruct (length_start _ _ Hvl) as (c & nr & En & Hr & _).
    destruct HC as [k media l0 Hk Hs|media l0 He|media ps ml pl k vl HM HS Hv Hk].
    + destruct Hs as [k Hk']. rewrite En in E. cbn [app] in E. apply (f_equal (hd 0)) in E. cbn [hd] in E. lia.
    + destruct He as [s _ Hst]. destruct s as [|y s]; [destruct Hst|]. rewrite En in E. cbn [starts_with app] in *.
      apply (f_equal (hd 0)) in E. cbn [hd] in E. lia.
    + rewrite <- !app_assoc in E. destruct (length_value _ _ _ _ _ _ Hv Hvl E) as (Ek & -> & E').
      destruct (media_start _ _ HM) as [Hst _]. destruct Hc as [Hc|Hc]; [|exact (control_not _ Hst Hc)].
      destruct (media_aligned _ _ _ _ _ HM Hm E') as [-> _].
      pose proof (params_long _ _ HS) as P1. pose proof (params_enough _ _ Hd HP) as P2.
      assert (1 <= length l)%nat by (destruct Hm as [?|?|? ?]; cbn [length]; try lia; rewrite app_length; cbn [length]; lia).
      unfold n_octets in Hk. destruct d; [congruence|]. cbn [length] in *. lia.
Qed.

(** * Headers of parts *)

Lemma part_number k c : In (k, c) part_header_names ->
  138 <= c /\ nth_error numbered_headers (Z.to_nat (c - 128)) = Some k.
Proof.
  intros H. cbn [part_header_names In] in H.
  repeat (destruct H as [H|H]; [apply pair_equal_spec in H; destruct H as [<- <-]; split; [lia|vm_compute; reflexivity]|]).
  destruct H.
Qed.

Lemma numbered_once i j k : nth_error numbered_headers i = Some k -> nth_error numbered_headers j = Some k -> i = j.
Proof.
  assert (N : NoDup numbered_headers).
  { apply (NoDup_nodup (list_eq_dec Z.eq_dec)) || idtac.
    replace numbered_headers with (nodup (list_eq_dec Z.eq_dec) numbered_headers) by (vm_compute; reflexivity).
    apply NoDup_nodup. }
  intros A B. apply (proj1 (NoDup_nth_error _) N); [apply nth_error_Some; congruence|congruence].
Qed.

Lemma part_item_start k s b : Part_header k s b ->
  (exists c l, b = c :: l /\ In (k, c) part_header_names /\ Text_string s l) \/
  (exists l, k = str "Content-ID" /\ b = 192 :: l) \/
  (exists l, token k /\ k <> str "Content-Type" /\ Text_string s l /\ b = (k ++ [0]) ++ l).
Proof.
  intros [name c s' l Hin H|s' l H|name s' l t [n Ht] Hne H]; [left; eauto|right; left; eauto|right; right; eauto 10].
Qed.

Lemma content_id_not_numbered : ~ In (str "Content-ID") numbered_headers.
Proof. vm_compute. intuition discriminate. Qed.

Lemma part_item_known k s b : Part_header k s b -> ~ In k numbered_headers -> token k.
Proof.
  intros H Hn. destruct (part_item_start _ _ _ H) as [(c & l & _ & Hi & _)|[(l & -> & _)|(l & Ht & _)]].
  - exfalso. apply Hn. destruct (part_number _ _ Hi) as [_ X]. exact (nth_error_In _ _ X).
  - split; [discriminate|]. vm_compute. repeat constructor; intuition discriminate.
  - exact Ht.
Qed.

Lemma part_same_name k s b k' h b' s' b2 r r' : Part_header k s b -> part_header_written k' h b' ->
  Part_header k' s' b2 -> b ++ r = b' ++ r' -> k = k'.
Proof.
  intros HP HW HP' E. destruct HW as [t l -> Hh Hm|t l Hne Ht Hw].
  - exfalso. destruct (part_item_start _ _ _ HP) as [(c & x & -> & Hi & _)|[(x & -> & ->)|(x & Ht & _ & _ & ->)]];
      cbn [app] in E.
    + apply (f_equal (hd 0)) in E. cbn [hd] in E. apply part_number in Hi. lia.
    + apply (f_equal (hd 0)) in E. cbn [hd] in E. lia.
    + destruct Ht as [Hk Ht]. destruct k as [|y k]; [congruence|]. cbn [app] in E.
      apply (f_equal (hd 0)) in E. cbn [hd] in E. apply Forall_inv in Ht. lia.
  - destruct Hw as [i Hi|Hi].
    + assert (Hlt : (i < 56)%nat) by (change 56%nat with (length numbered_headers); apply nth_error_Some; congruence).
      destruct (part_item_start _ _ _ HP) as [(c & x & -> & Hc & _)|[(x & -> & ->)|(x & Hk & _ & _ & ->)]];
        cbn [app] in E.
      * apply (f_equal (hd 0)) in E. cbn [hd] in E. destruct (part_number _ _ Hc) as [_ X].
        replace (Z.to_nat (c - 128)) with i in X by lia. congruence.
      * exfalso. apply (f_equal (hd 0)) in E. cbn [hd] in E. lia.
      * exfalso. destruct Hk as [Hk Hf]. destruct k as [|y k]; [congruence|]. cbn [app] in E.
        apply (f_equal (hd 0)) in E. cbn [hd] in E. apply Forall_inv in Hf. lia.
    + pose proof (part_item_known _ _ _ HP' Hi) as Hk'.
      destruct (part_item_start _ _ _ HP) as [(c & x & -> & Hc & _)|[(x & -> & ->)|(x & Hk & _ & _ & ->)]].
      * exfalso. destruct Hk' as [Hk' Hf]. destruct k' as [|y k']; [congruence|]. cbn [app] in E.
        apply (f_equal (hd 0)) in E. cbn [hd] in E. apply Forall_inv in Hf. apply part_number in Hc. lia.
      * exfalso. destruct Hk' as [Hk' Hf]. destruct k' as [|y k']; [congruence|]. cbn [app] in E.
        apply (f_equal (hd 0)) in E. cbn [hd] in E. apply Forall_inv in Hf. lia.
      * rewrite <- !app_assoc in E. cbn [app] in E.
        destruct (up_to_nul _ _ _ _ (token_nul _ Hk) (token_nul _ Hk') E) as [-> _]. reflexivity.
Qed.

Lemma part_aligned k s b h b' r r' : Part_header k s b -> part_header_written k h b' -> shows k (Text s) h ->
  b ++ r = b' ++ r' -> b = b' /\ standard_part_header k h.
Proof.
  cbn [shows]. intros HP HW HS E. subst h. destruct HW as [t l Ek Hh Hm|t l Hne Ht Hw].
  - exfalso. subst k. destruct (part_item_start _ _ _ HP) as [(c & x & -> & Hi & _)|[(x & Ek & _)|(x & _ & _ & _ & ->)]];
      cbn [app] in E.
    + apply (f_equal (hd 0)) in E. cbn [hd] in E. apply part_number in Hi. lia.
    + discriminate Ek.
    + apply (f_equal (hd 0)) in E. vm_compute in E. discriminate E.
  - assert (t = s) as ->.
    { destruct Ht as [Ht|(a & c & Ht & _)]; unfold HStr in Ht; [congruence|discriminate]. }
    destruct Hw as [i Hi|Hi].
    + assert (Hlt : (i < 56)%nat) by (change 56%nat with (length numbered_headers); apply nth_error_Some; congruence).
      destruct (part_item_start _ _ _ HP) as [(c & x & -> & Hc & Hx)|[(x & -> & _)|(x & Hk & _ & _ & ->)]].
      * cbn [app] in E. pose proof (f_equal (hd 0) E) as E1. cbn [hd] in E1.
        apply (f_equal (@tl Z)) in E. cbn [tl] in E. pose proof (text_align _ _ _ _ Hx E) as ->.
        split; [subst c; reflexivity|]. apply sph_number; [apply (in_map fst) in Hc; exact Hc|apply text_written; exact Hx].
      * exfalso. apply content_id_not_numbered. exact (nth_error_In _ _ Hi).
      * exfalso. destruct Hk as [Hk Hf]. destruct k as [|y k]; [congruence|]. cbn [app] in E.
        apply (f_equal (hd 0)) in E. cbn [hd] in E. apply Forall_inv in Hf. lia.
    + pose proof (part_item_known _ _ _ HP Hi) as Hk.
      destruct (part_item_start _ _ _ HP) as [(c & x & -> & Hc & _)|[(x & -> & ->)|(x & _ & _ & Hx & ->)]].
      * exfalso. apply Hi. destruct (part_number _ _ Hc) as [_ X]. exact (nth_error_In _ _ X).
      * exfalso. apply (f_equal (hd 0)) in E. vm_compute in E. discriminate E.
      * rewrite <- !app_assoc in E. apply app_inv_head in E. cbn [app] in E. apply (f_equal (@tl Z)) in E. cbn [tl] in E.
        assert (x = s ++ [0]) as -> by (apply (text_align _ _ r r' Hx); rewrite <- app_assoc; exact E).
        split; [reflexivity|]. apply sph_application; [exact Hk|rewrite <- numbered_same; exact Hi|apply text_written; exact Hx].
Qed.

(** * Entries *)

Lemma sequence_item {V} (Item : list Z -> V -> list Z -> Prop) fs fl k v : Sequence Item fs fl -> In (k, v) fs ->
  exists b, Item k v b.
Proof.
  intros H. induction H as [|name x l vs r Hi _ IH]; intros Hin; [destruct Hin|].
  destruct Hin as [E|Hin]; [|exact (IH Hin)]. assert (name = k /\ x = v) as [-> ->] by (split; congruence). eauto.
Qed.

Lemma header_nonempty k h b : part_header_written k h b -> b <> [].
Proof.
  intros [s l _ _ _|s l _ _ [i _|_]]; cbn [app]; try discriminate.
  intros X. apply (f_equal (@length Z)) in X. rewrite !app_length in X. cbn [length] in X. lia.
Qed.

Lemma item_nonempty k s b : Part_header k s b -> b <> [].
Proof.
  intros H. destruct (part_item_start _ _ _ H) as [(c & l & -> & _)|[(l & _ & ->)|(l & _ & _ & _ & ->)]]; try discriminate.
  intros X. apply (f_equal (@length Z)) in X. rewrite !app_length in X. cbn [length] in X. lia.
Qed.

Lemma holds_sent w p data : holds w p data ->
  (forall d, data_sent w p d -> d = data) /\ (forall n, size_sent w p n -> n = n_octets data).
Proof.
  intros H.
  assert (X : forall d, data_sent w p d -> d = data).
  { intros d Hd. destruct H as [A B|f A B C]; destruct Hd as [d D|g d D F G|D F].
    - congruence.
    - congruence.
    - congruence.
    - destruct C; congruence.
    - destruct C; congruence.
    - congruence. }
  split; [exact X|]. intros n [g d F G|d F G].
  - destruct H as [A B|f A B C]; [congruence|]. assert (f = g) by congruence. subst g. f_equal. congruence.
  - f_equal. exact (X d G).
Qed.

Lemma part_entry_aligned w p b' e b r r' : is_dict (dp_headers p) -> part_written w p b' ->
  Multipart_entry Content_type Part_header e b -> entry_is w p e -> b ++ r = b' ++ r' ->
  r = r' /\ standard_part w p.
Proof.
  intros Hd HW HE [Hh HA] E.
  destruct HW as [hv m hs bs n d hl dl ct Hct Hv Hc Hm Hperm HF Hs Hds Hhl Hdl].
  destruct HE as [media ps hs0 data ct0 hl0 n0 nl k kl HC HS Ho Hnl Hn0 Hkl Hk].
  cbn [e_data e_media e_params e_headers] in *.
  destruct (holds_sent _ _ _ Hh) as [D1 D2]. apply D1 in Hds. apply D2 in Hs. subst d n.
  rewrite <- !app_assoc in E.
  destruct (uintvar_prefix _ _ _ _ _ _ Hnl (uintvar_of_is _ _ Hhl) E) as (E1 & -> & E2). clear E.
  destruct (uintvar_prefix _ _ _ _ _ _ Hkl (uintvar_of_is _ _ Hdl) E2) as (_ & -> & E). clear E2.
  destruct HA as [HN HA].
  assert (T : media = m /\ ps = [] /\ hv = HType m []).
  { specialize (HA (str "Content-Type")).
    assert (X : last_value (str "Content-Type") ((str "Content-Type", Media_type media ps)
       :: map (fun h => (fst h, Text (snd h))) hs0) = Some (Media_type media ps)).
    { apply last_value_In; [exact HN|]. left. reflexivity. }
    rewrite X in HA. destruct HA as (h & Hh' & d & -> & Hp).
    assert (Ev : hv = HType media d) by (unfold h_get in Hh'; congruence). subst hv.
    assert (d = [] /\ media = m) as [-> ->] by (destruct Hv as [Hv|(Hv & _)]; split; congruence).
    split; [reflexivity|]. split; [exact (params_none _ Hp)|reflexivity]. }
  destruct T as (-> & -> & ->).
  assert (HT : type_written m [] ct) by (apply tw_plain; [reflexivity|exact Hc|exact Hm]).
  destruct (type_aligned _ _ _ _ _ _ _ HC HT ltac:(constructor) ltac:(intros q; reflexivity) E) as (-> & _ & Hmedia).
  apply app_inv_head in E.
  destruct (same_length_prefix hl0 (concat bs) (data ++ r) (data ++ r')) as [-> E'].
  { unfold n_octets in *. lia. }
  { exact E. }
  apply app_inv_head in E'. split; [exact E'|]. clear E E'.
  assert (HL : forall k0 h0, In (k0, h0) hs <-> h_get k0 (dp_headers p) = Some h0 /\ k0 <> str "Content-Type").
  { intros k0 h0. assert (X : In (k0, h0) hs <-> In (k0, h0) (filter (fun h => negb (leqb (fst h) (str "Content-Type"))) (dp_headers p))).
    { split; apply Permutation_in; [exact Hperm|apply Permutation_sym; exact Hperm]. }
    rewrite X, filter_In. cbn [fst]. unfold h_get.
    assert (Y : In (k0, h0) (dp_headers p) <-> d_get leqb k0 (dp_headers p) = Some h0).
    { symmetry. apply h_get_In. exact Hd. }
    rewrite Y. destruct (leqb k0 (str "Content-Type")) eqn:El.
    - apply leqb_eq in El. cbn [negb]. intuition congruence.
    - cbn [negb]. intuition. subst k0. rewrite leqb_refl in El. discriminate. }
  assert (HI : forall k0 h0, In (k0, h0) hs -> exists t, In (k0, t) hs0 /\ h0 = HStr t).
  { intros k0 h0 Hin. apply HL in Hin. destruct Hin as [Hg Hne]. pose proof (HA k0) as X. rewrite Hg in X.
    destruct (last_value k0 _) as [v|] eqn:Ev; [|discriminate X].
    apply last_value_In in Ev; [|exact HN]. destruct Ev as [Ev|Ev].
    { exfalso. apply Hne. congruence. }
    apply in_map_iff in Ev. destruct Ev as ([k1 t] & Ev & Hin'). cbn [fst snd] in Ev.
    assert (k1 = k0 /\ v = Text t) as [-> ->] by (split; congruence).
    destruct X as (h1 & X1 & X2). cbn [shows] in X2. exists t. split; [exact Hin'|congruence]. }
  destruct (items_aligned Part_header part_header_written (fun k0 t h0 => shows k0 (Text t) h0) (fun _ _ => True)
    part_same_name (fun k0 v b0 h0 b1 x y A B C _ D => proj1 (part_aligned k0 v b0 h0 b1 x y A B C D))
    hs bs HF hs0 (concat bs) [] [] HS eq_refl) as (_ & _ & En & HF2).
  { apply Forall_forall. intros [k0 h0] Hin. cbn [fst snd]. split; [exact I|].
    destruct (HI _ _ Hin) as (t & Hin' & _). destruct (sequence_item _ _ _ _ _ HS Hin') as (b & Hb). eauto. }
  { intros k0 t h0 Hin Hin'. apply HL in Hin'. destruct Hin' as [Hg _].
    pose proof (HA k0) as X.
    assert (Y : last_value k0 ((str "Content-Type", Media_type m []) :: map (fun h => (fst h, Text (snd h))) hs0) = Some (Text t)).
    { apply last_value_In; [exact HN|]. right. apply in_map_iff. exists (k0, t). auto. }
    rewrite Y in X. destruct X as (h1 & X1 & X2). congruence. }
  { intros k0 v b x Hb X. symmetry in X. apply app_eq_nil in X. destruct X as [X _]. exact (item_nonempty _ _ _ Hb X). }
  { intros k0 h0 b x v b2 Hb _ X. symmetry in X. apply app_eq_nil in X. destruct X as [X _]. exact (header_nonempty _ _ _ Hb X). }
  split; [exact Hd|]. split.
  { exists (HType m []). split; [exact Hct|]. exists m. auto. }
  split.
  { intros k0 h0 Hg Hne. assert (Hin : In (k0, h0) hs) by (apply HL; auto).
    clear - HF HF2 Hin. revert HF2. induction HF as [|e b0 hs bs Hw _ IH]; intros HF2; [destruct Hin|].
    inversion HF2 as [|? ? ? ? (v & Hv & Hs) HF3]. subst. destruct Hin as [->|Hin]; [|exact (IH Hin HF3)].
    cbn [fst snd] in *. exact (proj2 (part_aligned _ _ _ _ _ [] [] Hv Hw Hs eq_refl)). }
  exists data. auto.
Qed.
