(** Proofs about the GSM codec model. *)
From Coq Require Import Lia ZifyBool ZifyNat.
From Verif Require Import Py PyFacts SpecGsm Gsm.
Open Scope Z_scope.

Lemma regular_table :
  regular_decode =
  filter (fun p => negb (fst p =? 27)) (combine (zrange 128) gsm_default).
Proof. vm_compute. reflexivity. Qed.

Lemma escape_table : escape_decode = gsm_extension.
Proof. vm_compute. reflexivity. Qed.

Lemma replace_table : replace_encode = lookalikes.
Proof. vm_compute. reflexivity. Qed.

Lemma nodup_regular_encode : NoDup (map fst regular_encode).
Proof. apply (nodupb_NoDup Z.eqb _ Zeqb_spec). vm_compute. reflexivity. Qed.
Lemma nodup_escape_encode : NoDup (map fst escape_encode).
Proof. apply (nodupb_NoDup Z.eqb _ Zeqb_spec). vm_compute. reflexivity. Qed.
Lemma nodup_regular_decode : NoDup (map fst regular_decode).
Proof. apply (nodupb_NoDup Z.eqb _ Zeqb_spec). vm_compute. reflexivity. Qed.
Lemma nodup_escape_decode : NoDup (map fst escape_decode).
Proof. apply (nodupb_NoDup Z.eqb _ Zeqb_spec). vm_compute. reflexivity. Qed.
Lemma nodup_lookalikes : NoDup (map fst lookalikes).
Proof. apply (nodupb_NoDup Z.eqb _ Zeqb_spec). vm_compute. reflexivity. Qed.

Lemma In_combine_nth (l : list Z) n k u :
  In (k, u) (combine (map Z.of_nat (seq n (length l))) l) <->
  exists g, k = Z.of_nat (n + g) /\ nth_error l g = Some u.
Proof.
  revert n; induction l as [|x l IH]; intros n; cbn.
  - split; [tauto|]. intros (g & _ & H). now destruct g.
  - rewrite IH. split.
    + intros [H|(g & -> & H)].
      * injection H as <- <-. exists 0%nat. split; [f_equal; lia|reflexivity].
      * exists (S g). split; [f_equal; lia|assumption].
    + intros (g & -> & H). destruct g; cbn in H.
      * injection H as <-. left. f_equal. f_equal. lia.
      * right. exists g. split; [f_equal; lia|assumption].
Qed.

Lemma regular_In g u :
  In (g, u) regular_decode <->
  exists k, g = Z.of_nat k /\ nth_error gsm_default k = Some u /\ Z.of_nat k <> esc.
Proof.
  rewrite regular_table, filter_In.
  change (zrange 128) with (map Z.of_nat (seq 0 (length gsm_default))).
  rewrite In_combine_nth. cbn [fst]. unfold esc. split.
  - intros [(k & -> & H) Hn]. exists k. split; [reflexivity|]. split; [assumption|lia].
  - intros (k & -> & H & Hn). split; [exists k; auto|lia].
Qed.

Lemma In_swap g u d : In (u, g) (map swap_pair d) <-> In (g, u) d.
Proof.
  rewrite in_map_iff. unfold swap_pair. split.
  - intros ([a b] & H & Hin). cbn in H. injection H as <- <-. assumption.
  - intros H. exists (g, u). auto.
Qed.

Lemma get_regular_encode u g :
  d_get Z.eqb u regular_encode = Some g <-> In (g, u) regular_decode.
Proof.
  rewrite (d_get_In Z.eqb _ _ _ Zeqb_spec nodup_regular_encode). apply In_swap.
Qed.
Lemma get_escape_encode u g :
  d_get Z.eqb u escape_encode = Some g <-> In (g, u) escape_decode.
Proof.
  rewrite (d_get_In Z.eqb _ _ _ Zeqb_spec nodup_escape_encode). apply In_swap.
Qed.
Lemma get_regular_decode g u :
  d_get Z.eqb g regular_decode = Some u <-> In (g, u) regular_decode.
Proof. apply (d_get_In Z.eqb _ _ _ Zeqb_spec nodup_regular_decode). Qed.
Lemma get_escape_decode g u :
  d_get Z.eqb g escape_decode = Some u <-> In (g, u) escape_decode.
Proof. apply (d_get_In Z.eqb _ _ _ Zeqb_spec nodup_escape_decode). Qed.

(** The lookup of one character is the standard's code; a code point has at
    most one code. *)
Lemma lookup_code u c :
  gsm_code u c <->
  match d_get Z.eqb u regular_encode with
  | Some g => c = [g]
  | None => match d_get Z.eqb u escape_encode with
            | Some g => c = [27; g]
            | None => False
            end
  end.
Proof.
  assert (forall g1 g2 u, In (g1, u) regular_decode -> In (g2, u) escape_decode -> False)
    as Hdisj.
  { intros g1 g2 v H1 H2.
    assert (forallb (fun p => negb (existsb (fun q => snd p =? snd q) escape_decode))
              regular_decode = true) as Hc by (vm_compute; reflexivity).
    rewrite forallb_forall in Hc. specialize (Hc _ H1).
    apply negb_true_iff in Hc. rewrite <- not_true_iff_false in Hc. apply Hc.
    apply existsb_exists. exists (g2, v). split; [assumption|]. cbn. lia. }
  split.
  - intros H. inversion H as [g Hg Hne|g Hg]; subst.
    + assert (d_get Z.eqb u regular_encode = Some (Z.of_nat g)) as ->; [|reflexivity].
      apply get_regular_encode, regular_In. eauto.
    + rewrite <- escape_table in Hg.
      destruct (d_get Z.eqb u regular_encode) as [g1|] eqn:E.
      { apply get_regular_encode in E. exfalso; eauto. }
      assert (d_get Z.eqb u escape_encode = Some g) as ->; [|reflexivity].
      now apply get_escape_encode.
  - destruct (d_get Z.eqb u regular_encode) as [g|] eqn:E.
    + apply get_regular_encode, regular_In in E as (k & -> & H & Hn).
      intros ->. now constructor.
    + destruct (d_get Z.eqb u escape_encode) as [g|] eqn:E2; [|tauto].
      apply get_escape_encode in E2. rewrite escape_table in E2.
      intros ->. now constructor.
Qed.

Lemma gsm_code_unique u c1 c2 : gsm_code u c1 -> gsm_code u c2 -> c1 = c2.
Proof.
  rewrite !lookup_code. destruct (d_get Z.eqb u regular_encode); [congruence|].
  destruct (d_get Z.eqb u escape_encode); [congruence|tauto].
Qed.

(** Characters a text of the given kind can match: a [str] byte matches the
    unicode keys only when ASCII. *)
Definition matchable (uni : bool) (u : Z) : Prop := uni = true \/ u < 128.

Lemma char_get_matchable uni u d :
  matchable uni u -> char_get uni u d = d_get Z.eqb u d.
Proof.
  unfold char_get, matchable. intros [->|H]; [reflexivity|].
  replace (u <? 128) with true by lia. now rewrite orb_true_r.
Qed.

Lemma encode_char_strict uni u c :
  encode_char Strict uni u = Ok c <-> matchable uni u /\ gsm_code u c.
Proof.
  unfold encode_char. destruct (uni || (u <? 128)) eqn:M.
  - assert (matchable uni u) as Hm by (unfold matchable; destruct uni; [auto|right; lia]).
    rewrite !char_get_matchable by assumption. rewrite lookup_code.
    destruct (d_get Z.eqb u regular_encode) as [g|].
    { split; [intros H; injection H as <-; auto|intros [_ ->]; reflexivity]. }
    destruct (d_get Z.eqb u escape_encode) as [g|].
    { split; [intros H; injection H as <-; auto|intros [_ ->]; reflexivity]. }
    split; [discriminate|tauto].
  - unfold char_get. rewrite M. split; [discriminate|].
    intros [[->|Hm] _]; [discriminate|]. exfalso. destruct uni; [discriminate|].
    cbn in M. lia.
Qed.

Lemma encode_char_err mode uni u e : encode_char mode uni u = Err e -> e = UnicodeError.
Proof.
  unfold encode_char.
  destruct (char_get uni u regular_encode); [discriminate|].
  destruct (char_get uni u escape_encode); [discriminate|].
  destruct mode; try congruence.
  destruct (char_get uni u replace_encode); discriminate.
Qed.

Lemma mapM_err {A B} (f : A -> res B) l e :
  (forall a e, f a = Err e -> e = UnicodeError) -> mapM f l = Err e -> e = UnicodeError.
Proof.
  intros Hf. induction l as [|a l IH]; cbn; [discriminate|].
  destruct (f a) eqn:E; cbn; [|intros H; injection H as <-; eauto].
  destruct (mapM f l); cbn; [discriminate|auto].
Qed.

Lemma gsm_encode_text t b :
  gsm_encode t = Ok b <-> Forall (matchable (is_uni t)) (chars t) /\ gsm_text (chars t) b.
Proof.
  unfold gsm_encode, encode, gsm_text.
  destruct (mapM (encode_char Strict (is_uni t)) (chars t)) as [ps|e] eqn:E; cbn.
  - pose proof E as E'. apply mapM_Forall2 in E'. split.
    + intros H; injection H as <-. split.
      * apply Forall_forall. intros x Hx.
        clear E. induction E' as [|a b' l l' Hab _ IH]; [easy|].
        apply encode_char_strict in Hab. destruct Hx as [<-|]; [tauto|auto].
      * exists ps. split; [|reflexivity].
        eapply Forall2_impl; [|exact E']. cbn. intros a c Hc.
        apply encode_char_strict in Hc. tauto.
    + intros (_ & codes & Hc & ->). f_equal. f_equal.
      clear E. revert codes Hc. induction E' as [|a b' l l' Hab _ IH]; intros codes Hc.
      * now inversion Hc.
      * inversion Hc; subst. f_equal; [|auto].
        apply encode_char_strict in Hab as [_ Hab]. eauto using gsm_code_unique.
  - split; [discriminate|]. intros (Hm & codes & Hc & ->). exfalso.
    assert (mapM (encode_char Strict (is_uni t)) (chars t) = Ok codes) as C;
      [|congruence].
    apply mapM_Forall2. clear E. revert Hm.
    induction Hc as [|u c us cs Huc _ IH]; intros Hm; constructor.
    + apply encode_char_strict. inversion Hm; auto.
    + apply IH. now inversion Hm.
Qed.

Lemma gsm_text_cons u us b :
  gsm_text (u :: us) b <-> exists c b', gsm_code u c /\ gsm_text us b' /\ b = c ++ b'.
Proof.
  unfold gsm_text. split.
  - intros (codes & H & ->). inversion H as [|? c ? cs Hc Hr]; subst.
    exists c, (concat cs). cbn. eauto.
  - intros (c & b' & Hc & (cs & Hr & ->) & ->). exists (c :: cs). split; [|reflexivity].
    now constructor.
Qed.

Lemma gsm_text_nil b : gsm_text [] b <-> b = [].
Proof.
  unfold gsm_text. split.
  - intros (codes & H & ->). now inversion H.
  - intros ->. exists []. split; [constructor|reflexivity].
Qed.

Lemma decode_code m u c r :
  gsm_code u c ->
  decode_loop m (c ++ r) = bind (decode_loop m r) (fun rest => Ok (u :: rest)).
Proof.
  intros H. inversion H as [g Hg Hne|g Hg]; subst; cbn [app decode_loop].
  - unfold esc in Hne. replace (Z.of_nat g =? 27) with false by lia.
    assert (d_get Z.eqb (Z.of_nat g) regular_decode = Some u) as ->; [|reflexivity].
    apply get_regular_decode, regular_In. eauto.
  - rewrite <- escape_table in Hg. apply get_escape_decode in Hg.
    change (esc =? 27) with true. cbn iota. rewrite Hg. reflexivity.
Qed.

Lemma decode_gsm_text m us b : gsm_text us b -> decode_loop m b = Ok us.
Proof.
  revert b; induction us as [|u us IH]; intros b.
  - rewrite gsm_text_nil. now intros ->.
  - rewrite gsm_text_cons. intros (c & b' & Hc & Ht & ->).
    rewrite decode_code with (u := u) by assumption. rewrite IH by assumption. reflexivity.
Qed.

Lemma gsm_decode_text us b : gsm_text us b -> gsm_decode b = Ok us.
Proof.
  intros H. unfold gsm_decode, decode. now rewrite (decode_gsm_text Strict us b H).
Qed.

Lemma gsm_roundtrip t b : gsm_encode t = Ok b -> gsm_decode b = Ok (chars t).
Proof. rewrite gsm_encode_text. intros [_ H]. now apply gsm_decode_text. Qed.

Lemma gsm_encode_err t e : gsm_encode t = Err e -> e = UnicodeError.
Proof.
  unfold gsm_encode, encode.
  destruct (mapM (encode_char Strict (is_uni t)) (chars t)) as [ps|e'] eqn:E; cbn;
    [discriminate|].
  intros H; injection H as <-. eapply mapM_err; [|exact E].
  intros. eapply encode_char_err; eassumption.
Qed.

Lemma gsm_text_exists us : Forall gsm_char us <-> exists b, gsm_text us b.
Proof.
  induction us as [|u us IH].
  - split; [intros _; exists []; now apply gsm_text_nil|constructor].
  - split.
    + intros H; inversion H as [|? ? [c Hc] Hr]; subst.
      apply IH in Hr as [b Hb]. exists (c ++ b). apply gsm_text_cons. eauto.
    + intros [b H]. apply gsm_text_cons in H as (c & b' & Hc & Ht & _).
      constructor; [now exists c|]. apply IH. eauto.
Qed.

Lemma is_gsm_text_spec t :
  is_gsm_text (Some t) = true <->
  Forall (fun u => gsm_char u /\ (is_uni t = true \/ u < 128)) (chars t).
Proof.
  unfold is_gsm_text. split.
  - destruct (gsm_encode t) as [b|] eqn:E; [|discriminate]. intros _.
    apply gsm_encode_text in E as [Hm Ht].
    assert (Forall gsm_char (chars t)) as Hc by (apply gsm_text_exists; eauto).
    rewrite Forall_forall in *. unfold matchable in Hm. auto.
  - intros H.
    assert (Forall gsm_char (chars t)) as Hc
      by (eapply Forall_impl; [|exact H]; cbn; tauto).
    apply gsm_text_exists in Hc as [b Hb].
    assert (gsm_encode t = Ok b) as ->; [|reflexivity].
    apply gsm_encode_text. split; [|assumption].
    eapply Forall_impl; [|exact H]. unfold matchable. cbn. tauto.
Qed.

(** * Decoding is total on septets *)

Lemma regular_decode_total c : 0 <= c < 128 -> c <> 27 ->
  exists u, d_get Z.eqb c regular_decode = Some u.
Proof.
  intros H Hne.
  pose proof (range_sweep 128
    (fun c => (c =? 27) || match d_get Z.eqb c regular_decode with
                           | Some _ => true | None => false end)
    eq_refl c H) as S.
  cbn beta in S. destruct (d_get Z.eqb c regular_decode); [eauto|lia].
Qed.

Lemma decode_loop_total n m l :
  (length l <= n)%nat -> Forall (fun c => 0 <= c < 128) l ->
  exists u, decode_loop m l = Ok u.
Proof.
  revert l; induction n as [|n IH]; intros l Hl Hf.
  - destruct l; [cbn; eauto|cbn in Hl; lia].
  - destruct l as [|c r]; [cbn; eauto|]. inversion Hf as [|? ? Hc Hr]; subst.
    cbn in Hl. cbn [decode_loop]. destruct (c =? 27) eqn:E.
    + destruct r as [|c2 r2]; [eauto|]. inversion Hr; subst. cbn in Hl.
      destruct (IH r2) as [u Hu]; [lia|assumption|]. rewrite Hu. cbn. eauto.
    + destruct (regular_decode_total c) as [u Hu]; [assumption|lia|]. rewrite Hu.
      destruct (IH r) as [v Hv]; [lia|assumption|]. rewrite Hv. cbn. eauto.
Qed.

Lemma gsm_decode_total l : Forall (fun c => 0 <= c < 128) l ->
  exists u, gsm_decode l = Ok u.
Proof.
  intros H. destruct (decode_loop_total (length l) Strict l (le_n _) H) as [u Hu].
  exists u. unfold gsm_decode, decode. now rewrite Hu.
Qed.

Lemma nbsp_not_gsm : ~ gsm_char 160.
Proof.
  intros [c Hc]. apply lookup_code in Hc. vm_compute in Hc. assumption.
Qed.

Lemma gsm_text_clean us b : gsm_text us b -> clean b.
Proof.
  revert b; induction us as [|u us IH]; intros b.
  - rewrite gsm_text_nil. intros ->. constructor.
  - rewrite gsm_text_cons. intros (c & b' & Hc & Ht & ->).
    specialize (IH _ Ht). inversion Hc as [g Hg Hne|g Hg]; subst; cbn.
    + constructor; [|assumption|assumption].
      assert (nth_error gsm_default g <> None) as Hs by congruence.
      apply nth_error_Some in Hs. change (length gsm_default) with 128%nat in Hs. lia.
    + econstructor; eassumption.
Qed.

Lemma clean_text b : clean b -> exists us, gsm_text us b.
Proof.
  induction 1 as [|g r Hg Hne _ [us IH]|g u r Hg _ [us IH]].
  - exists []. now apply gsm_text_nil.
  - destruct (regular_decode_total g) as [u Hu]; [assumption|assumption|].
    exists (u :: us). apply gsm_text_cons. exists [g], r.
    split; [|auto]. apply get_regular_decode, regular_In in Hu as (k & -> & H1 & H2).
    now constructor.
  - exists (u :: us). apply gsm_text_cons. exists [esc; g], r.
    split; [|auto]. now constructor.
Qed.

Lemma gsm_reencode l u :
  gsm_decode l = Ok u -> (gsm_encode (PyStr true u) = Ok l <-> clean l).
Proof.
  intros Hd. rewrite gsm_encode_text. cbn [is_uni chars]. split.
  - intros [_ H]. eapply gsm_text_clean; eassumption.
  - intros H. apply clean_text in H as [us H].
    pose proof (gsm_decode_text _ _ H) as E. rewrite E in Hd.
    injection Hd as <-. split; [|assumption].
    apply Forall_forall. intros. now left.
Qed.

(** * Replace and ignore modes *)

Lemma char_code_dec u : {c | gsm_code u c} + {~ gsm_char u}.
Proof.
  destruct (d_get Z.eqb u regular_encode) as [g|] eqn:E1.
  - left. exists [g]. apply lookup_code. now rewrite E1.
  - destruct (d_get Z.eqb u escape_encode) as [g|] eqn:E2.
    + left. exists [27; g]. apply lookup_code. now rewrite E1, E2.
    + right. intros [c Hc]. apply lookup_code in Hc. now rewrite E1, E2 in Hc.
Qed.

Lemma encode_char_lenient u :
  (forall c, gsm_code u c ->
     encode_char Replace true u = Ok c /\ encode_char Ignore true u = Ok c) /\
  (~ gsm_char u ->
     (exists g, stand_in u g /\ encode_char Replace true u = Ok [g]) /\
     encode_char Ignore true u = Ok []).
Proof.
  unfold encode_char. rewrite !char_get_matchable by (now left).
  split.
  - intros c Hc. apply lookup_code in Hc.
    destruct (d_get Z.eqb u regular_encode); [subst; auto|].
    destruct (d_get Z.eqb u escape_encode); [subst; auto|tauto].
  - intros Hn.
    destruct (d_get Z.eqb u regular_encode) as [g|] eqn:E1.
    { exfalso. apply Hn. exists [g]. apply lookup_code. now rewrite E1. }
    destruct (d_get Z.eqb u escape_encode) as [g|] eqn:E2.
    { exfalso. apply Hn. exists [27; g]. apply lookup_code. now rewrite E1, E2. }
    split; [|reflexivity]. rewrite replace_table.
    destruct (d_get Z.eqb u lookalikes) as [g|] eqn:E3.
    + exists g. split; [|reflexivity]. left.
      now apply (d_get_In Z.eqb _ _ _ Zeqb_spec nodup_lookalikes) in E3.
    + exists 63. split; [|reflexivity]. right. split; [|reflexivity].
      now apply (d_get_None Z.eqb _ _ Zeqb_spec) in E3.
Qed.

Lemma encode_replace us :
  exists codes,
    encode (PyStr true us) Replace = Ok (concat codes, zlen (concat codes)) /\
    Forall2 (fun u c => gsm_code u c \/
                        (~ gsm_char u /\ exists g, stand_in u g /\ c = [g])) us codes.
Proof.
  unfold encode. cbn [is_uni chars].
  assert (exists codes, mapM (encode_char Replace true) us = Ok codes /\
    Forall2 (fun u c => gsm_code u c \/
                        (~ gsm_char u /\ exists g, stand_in u g /\ c = [g])) us codes)
    as (codes & -> & H); [|exists codes; cbn; auto].
  induction us as [|u us (codes & E & IH)]; cbn.
  - exists []. auto.
  - destruct (encode_char_lenient u) as [Hc Hn].
    destruct (char_code_dec u) as [[c Hu]|Hu].
    + destruct (Hc c Hu) as [-> _]. rewrite E. cbn. exists (c :: codes). auto.
    + destruct (Hn Hu) as [(g & Hg & ->) _]. rewrite E. cbn.
      exists ([g] :: codes). split; [reflexivity|]. constructor; [|assumption].
      right. eauto.
Qed.

Lemma encode_ignore us :
  exists codes,
    encode (PyStr true us) Ignore = Ok (concat codes, zlen (concat codes)) /\
    Forall2 (fun u c => gsm_code u c \/ (~ gsm_char u /\ c = [])) us codes.
Proof.
  unfold encode. cbn [is_uni chars].
  assert (exists codes, mapM (encode_char Ignore true) us = Ok codes /\
    Forall2 (fun u c => gsm_code u c \/ (~ gsm_char u /\ c = [])) us codes)
    as (codes & -> & H); [|exists codes; cbn; auto].
  induction us as [|u us (codes & E & IH)]; cbn.
  - exists []. auto.
  - destruct (encode_char_lenient u) as [Hc Hn].
    destruct (char_code_dec u) as [[c Hu]|Hu].
    + destruct (Hc c Hu) as [_ ->]. rewrite E. cbn. exists (c :: codes). auto.
    + destruct (Hn Hu) as [_ ->]. rewrite E. cbn.
      exists ([] :: codes). split; [reflexivity|]. constructor; [|assumption]. auto.
Qed.

(** Septets only. *)
Lemma gsm_text_septets us b : gsm_text us b -> Forall (fun c => 0 <= c < 128) b.
Proof.
  intros H. apply gsm_text_clean in H. induction H as [|g r Hg _ _ IH|g u r Hg _ IH].
  - constructor.
  - constructor; assumption.
  - constructor; [unfold esc; lia|]. constructor; [|assumption].
    assert (forallb (fun p => (0 <=? fst p) && (fst p <? 128)) gsm_extension = true)
      as Hc by reflexivity.
    rewrite forallb_forall in Hc. specialize (Hc _ Hg). cbn in Hc. lia.
Qed.

Lemma encode_unicode us b : gsm_encode (PyStr true us) = Ok b <-> gsm_text us b.
Proof.
  rewrite gsm_encode_text. cbn [is_uni chars]. split; [tauto|]. intros H. split; [|assumption].
  apply Forall_forall. intros. now left.
Qed.

Lemma strict_error t :
  gsm_encode t = Err UnicodeError <->
  ~ Forall (fun u => gsm_char u /\ (is_uni t = true \/ u < 128)) (chars t).
Proof.
  rewrite <- is_gsm_text_spec. unfold is_gsm_text.
  destruct (gsm_encode t) as [b|e] eqn:E.
  - split; [discriminate|]. intros H. now destruct H.
  - apply gsm_encode_err in E as ->. split; [intros _; discriminate|reflexivity].
Qed.

(** * Decoding in every mode *)

Lemma reads_total_or n bad l : (length l <= n)%nat -> bad <> None -> exists us, reads bad l us.
Proof.
  revert l; induction n as [|n IH]; intros l Hl Hb.
  - destruct l; [eexists; apply reads_nil|cbn in Hl; lia].
  - destruct l as [|c r]; [eexists; apply reads_nil|]. cbn in Hl.
    destruct (Z.eq_dec c 27) as [->|Hc].
    + destruct r as [|g r]; [eexists; apply reads_last|].
      destruct (IH r) as [us H]; [cbn in Hl; lia|assumption|].
      destruct (d_get Z.eqb g escape_decode) as [u|] eqn:E.
      * exists (u :: us). apply reads_extension; [|assumption].
        rewrite <- escape_table. now apply get_escape_decode.
      * exists (160 :: us). apply reads_unassigned; [|assumption].
        rewrite <- escape_table. intros Hin. apply in_map_iff in Hin.
        destruct Hin as ([a u] & <- & Hin). apply get_escape_decode in Hin. cbn [fst] in E. congruence.
    + destruct (IH r) as [us H]; [lia|assumption|].
      destruct (Z_le_dec 0 c) as [H0|H0]; [destruct (Z_lt_dec c 128) as [H1|H1]|].
      * destruct (regular_decode_total c) as [u Hu]; [lia|assumption|].
        apply get_regular_decode, regular_In in Hu. destruct Hu as (k & -> & Hk & Hn).
        exists (u :: us). now apply reads_plain.
      * destruct bad as [x|]; [|congruence]. exists (x ++ us).
        eapply reads_bad; [lia|reflexivity|assumption].
      * destruct bad as [x|]; [|congruence]. exists (x ++ us).
        eapply reads_bad; [lia|reflexivity|assumption].
Qed.

Lemma nth_default_septet g u : nth_error gsm_default g = Some u -> 0 <= Z.of_nat g < 128.
Proof.
  intros H. assert (g < length gsm_default)%nat by (apply nth_error_Some; congruence).
  change (length gsm_default) with 128%nat in *. lia.
Qed.

Definition bad_of (m : errmode) : option (list Z) :=
  match m with Replace => Some [63] | Ignore => Some [] | _ => None end.

Lemma reads_decode m l us : reads (bad_of m) l us -> decode_loop m l = Ok us.
Proof.
  intros H. remember (bad_of m) as bad eqn:Eb.
  induction H as [|g u b us Hg Hne H IH|g u b us Hin H IH|g b us Hin H IH| |g x b us Hg Hx H IH];
    cbn [decode_loop].
  - reflexivity.
  - unfold esc in Hne. assert (Z.of_nat g =? 27 = false) as -> by lia.
    assert (d_get Z.eqb (Z.of_nat g) regular_decode = Some u) as ->
      by (apply get_regular_decode, regular_In; exists g; auto).
    now rewrite IH.
  - change (esc =? 27) with true. cbn iota. rewrite <- escape_table in Hin.
    apply get_escape_decode in Hin. rewrite Hin, IH. reflexivity.
  - change (esc =? 27) with true. cbn iota.
    assert (d_get Z.eqb g escape_decode = None) as ->.
    { destruct (d_get Z.eqb g escape_decode) as [u|] eqn:E; [|reflexivity]. exfalso. apply Hin.
      apply get_escape_decode in E. rewrite escape_table in E. apply in_map_iff.
      exists (g, u). auto. }
    now rewrite IH.
  - reflexivity.
  - assert (g =? 27 = false) as -> by lia.
    assert (d_get Z.eqb g regular_decode = None) as ->.
    { destruct (d_get Z.eqb g regular_decode) as [u|] eqn:E; [|reflexivity]. exfalso. apply Hg.
      apply get_regular_decode, regular_In in E. destruct E as (k & -> & Hk & _).
      eapply nth_default_septet; eassumption. }
    rewrite Hx in Eb. destruct m; cbn in Eb; try discriminate; injection Eb as ->;
      rewrite IH; reflexivity.
Qed.

Lemma decode_loop_reads n m l us : (length l <= n)%nat ->
  decode_loop m l = Ok us -> reads (bad_of m) l us.
Proof.
  revert l us; induction n as [|n IH]; intros l us Hl.
  - destruct l; [|cbn in Hl; lia]. intros [= <-]. apply reads_nil.
  - destruct l as [|c r]; [intros [= <-]; apply reads_nil|]. cbn in Hl. cbn [decode_loop].
    destruct (c =? 27) eqn:E.
    + assert (c = esc) as -> by (unfold esc; lia).
      destruct r as [|g r]; [intros [= <-]; apply reads_last|]. cbn in Hl.
      destruct (decode_loop m r) as [v|] eqn:Ed; [|discriminate]. cbn [bind].
      apply IH in Ed; [|lia].
      destruct (d_get Z.eqb g escape_decode) as [u|] eqn:Eg; intros [= <-].
      * apply reads_extension; [|assumption]. rewrite <- escape_table.
        exact (proj1 (get_escape_decode _ _) Eg).
      * apply reads_unassigned; [|assumption]. rewrite <- escape_table. intros Hin.
        apply in_map_iff in Hin. destruct Hin as ([a u] & <- & Hin).
        apply get_escape_decode in Hin. cbn [fst] in Eg. congruence.
    + destruct (d_get Z.eqb c regular_decode) as [u|] eqn:Eg.
      * destruct (decode_loop m r) as [v|] eqn:Ed; [|discriminate]. cbn [bind]. intros [= <-].
        apply IH in Ed; [|lia]. apply get_regular_decode, regular_In in Eg.
        destruct Eg as (k & -> & Hk & Hn). now apply reads_plain.
      * assert (Hc : ~ (0 <= c < 128)).
        { intros Hc. destruct (regular_decode_total c Hc) as [u Hu]; [lia|congruence]. }
        destruct m; try discriminate.
        -- destruct (decode_loop Replace r) as [v|] eqn:Ed; [|discriminate].
           cbn [bind]. intros [= <-]. change (63 :: v) with ([63] ++ v).
           eapply reads_bad; [assumption|reflexivity|]. apply IH; [lia|assumption].
        -- intros Ed. change us with ([] ++ us).
           eapply reads_bad; [assumption|reflexivity|]. apply IH; [lia|assumption].
Qed.

Lemma decode_loop_err n m l e : (length l <= n)%nat -> decode_loop m l = Err e -> e = UnicodeError.
Proof.
  revert l; induction n as [|n IH]; intros l Hl.
  - destruct l; [discriminate|cbn in Hl; lia].
  - destruct l as [|c r]; [discriminate|]. cbn in Hl. cbn [decode_loop].
    destruct (c =? 27).
    + destruct r as [|g r]; [discriminate|]. cbn in Hl.
      destruct (decode_loop m r) as [v|] eqn:Ed; [discriminate|]. cbn [bind]. intros [= <-].
      eapply IH; [|exact Ed]. lia.
    + destruct (d_get Z.eqb c regular_decode).
      * destruct (decode_loop m r) as [v|] eqn:Ed; [discriminate|]. cbn [bind]. intros [= <-].
        eapply IH; [|exact Ed]. lia.
      * destruct m; try (intros [= <-]; reflexivity).
        -- destruct (decode_loop Replace r) as [v|] eqn:Ed; [discriminate|].
           cbn [bind]. intros [= <-]. eapply IH; [|exact Ed]. lia.
        -- intros Ed. eapply IH; [|exact Ed]. lia.
Qed.

Lemma decode_reads m l us : decode l m = Ok (us, zlen us) <-> reads (bad_of m) l us.
Proof.
  unfold decode. split.
  - intros H. destruct (decode_loop m l) as [v|] eqn:Ed; [|discriminate].
    cbn [bind] in H. injection H as <-. exact (decode_loop_reads (length l) _ _ _ (le_n _) Ed).
  - intros H. now rewrite (reads_decode _ _ _ H).
Qed.

Lemma decode_lenient m l : bad_of m <> None ->
  exists us, decode l m = Ok (us, zlen us) /\ reads (bad_of m) l us.
Proof.
  intros H. destruct (reads_total_or (length l) (bad_of m) l (le_n _) H) as [us Hus].
  exists us. split; [now apply decode_reads|assumption].
Qed.

Lemma decode_strict_error l :
  decode l Strict = Err UnicodeError <-> ~ exists us, reads None l us.
Proof.
  split.
  - intros H (us & Hus). apply (decode_reads Strict) in Hus. congruence.
  - intros H. unfold decode. destruct (decode_loop Strict l) as [v|e] eqn:Ed.
    + exfalso. apply H. exists v. exact (decode_loop_reads (length l) Strict _ _ (le_n _) Ed).
    + rewrite (decode_loop_err (length l) _ _ _ (le_n _) Ed). reflexivity.
Qed.

(** * The length the codec functions return *)

Lemma encode_length_escapes t b : gsm_encode t = Ok b ->
  encode t Strict = Ok (b, zlen b) /\
  (zlen b = zlen (chars t) <-> ~ In esc b).
Proof.
  intros H. split.
  - unfold gsm_encode in H. unfold encode in *.
    destruct (mapM (encode_char Strict (is_uni t)) (chars t)); [|discriminate].
    cbn [bind fst] in *. injection H as <-. reflexivity.
  - apply gsm_encode_text in H. destruct H as [_ (codes & H & ->)].
    assert (G : forall us cs, Forall2 gsm_code us cs ->
              zlen us <= zlen (concat cs) /\
              (zlen (concat cs) = zlen us <-> ~ In esc (concat cs))).
    { clear. induction 1 as [|u c us cs Hc H [IH1 IH2]].
      - cbn. split; [lia|]. split; [intros _ []|reflexivity].
      - cbn [concat]. rewrite zlen_app, zlen_cons, in_app_iff.
        destruct Hc as [g Hg Hne|g Hg].
        + change (zlen [Z.of_nat g]) with 1. cbn [In]. split; [lia|].
          split; [intros Hl [[E|[]]|E]; [congruence|apply IH2 in E; [assumption|lia]]|].
          intros Hn. assert (~ In esc (concat cs)) by tauto. apply IH2 in H0. lia.
        + change (zlen [esc; g]) with 2. cbn [In]. split; [lia|].
          split; [lia|]. intros Hn. exfalso. apply Hn. left. left. reflexivity. }
    destruct (G _ _ H) as [_ G2]. exact G2.
Qed.
