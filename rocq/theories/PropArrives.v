(** What the receiver finds: the only reading of the SMIL text (C99), and the slide
    show of a whole message after sending and receiving (C104). *)
From Coq Require Import Lia ZifyBool Permutation.
From Verif Require Import Py Iter Tables WspDec WspEnc Message Xml MmsEnc MmsDec
  SpecWsp WspClaims MmsClaims SpecSmil SpecXml MessageClaims PyFacts BodyFacts MsgHeaderFacts
  MessageFacts XmlFacts PropXml PropSmil PropBody.
Open Scope Z_scope.

(** UTF-8 characters are told apart from what follows. *)
Lemma utf8_prefix u u' r r' : utf8_char u -> utf8_char u' -> u ++ r = u' ++ r' -> u = u' /\ r = r'.
Proof.
  intros H H' E. destruct H, H'; cbn [app] in E;
    match type of E with ?a :: _ = ?b :: _ => assert (a = b) by congruence; subst end;
    first [exfalso; lia|split; congruence].
Qed.

(** A text without control characters has one reading: itself. *)
Lemma plain_only raw v : att_value raw v -> forall s, raw = escape s -> plain_text s -> v = s.
Proof.
  assert (C1 : forall c s, c < 128 -> plain_text (c :: s) -> 32 <= c <= 127 /\ plain_text s).
  { intros c s Hc P. inversion P as [|? ? H1 H2 E|u t U T E]; subst; [auto|exfalso].
    destruct (utf8_high _ U) as (F & N). destruct u as [|a u]; [congruence|]. cbn [app] in E.
    assert (a = c) by congruence. inversion F. lia. }
  assert (R : forall raw' v' d, (forall s, raw' = escape s -> plain_text s -> v' = s) ->
    forall t s, t ++ raw' = escape s -> plain_text s ->
    (t = str "&amp;" /\ d = 38 \/ t = str "&lt;" /\ d = 60 \/ t = str "&quot;" /\ d = 34 \/ t = str "&gt;" /\ d = 62 \/
     t = str "&apos;" /\ d = 39) -> d :: v' = s).
  { intros raw' v' d IH t s E P T.
    assert (E0 : exists q, escape s = 38 :: q).
    { rewrite <- E. destruct T as [(-> & _)|[(-> & _)|[(-> & _)|[(-> & _)|(-> & _)]]]]; eexists; reflexivity. }
    destruct E0 as (q & E0). destruct (escape_ref _ _ E0) as (c & u & -> & Ec & Hc). rewrite <- E0 in Ec.
    rewrite <- E in Ec. clear E E0. destruct (C1 c u ltac:(lia) P) as (_ & Pu).
    assert (X : raw' = escape u /\ d = c).
    { destruct Hc as [->|[->|[->| ->]]]; vm_compute esc in Ec;
        destruct T as [(-> & ->)|[(-> & ->)|[(-> & ->)|[(-> & ->)|(-> & ->)]]]]; cbn [str list_ascii_of_string map app] in Ec;
        first [discriminate Ec | injection Ec as Ec; split; congruence]. }
    destruct X as (X & ->). f_equal. apply IH; assumption. }
  induction 1; intros s E P.
  - destruct s; [reflexivity|]. rewrite escape_cons in E. destruct (esc_shape z) as [(X & _)|[(_ & X)|[(_ & X)|[(_ & X)|(_ & X)]]]];
      rewrite X in E; discriminate E.
  - symmetry in E. destruct (escape_head _ _ _ E) as (t & -> & E'); [lia|]. destruct (C1 c _ ltac:(lia) P) as (_ & Pt).
    f_equal. apply IHatt_value; auto.
  - symmetry in E. destruct (utf8_high _ H) as (F & Nu). destruct (escape_high_inv _ F _ _ E) as (t & -> & E').
    f_equal. apply IHatt_value; auto.
    inversion P as [E2|c q Hc Pq E2|u' q U Pq E2].
    + destruct u; [congruence|discriminate E2].
    + exfalso. destruct u as [|a u]; [congruence|]. inversion F. cbn [app] in E2. assert (c = a) by congruence. lia.
    + destruct (utf8_prefix _ _ _ _ U H E2) as (_ & <-). exact Pq.
  - exfalso. symmetry in E. destruct (escape_head _ _ _ E) as (t & -> & E'); [lia|]. destruct (C1 c _ ltac:(lia) P). lia.
  - exfalso. symmetry in E. destruct (escape_head _ _ _ E) as (t & -> & E'); [lia|]. destruct (C1 13 _ ltac:(lia) P). lia.
  - exfalso. symmetry in E. destruct (escape_head _ _ _ E) as (t & -> & E'); [lia|]. destruct (C1 13 _ ltac:(lia) P). lia.
  - eapply R; eauto.
  - eapply R; eauto.
  - eapply R; eauto 8.
  - eapply R; eauto 8.
  - eapply R; eauto 8.
Qed.

Lemma reads_same : forall x, values plain_text x -> forall y, reads x y -> same_tree x y.
Proof.
  intros x. induction x as [tag l k IH] using xml_nest_ind. intros V y D.
  inversion V as [? ? ? V1 V2]; subst. inversion D as [? ? l' ? k' F Fk]; subst. constructor.
  - rewrite (sort_perm l). assert (V1' : Forall (fun a => plain_text (snd a)) (attr_sort l)).
    { rewrite Forall_forall in *. intros a Ha. apply V1. eapply Permutation_in; [apply Permutation_sym, sort_perm|exact Ha]. }
    clear - F V1'. revert V1'. induction F as [|(a, b) (a', b') q q' (E & A) _ IHF]; intros V; [constructor|].
    inversion V; subst. cbn [fst snd] in *. subst a'. rewrite (plain_only _ _ A b eq_refl) by assumption. constructor. auto.
  - clear F D V V1. revert k' Fk. induction IH as [|x k IHx _ IHk]; intros k' Fk; inversion Fk; subst; constructor.
    + inversion V2; subst. auto.
    + inversion V2; subst. auto.
Qed.

(** C99: when all sources and texts are UTF-8 without control characters, whatever an
    XML processor reads from the text is the document of the message. *)
Theorem C99_only : forall w m x, smil_tree w m = Ok x ->
  (forall g s, In g (m_pages m) -> slide_source w g s -> plain_text s) ->
  (exists y, document (toprettyxml x) y) /\
  forall y, document (toprettyxml x) y -> same_tree x y.
Proof.
  intros w m x E H. destruct (C99_exact w m x E) as (_ & U). destruct (proj2 U H) as (y & D & _).
  split; [eauto|]. clear y D. intros y D. destruct (smil_named w m x E) as (N & V).
  apply reads_same; [apply V; auto|]. apply (document_reads x y N). exact D.
Qed.
Print Assumptions C99_only.
Example C99_only_case :
  let w := World (fun _ => None) (fun _ => None) (fun d => d) in
  let m := Message default_headers [snd (add_text (str "a<b & ""c""") 0 0 new_page)] [] 176 220 in
  (exists x, smil_tree w m = Ok x) /\
  forall g s, In g (m_pages m) -> slide_source w g s -> plain_text s.
Proof.
  split; [eexists; vm_compute; reflexivity|]. intros g s [<-|[]] [p tb te E S|p tb te E S|p tb te E S];
    vm_compute in E; try discriminate E. injection E as <- <- <-. vm_compute in S. injection S as <-.
  apply const_plain. reflexivity.
Qed.

(** * C104 *)

(** What was read shows the message: up to the order of attributes it is a slide show
    of the size of the message with an element for each slide, in order, that
    describes the slide. *)
Definition shows (w : world) (m : message) (y : xml) : Prop :=
  exists x pars, same_tree x y /\ slide_show (m_width m) (m_height m) pars x /\
    Forall2 (slide_described w) (m_pages m) pars.

Scheme same_tree_mut := Minimality for same_tree Sort Prop
  with same_trees_mut := Minimality for same_trees Sort Prop.

Lemma same_tree_sym :
  (forall x y, same_tree x y -> same_tree y x).
Proof.
  apply (same_tree_mut (fun x y => same_tree y x) (fun k k' => same_trees k' k)).
  - intros tag l l' k k' P _ IH. constructor; [now apply Permutation_sym|exact IH].
  - constructor.
  - intros. constructor; assumption.
Qed.
Lemma same_tree_trans : forall y z, same_tree y z -> forall x, same_tree x y -> same_tree x z.
Proof.
  apply (same_tree_mut (fun y z => forall x, same_tree x y -> same_tree x z)
                       (fun k k' => forall k0, same_trees k0 k -> same_trees k0 k')).
  - intros tag l l' k k' P _ IH x H. inversion H; subst. constructor; [etransitivity; eassumption|auto].
  - auto.
  - intros x x' k k' _ IHx _ IHk k0 H. inversion H; subst. constructor; auto.
Qed.
Lemma same_values P : forall x y, same_tree x y -> values P x -> values P y.
Proof.
  apply (same_tree_mut (fun x y => values P x -> values P y) (fun k k' => Forall (values P) k -> Forall (values P) k')).
  - intros tag l l' k k' Q _ IH V. inversion V as [? ? ? V1 V2]; subst. constructor; [|auto].
    rewrite Forall_forall in *. intros a Ha. apply V1. eapply Permutation_in; [apply Permutation_sym, Q|exact Ha].
  - auto.
  - intros x x' k k' _ IHx _ IHk V. inversion V; subst. constructor; auto.
Qed.
Lemma same_forall2 k k' : same_trees k k' -> Forall2 same_tree k k'.
Proof. induction 1; constructor; assumption. Qed.

(** What is read from an attribute is UTF-8 without control characters. *)
Lemma reads_plain : forall x y, reads x y -> values plain_text y.
Proof.
  intros x. induction x as [tag l k IH] using xml_nest_ind. intros y D.
  inversion D as [? ? l' ? k' F Fk]; subst. constructor.
  - clear - F. induction F as [|a b q q' (_ & A) _ IHF]; constructor; [eapply value_plain; exact A|exact IHF].
  - clear F D. revert k' Fk. induction IH as [|x k IHx _ IHk]; intros k' Fk; inversion Fk; subst; constructor; auto.
Qed.

Lemma source_fun w p s s' : source w p s -> source w p s' -> s = s'.
Proof.
  intros [a A|a A B|a A B C] [b A'|b A' B'|b A' B' C'];
    try (rewrite A in A'; discriminate A'); try (rewrite B in B'; discriminate B').
  - rewrite A in A'. now injection A'.
  - rewrite B in B'. now injection B'.
  - rewrite C in C'. now injection C'.
Qed.

Lemma shown_plain tag region d s src tb te l : shown tag region d (Some (src, tb, te)) l -> s = src ->
  Forall (values plain_text) l -> plain_text s.
Proof.
  intros (x & (attrs & _ & ->) & ->) -> V. apply Forall_inv in V. inversion V as [? ? ? V1 _]; subst.
  apply Forall_inv in V1. exact V1.
Qed.

(** A readable description has only such sources. *)
Lemma described_plain w g x s : slide_described w g x -> values plain_text x -> slide_source w g s -> plain_text s.
Proof.
  intros (i & t & a & Di & Dt & Da & (d & li & lt & la & _ & Si & St & Sa & ->)) V H.
  inversion V as [? ? ? _ V2]; subst. apply Forall_app in V2. destruct V2 as (Vi & V2). apply Forall_app in V2.
  destruct V2 as (Vt & Va).
  destruct H as [p tb te E S|p tb te E S|p tb te E S].
  - rewrite E in Di. destruct i as [[[src tb'] te']|]; [|contradiction]. destruct Di as (Ds & _ & _).
    eapply shown_plain; [exact Si|eapply source_fun; eassumption|exact Vi].
  - rewrite E in Da. destruct a as [[[src tb'] te']|]; [|contradiction]. destruct Da as (Ds & _ & _).
    eapply shown_plain; [exact Sa|eapply source_fun; eassumption|exact Va].
  - rewrite E in Dt. destruct t as [[[src tb'] te']|]; [|contradiction]. destruct Dt as (Ds & _ & _).
    eapply shown_plain; [exact St|congruence|exact Vt].
Qed.

(** No description of all slides is the same as one that lost a text. *)
Lemma lost_same : forall w gs qs pars, lost qs gs -> Forall2 (slide_described w) gs pars ->
  Forall2 same_tree (map par_element qs) pars -> False.
Proof.
  intros w gs qs pars (k & q & g & A & B & C & D) F S.
  assert (X : exists x, slide_described w g x /\ same_tree (par_element q) x).
  { clear C D. revert k qs A B S. induction F as [|g0 x0 gs pars H0 F IH]; intros k qs A B S; [destruct k; discriminate B|].
    destruct qs as [|q0 qs]; [destruct k; discriminate A|]. cbn [map] in S. inversion S; subst.
    destruct k as [|k]; cbn [nth_error] in A, B.
    - assert (q0 = q) by congruence. assert (g0 = g) by congruence. subst. eauto.
    - eapply IH; eauto. }
  destruct X as (x & (i & t & a & _ & Dt & _ & (dd & li & lt & la & _ & _ & St & _ & Ex)) & Sx).
  unfold describes in Dt. destruct (pg_text g) as [[[p tb] te]|]; [|contradiction].
  destruct t as [[[src tb'] te']|]; [|contradiction].
  cbn [shown] in St. destruct St as (z & (attrs & _ & Et) & ->). subst x.
  unfold par_element in Sx. inversion Sx as [? ? ? ? ? _ K]; subst. apply same_forall2 in K.
  assert (J : exists c, In c (map snd (snd q)) /\ is_text c).
  { match type of K with Forall2 _ _ (_ ++ ?z :: _) => assert (I : In z (li ++ z :: la))
      by (apply in_or_app; right; left; reflexivity); set (e := z) in *;
      assert (Te : is_text e) by reflexivity end. clearbody e. clear Sx.
    revert I K. generalize (li ++ e :: la).
    intros l I K. induction K as [|u v r r' Huv _ IHK]; [destruct I|]. destruct I as [->|I].
    - exists u. split; [left; reflexivity|]. destruct Huv. exact Te.
    - destruct (IHK I) as (c & H1 & H2). exists c. split; [right; exact H1|exact H2]. }
  destruct J as (c & Ic & Tc). apply in_map_iff in Ic. destruct Ic as (c' & <- & Ic).
  unfold no_text in D. rewrite Forall_forall in D. exact (D c' Ic Tc).
Qed.

(** What an XML processor reads from the document of a message shows the message just
    when every slide with sound has text and all sources are readable. *)
Lemma shows_exact w m x : Forall (has_sources w) (m_pages m) -> smil_tree w m = Ok x ->
  ((exists y, document (toprettyxml x) y /\ shows w m y) <->
   Forall audio_with_text (m_pages m) /\
   forall g s, In g (m_pages m) -> slide_source w g s -> plain_text s).
Proof.
  intros Hs E. destruct (smil_named w m x E) as (N & V). split.
  - intros (y & D & z & pars & S & Sh & F).
    assert (R : reads x y) by (apply (document_reads x y N); exact D).
    assert (P : forall g s, In g (m_pages m) -> slide_source w g s -> plain_text s).
    { pose proof (same_values plain_text y z (same_tree_sym z y S) (reads_plain x y R)) as Vz.
      destruct Sh as (a & b & _ & _ & ->). inversion Vz as [? ? ? _ V1]; subst. inversion V1 as [|? ? _ V2]; subst.
      inversion V2 as [|? ? V3 _]; subst. inversion V3 as [? ? ? _ V4]; subst. clear - F V4. intros g s Hg Hsrc.
      induction F as [|g0 x0 gs pars H0 F IH]; [destruct Hg|]. inversion V4; subst. destruct Hg as [->|Hg].
      - eapply described_plain; eauto.
      - apply IH; auto. }
    split; [|exact P].
    assert (Sx : same_tree x z).
    { eapply same_tree_trans; [apply same_tree_sym; exact S|]. apply reads_same; [apply V; auto|exact R]. }
    destruct (Forall_Exists_dec audio_with_text) with (l := m_pages m) as [Y|Y]; [|exact Y|exfalso].
    { intros g. unfold audio_with_text. destruct (pg_audio g), (pg_text g);
        (left; intros; congruence) || (right; intros Z; apply Z; congruence). }
    unfold smil_tree in E.
    destruct (smil_pages w 0 [] None (m_pages m)) as [qs|] eqn:Q; [|discriminate E]. rewrite bind_ok in E.
    assert (L : lost qs ([] ++ m_pages m)).
    { eapply (pages_lost w (m_pages m) 0 [] None []); [reflexivity| |exact Q|right; exact Y].
      right. intros t Z. discriminate Z. }
    destruct Sh as (a & b & _ & _ & ->).
    apply (lost_same w (m_pages m) qs pars L F).
    inversion Sx as [? ? ? k k' _ K Ex]; subst x. clear Sx.
    inversion K as [|? ? ? ? _ K1]; subst. inversion K1 as [|u ? ? ? K2 K0]; subst. inversion K0; subst.
    inversion K2 as [? ? ? kk ? _ K3]; subst. apply same_forall2 in K3.
    assert (Ek : kk = map par_element qs).
    { apply (f_equal (fun r => match r with Ok (Elem _ _ [_; Elem _ _ l]) => l | _ => [] end)) in E. cbn in E.
      symmetry. exact E. }
    subst kk. exact K3.
  - intros (A & P). destruct (proj2 (C61_exact w m Hs) A) as (x' & pars & E' & Sh & F).
    assert (x' = x) by congruence. subst x'. destruct (C99_only w m x E P) as ((y & D) & U).
    exists y. split; [exact D|]. exists x, pars. split; [apply U; exact D|]. split; assumption.
Qed.

(** The part of the received message that holds the slide show, and its text. *)
Definition show_received (m' : message) (text : list Z) : Prop :=
  exists sp ps, m_parts m' = sp :: ps /\ dp_data sp = Some text /\
    h_get (str "Content-Type") (dp_headers sp) = Some (HType (str "application/smil") []).

(** C104, exactly: a message without attached parts whose headers and slide parts can
    be sent and have sources is encoded, decoded, and what an XML processor reads from
    the first part shows the message, just when every slide with sound has text and
    all sources and texts are UTF-8 without control characters. *)
Theorem C104_exact : forall w rand m,
  is_dict (m_headers m) -> any_order w -> sendable rand (m_headers m) -> slides_sendable w m ->
  m_parts m = [] -> Forall (has_sources w) (m_pages m) ->
  (forall bytes m1, encode toprettyxml w rand m = (Ok bytes, m1) -> zlen bytes <= maxint) ->
  ((exists bytes m1 m' text y, encode toprettyxml w rand m = (Ok bytes, m1) /\
      decode_data bytes = Ok m' /\ show_received m' text /\ document text y /\ shows w m y) <->
   Forall audio_with_text (m_pages m) /\
   forall g s, In g (m_pages m) -> slide_source w g s -> plain_text s).
Proof.
  intros w rand m Hd Hw Hs Hsl Hp Hsrc Hmax.
  destruct (smil_tree w m) as [x|e] eqn:E.
  - assert (Et : smil toprettyxml w m = Ok (toprettyxml x)) by (unfold smil; rewrite E; reflexivity).
    destruct (C52_message toprettyxml w rand m _ Hd Hw Hs Hsl Et Hp) as (bytes & m1 & Ee & D).
    destruct (D (Hmax _ _ Ee)) as (m' & sp & ps & Ed & _ & Eps & (Edata & _ & Eh) & _). clear D.
    rewrite <- (shows_exact w m x Hsrc E). split.
    + intros (bytes' & m1' & m'' & text & y & Ee' & Ed' & (sp' & ps' & Eps' & Edata' & _) & Dy & S).
      assert (bytes' = bytes) by congruence. subst bytes'. assert (m'' = m') by congruence. subst m''.
      assert (sp' = sp) by congruence. subst sp'. assert (text = toprettyxml x) by congruence. subst text. eauto.
    + intros (y & Dy & S). exists bytes, m1, m', (toprettyxml x), y.
      split; [exact Ee|]. split; [exact Ed|]. split; [|split; assumption].
      exists sp, ps. split; [exact Eps|]. split; [exact Edata|]. rewrite Eh. reflexivity.
  - split.
    + intros (bytes & m1 & m' & text & y & Ee & _). exfalso.
      destruct (message_headers_run w rand m Hd Hw Hs) as (hb & d' & E1 & _).
      unfold encode, st_bind in Ee. rewrite E1 in Ee. unfold encode_message_body, st_bind, st_get, st_lift in Ee.
      match type of Ee with context [smil toprettyxml w ?m2] => assert (Z : smil toprettyxml w m2 = Err e) end.
      { unfold smil. match goal with |- context [smil_tree w ?m2] => change (smil_tree w m2) with (smil_tree w m) end.
        rewrite E. reflexivity. }
      rewrite Z in Ee. discriminate Ee.
    + intros (A & _). exfalso. destruct (proj2 (C61_exact w m Hsrc) A) as (x & pars & E' & _). congruence.
Qed.
Print Assumptions C104_exact.

(** C104: in that case whatever is read shows the message, and the other parts are
    those of the slides in order. *)
Theorem C104_arrives : forall w rand m,
  is_dict (m_headers m) -> any_order w -> sendable rand (m_headers m) -> slides_sendable w m ->
  m_parts m = [] -> Forall (has_sources w) (m_pages m) -> Forall audio_with_text (m_pages m) ->
  (forall g s, In g (m_pages m) -> slide_source w g s -> plain_text s) ->
  exists bytes m1, encode toprettyxml w rand m = (Ok bytes, m1) /\
    (zlen bytes <= maxint ->
     exists m' sp ps text, decode_data bytes = Ok m' /\ m_parts m' = sp :: ps /\
       show_received m' text /\ (exists y, document text y) /\
       (forall y, document text y -> shows w m y) /\
       Forall2 (delivers w) (slide_parts m) ps).
Proof.
  intros w rand m Hd Hw Hs Hsl Hp Hsrc A P.
  destruct (proj2 (C61_exact w m Hsrc) A) as (x & pars & E & Sh & F).
  assert (Et : smil toprettyxml w m = Ok (toprettyxml x)) by (unfold smil; rewrite E; reflexivity).
  destruct (C52_message toprettyxml w rand m _ Hd Hw Hs Hsl Et Hp) as (bytes & m1 & Ee & D).
  exists bytes, m1. split; [exact Ee|]. intros Hmax.
  destruct (D Hmax) as (m' & sp & ps & Ed & _ & Eps & (Edata & _ & Eh) & Fd). clear D.
  destruct (C99_only w m x E P) as (Y & U).
  exists m', sp, ps, (toprettyxml x). split; [exact Ed|]. split; [exact Eps|]. split.
  { exists sp, ps. split; [exact Eps|]. split; [exact Edata|]. rewrite Eh. reflexivity. }
  split; [exact Y|]. split; [|exact Fd]. intros y Dy. exists x, pars. split; [apply U; exact Dy|]. split; assumption.
Qed.
Print Assumptions C104_arrives.
(** The hypotheses hold of the message of [C52_hypotheses] with its two slides, and
    three parts arrive. *)
Example C104_case :
  let w := World (fun _ => None) (fun _ => None) (fun d => rev d) in
  let m0 := with_headers (default_headers ++ [(str "To", HStr (str "a@b"))]) new_message in
  let m := snd (add_text_slides [(str "one", 0, 0); (str "two", 100, 4000)] m0) in
  is_dict (m_headers m) /\ sendable 1111 (m_headers m) /\ any_order w /\ slides_sendable w m /\
  m_parts m = [] /\ Forall (has_sources w) (m_pages m) /\ Forall audio_with_text (m_pages m) /\
  (forall g s, In g (m_pages m) -> slide_source w g s -> plain_text s) /\
  match fst (encode toprettyxml w 1111 m) with
  | Ok bytes =>
      match decode_data bytes with
      | Ok m' => zlen bytes <= maxint /\ length (m_parts m') = 3%nat
      | Err _ => False
      end
  | Err _ => False
  end.
Proof.
  cbv zeta. destruct C52_hypotheses as (A & B & C). cbv zeta in A, B, C.
  split; [exact A|]. split; [exact B|]. split; [exact C|]. clear A B C.
  set (w := World _ _ _).
  set (m := snd (add_text_slides _ _)).
  assert (Ep : exists g1 g2, m_pages m = [g1; g2] /\
    pg_image g1 = None /\ pg_audio g1 = None /\ pg_image g2 = None /\ pg_audio g2 = None /\
    (exists p tb te, pg_text g1 = Some (p, tb, te) /\ data_of w p = Ok (str "one")) /\
    (exists p tb te, pg_text g2 = Some (p, tb, te) /\ data_of w p = Ok (str "two"))).
  { do 2 eexists. split; [vm_compute; reflexivity|]. do 4 (split; [reflexivity|]).
    split; do 3 eexists; (split; vm_compute; reflexivity). }
  split.
  { assert (Es : slide_parts m = map (fun t => set_text t new_part) [str "one"; str "two"]) by (vm_compute; reflexivity).
    unfold slides_sendable. rewrite Es. apply Forall_forall. intros p Hin. apply in_map_iff in Hin.
    destruct Hin as (s & <- & _). destruct (text_part_sendable w s) as (X & Y). split; [exact X|eauto]. }
  split; [vm_compute; reflexivity|].
  destruct Ep as (g1 & g2 & -> & I1 & A1 & I2 & A2 & (p1 & tb1 & te1 & T1 & D1) & (p2 & tb2 & te2 & T2 & D2)).
  split.
  { repeat apply Forall_cons; try apply Forall_nil; (split; [intros p tb te E; congruence|]);
      (split; [|intros p tb te E; congruence]); intros p tb te E.
    - assert (p = p1) by congruence. subst. eauto.
    - assert (p = p2) by congruence. subst. eauto. }
  split.
  { repeat apply Forall_cons; try apply Forall_nil; intros X; congruence. }
  split.
  { intros g s [<-|[<-|[]]] [p tb te E S|p tb te E S|p tb te E S]; try congruence.
    - assert (p = p1) by congruence. subst. assert (s = str "one") by congruence. subst. apply const_plain. reflexivity.
    - assert (p = p2) by congruence. subst. assert (s = str "two") by congruence. subst. apply const_plain. reflexivity. }
  subst m w. vm_compute. split; [discriminate|reflexivity].
Qed.
