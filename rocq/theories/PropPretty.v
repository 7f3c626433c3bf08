(** Every character of the SMIL text, C132. *)
From Coq Require Import Lia ZifyBool ZifyNat Permutation Sorted.
From Verif Require Import Py PyFacts WspDec Message MessageClaims SpecSmil SpecXml SpecPretty MessageFacts
  Xml XmlFacts PropMessage PropSmil PropXml PropParam.
Open Scope Z_scope.

Lemma before_asym a b : before a b -> before b a -> False.
Proof.
  induction 1 as [c b|x y a b L|x a b H IH]; intros K; inversion K; subst; first [lia|now apply IH].
Qed.
Lemma before_trans a b : before a b -> forall c, before b c -> before a c.
Proof.
  induction 1 as [c b|x y a b L|x a b H IH]; intros d K; inversion K; subst;
    first [apply before_end|apply before_char; lia|apply before_same; now apply IH].
Qed.
Lemma leb_before a : forall b, a <> b -> if str_leb a b then before a b else before b a.
Proof.
  induction a as [|x a IH]; intros [|y b] N; cbn [str_leb]; [congruence|constructor|constructor|].
  destruct (x =? y) eqn:E.
  - assert (x = y) by lia. subst y. specialize (IH b ltac:(congruence)).
    destruct (str_leb a b); now apply before_same.
  - destruct (x <? y) eqn:L; apply before_char; lia.
Qed.

Lemma insert_sorted a l : ~ In (fst a) (map fst l) -> StronglySorted (fun a b => before (fst a) (fst b)) l ->
  StronglySorted (fun a b => before (fst a) (fst b)) (attr_insert a l).
Proof.
  induction l as [|b l IH]; intros N S; cbn [attr_insert]; [repeat constructor|].
  cbn [map In] in N. apply StronglySorted_inv in S. destruct S as (S1 & S2).
  pose proof (leb_before (fst a) (fst b) ltac:(intuition congruence)) as L.
  destruct (str_leb (fst a) (fst b)).
  - constructor; [now constructor|]. constructor; [exact L|].
    eapply Forall_impl; [|exact S2]. cbv beta. intros c Hc. eapply before_trans; eassumption.
  - constructor; [apply IH; [tauto|exact S1]|].
    eapply Permutation_Forall; [apply insert_perm|]. now constructor.
Qed.
Lemma sort_sorted l : NoDup (map fst l) -> StronglySorted (fun a b => before (fst a) (fst b)) (attr_sort l).
Proof.
  induction l as [|a l IH]; intros N; cbn [attr_sort map] in *; [constructor|].
  inversion N as [|x y N1 N2]; subst. apply insert_sorted; [|now apply IH].
  intros C. apply N1. eapply Permutation_in; [|exact C]. apply Permutation_map, Permutation_sym, sort_perm.
Qed.
Lemma sorted_once (l l' : list (list Z * list Z)) :
  StronglySorted (fun a b => before (fst a) (fst b)) l -> StronglySorted (fun a b => before (fst a) (fst b)) l' ->
  Permutation l l' -> l = l'.
Proof.
  revert l'. induction l as [|a l IH]; intros l' S S' P.
  - symmetry. now apply Permutation_nil.
  - destruct l' as [|b l']; [apply Permutation_sym, Permutation_nil in P; discriminate|].
    apply StronglySorted_inv in S, S'. destruct S as (S1 & S2), S' as (T1 & T2).
    rewrite Forall_forall in S2, T2.
    assert (a = b).
    { assert (In a (b :: l')) as Ia by (eapply Permutation_in; [exact P|now left]).
      assert (In b (a :: l)) as Ib by (eapply Permutation_in; [apply Permutation_sym; exact P|now left]).
      destruct Ia as [->|Ia]; [reflexivity|]. destruct Ib as [->|Ib]; [reflexivity|].
      exfalso. eapply before_asym; [apply (S2 b Ib)|apply (T2 a Ia)]. }
    subst b. f_equal. apply IH; [assumption|assumption|]. eapply Permutation_cons_inv; exact P.
Qed.

Lemma escape_chars s : escape s = flat_map shown_char s.
Proof.
  induction s as [|c s IH]; [reflexivity|]. rewrite escape_cons, IH. cbn [flat_map]. f_equal.
  unfold esc, shown_char.
  destruct (c =? 38); [reflexivity|]. destruct (c =? 60); [reflexivity|].
  destruct (c =? 34) eqn:E34, (c =? 62) eqn:E62; reflexivity || lia.
Qed.
Lemma write_attr_text a : write_attr a = attribute_text a.
Proof. unfold write_attr, attribute_text. now rewrite escape_chars. Qed.

Lemma attributes_written l : NoDup (map fst l) -> attributes_text l (flat_map write_attr (attr_sort l)).
Proof.
  intros N. exists (attr_sort l). split; [apply sort_perm|]. split; [now apply sort_sorted|].
  apply flat_map_ext. exact write_attr_text.
Qed.
Lemma attributes_once l s s' : attributes_text l s -> attributes_text l s' -> s = s'.
Proof.
  intros (a & P & S & ->) (b & Q & T & ->). f_equal. apply sorted_once; try assumption.
  rewrite <- P. exact Q.
Qed.

Lemma pretty_written : forall x, named x -> forall d, pretty d x (writexml (repeat 9 d) x).
Proof.
  induction x as [tag l k IH] using xml_nest_ind. intros N d. inversion N as [? ? ? N1 N2 N3 N4]; subst.
  pose proof (attributes_written l N3) as A. cbn [writexml]. destruct k as [|c k].
  - exact (pretty_empty d tag l _ A).
  - set (kids := c :: k) in *. rewrite (flat_map_concat_map (writexml _)).
    apply (pretty_full d tag l _ kids); [exact A|discriminate|].
    assert (repeat 9 d ++ [9] = repeat 9 (S d)) as -> by (symmetry; apply repeat_cons).
    clear A N. clearbody kids. induction kids as [|x r IHr]; cbn [map]; [constructor|].
    inversion IH; inversion N4; subst. constructor; [auto|]. apply IHr; assumption.
Qed.

Lemma pretty_once : forall x d s s', pretty d x s -> pretty d x s' -> s = s'.
Proof.
  induction x as [tag l k IH] using xml_nest_ind. intros d s s' P Q.
  inversion P as [d0 t0 l0 a A E1 E2 E3|d0 t0 l0 a k0 ls A Hk F E1 E2 E3]; subst;
  inversion Q as [d1 t1 l1 b B E4 E5 E6|d1 t1 l1 b k1 ls' B Hk' F' E4 E5 E6]; subst; try congruence.
  - now rewrite (attributes_once _ _ _ A B).
  - rewrite (attributes_once _ _ _ A B). do 4 f_equal. f_equal. f_equal. f_equal.
    clear - IH F F'. revert ls' F'. induction F as [|x u r ls P F IHr]; intros ls' F'; inversion F'; subst; [reflexivity|].
    inversion IH; subst. f_equal; [eauto|]. auto.
Qed.

(** The SMIL text of a message whose document is [x]. *)
Theorem C132_text : forall w m x, smil_tree w m = Ok x ->
  forall t, smil toprettyxml w m = Ok t <-> pretty 0 x t.
Proof.
  intros w m x E t. destruct (smil_named w m x E) as (N & _).
  pose proof (pretty_written x N 0) as P. unfold smil. rewrite E. cbn beta iota delta [bind].
  change (writexml (repeat 9 0) x) with (toprettyxml x) in P. split.
  - intros H. assert (t = toprettyxml x) as -> by congruence. exact P.
  - intros H. f_equal. exact (pretty_once x 0 _ _ P H).
Qed.
Print Assumptions C132_text.

Lemma notation_once n s t : notation n s -> notation n t -> s = t.
Proof.
  intros [(A & H)|(A & u & -> & H)] [(B & K)|(B & v & -> & K)]; try lia.
  - eapply natural_fun; eassumption.
  - f_equal. eapply natural_fun; eassumption.
Qed.
Lemma times_once d tb te a b : times d tb te a -> times d tb te b -> a = b.
Proof.
  intros [(A1 & A2 & ->)|(A & x & y & X & Y & ->)] [(B1 & B2 & ->)|(B & x' & y' & X' & Y' & ->)]; try reflexivity; try lia.
  now rewrite (notation_once _ _ _ X X'), (notation_once _ _ _ Y Y').
Qed.
Lemma shown_once tag r d s l l' : shown tag r d s l -> shown tag r d s l' -> l = l'.
Proof.
  destruct s as [[[src tb] te]|]; cbn [shown]; [|congruence].
  intros (x & (a & A & ->) & ->) (y & (b & B & ->) & ->). now rewrite (times_once _ _ _ _ _ A B).
Qed.
Lemma element_once d i t a x y : slide_element d i t a x -> slide_element d i t a y -> x = y.
Proof.
  intros (n & l1 & l2 & l3 & N & A & B & C & ->) (n' & k1 & k2 & k3 & N' & A' & B' & C' & ->).
  now rewrite (notation_once _ _ _ N N'), (shown_once _ _ _ _ _ _ A A'), (shown_once _ _ _ _ _ _ B B'),
    (shown_once _ _ _ _ _ _ C C').
Qed.

Lemma source_once w p s t : source w p s -> source w p t -> s = t.
Proof.
  intros H K. destruct H, K; repeat match goal with
    | A : ?x = Some _, B : ?x = None |- _ => congruence
    | A : ?x = Some (HStr ?s), B : ?x = Some (HStr ?t) |- _ => rewrite A in B; injection B as B; exact B
    end; congruence.
Qed.
Lemma describes_once (R : part -> list Z -> Prop) s d d' : (forall p a b, R p a -> R p b -> a = b) ->
  describes R s d -> describes R s d' -> d = d'.
Proof.
  intros F. destruct s as [[[p tb] te]|], d as [[[a b] c]|], d' as [[[a' b'] c']|]; cbn [describes]; try tauto.
  intros (A & -> & ->) (B & -> & ->). now rewrite (F p a a' A B).
Qed.
Lemma described_once w g x y : slide_described w g x -> slide_described w g y -> x = y.
Proof.
  intros (i & t & a & A & B & C & E) (i' & t' & a' & A' & B' & C' & E').
  assert (i' = i) as -> by (eapply describes_once; [apply source_once|eassumption|eassumption]).
  assert (a' = a) as -> by (eapply describes_once; [apply source_once|eassumption|eassumption]).
  assert (t' = t) as -> by (eapply describes_once; [|eassumption|eassumption]; cbv beta; congruence).
  eapply element_once; eassumption.
Qed.

(** The SMIL text told from the slides, for messages in which every slide with sound
    has text: the document that describes the slide show, as minidom writes it. *)
Theorem C132_show : forall w m, Forall (has_sources w) (m_pages m) -> Forall audio_with_text (m_pages m) ->
  forall t, smil toprettyxml w m = Ok t <->
    exists pars x, slide_show (m_width m) (m_height m) pars x /\
      Forall2 (slide_described w) (m_pages m) pars /\ pretty 0 x t.
Proof.
  intros w m Hs Ha t. destruct (proj2 (C61_exact w m Hs) Ha) as (x & pars & E & Sh & F).
  rewrite (C132_text w m x E t). split; [intros P; eauto|].
  intros (pars' & x' & Sh' & F' & P).
  assert (pars' = pars) as ->.
  { clear - F F'. revert pars' F'. induction F as [|g y gs ps H F IH]; intros ps' F'; inversion F'; subst; [reflexivity|].
    f_equal; [eapply described_once; eassumption|auto]. }
  destruct Sh as (a & b & A & B & ->), Sh' as (a' & b' & A' & B' & ->).
  rewrite (notation_once _ _ _ A A'), (notation_once _ _ _ B B'). exact P.
Qed.
Print Assumptions C132_show.
(** A message with a slide with picture, text and sound, and one that is empty. *)
Example C132_case :
  let w := World (fun _ => Some [1]) (fun _ => Some (str "image/jpeg")) (fun d => d) in
  let g := snd (add_audio w (str "/s.amr") 0 9000 (snd (add_text (str "a<b") 5 0
             (snd (add_image w (str "/a.jpg") 0 0 new_page))))) in
  let m := Message default_headers [g; new_page] [] 176 220 in
  let line n s := repeat 9 n ++ s ++ [10] in
  Forall (has_sources w) (m_pages m) /\ Forall audio_with_text (m_pages m) /\
  smil toprettyxml w m = Ok (
    line 0%nat (str "<smil>") ++ line 1%nat (str "<head>") ++ line 2%nat (str "<layout>") ++
    line 3%nat (str "<root-layout height=""220"" width=""176""/>") ++
    line 3%nat (str "<region height=""144"" id=""Image"" left=""0"" top=""0"" width=""176""/>") ++
    line 3%nat (str "<region height=""76"" id=""Text"" left=""176"" top=""144"" width=""176""/>") ++
    line 2%nat (str "</layout>") ++ line 1%nat (str "</head>") ++ line 1%nat (str "<body>") ++
    line 2%nat (str "<par duration=""4000"">") ++
    line 3%nat (str "<img region=""Image"" src=""a.jpg""/>") ++
    line 3%nat (str "<text begin=""5"" end=""0"" region=""Text"" src=""a&lt;b""/>") ++
    line 3%nat (str "<audio begin=""0"" end=""4000"" src=""s.amr""/>") ++
    line 2%nat (str "</par>") ++ line 2%nat (str "<par duration=""4000""/>") ++
    line 1%nat (str "</body>") ++ line 0%nat (str "</smil>")).
Proof.
  split; [|split].
  - repeat apply Forall_cons; try apply Forall_nil; split; try split; intros p tb te E;
      vm_compute in E; try discriminate E; injection E as <- <- <-; eexists;
      first [apply source_location; reflexivity|reflexivity].
  - repeat apply Forall_cons; try apply Forall_nil; intros X; vm_compute in X |- *; congruence.
  - vm_compute. reflexivity.
Qed.
