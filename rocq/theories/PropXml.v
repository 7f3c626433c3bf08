(** The SMIL document as XML text, C99. *)
From Coq Require Import Lia ZifyBool Permutation.
From Verif Require Import Py Message Xml SpecSmil SpecXml MessageClaims PyFacts MessageFacts XmlFacts.
Open Scope Z_scope.

(** An XML processor that reads the text finds the tree. *)
Definition understood (x : xml) : Prop := exists y, document (toprettyxml x) y /\ same_tree x y.

(** Every attribute of the tree satisfies [P]. *)
Inductive values (P : list Z -> Prop) : xml -> Prop :=
| values_elem tag l k : Forall (fun a => P (snd a)) l -> Forall (values P) k -> values P (Elem tag l k).

Lemma names_unique (l : list (list Z * list Z)) n v v' : NoDup (map fst l) -> In (n, v) l -> In (n, v') l -> v = v'.
Proof.
  induction l as [|(m, u) l IH]; [intros _ []|]. cbn [map fst]. intros N H H'. inversion N; subst.
  destruct H as [E|H], H' as [E'|H'].
  - congruence.
  - exfalso. assert (m = n) by congruence. subst. apply (in_map fst) in H'. contradiction.
  - exfalso. assert (m = n) by congruence. subst. apply (in_map fst) in H. contradiction.
  - auto.
Qed.

Lemma understood_plain : forall x, named x -> (understood x <-> values plain_text x).
Proof.
  intros x N. unfold understood. split.
  - intros (y & D & S). apply (document_reads x y N) in D. revert N y D S.
    induction x as [tag l k IH] using xml_nest_ind. intros N y D S.
    inversion N as [? ? ? N1 N2 N3 N4]; subst. inversion D as [? ? l' ? k' F Fk]; subst.
    inversion S as [? ? ? ? ? P T]; subst. constructor.
    + apply Forall_forall. intros (n, v) H. cbn [snd].
      assert (I : In (n, v) (attr_sort l)) by (eapply Permutation_in; [apply sort_perm|exact H]).
      assert (V : exists v', In (n, v') l' /\ att_value (escape v) v').
      { clear - F I. induction F as [|(a, b) (a', b') q q' (E & V) _ IHF]; [destruct I|].
        cbn [fst snd] in *. destruct I as [E'|I].
        - exists b'. split; [left; congruence|]. congruence.
        - destruct (IHF I) as (v' & A & B). exists v'. split; [right; exact A|exact B]. }
      destruct V as (v' & I' & V). assert (v' = v); [|subst; apply (value_plain _ _ V)].
      eapply names_unique; [|exact I'|eapply Permutation_in; [exact P|exact H]].
      eapply Permutation_NoDup; [apply Permutation_map; exact P|exact N3].
    + clear - IH N4 Fk T. revert k' Fk T. induction k as [|x k IHk]; intros k' Fk T; [constructor|].
      inversion Fk; inversion IH; inversion N4; inversion T; subst.
      match goal with E : _ :: _ = _ :: _ |- _ => injection E as <- <- | _ => idtac end.
      constructor; eauto.
  - intros V. assert (G : exists y, reads x y /\ same_tree x y).
    { revert N V. induction x as [tag l k IH] using xml_nest_ind. intros N V.
      inversion N as [? ? ? N1 N2 N3 N4]; subst. inversion V as [? ? ? V1 V2]; subst.
      assert (K : exists k', Forall2 reads k k' /\ same_trees k k').
      { clear - IH N4 V2. induction k as [|x k IHk]; [exists []; split; constructor|].
        inversion IH; inversion N4; inversion V2; subst. destruct (H1 H5 H9) as (y & A & B).
        destruct IHk as (k' & A' & B'); auto. exists (y :: k'). split; constructor; assumption. }
      destruct K as (k' & K1 & K2). exists (Elem tag (attr_sort l) k'). split.
      - constructor; [|exact K1]. assert (W : Forall (fun a => plain_text (snd a)) (attr_sort l)).
        { eapply Permutation_Forall; [apply sort_perm|exact V1]. }
        clear - W. induction W as [|(n, v) q H _ IHW]; constructor; auto. split; [reflexivity|]. apply plain_value. exact H.
      - constructor; [apply sort_perm|exact K2]. }
    destruct G as (y & R & S). exists y. split; [|exact S]. apply (document_reads x y N). exact R.
Qed.

Lemma read_legal : forall x y, named x -> document (toprettyxml x) y -> values legal_text x.
Proof.
  intros x y N D. apply (document_reads x y N) in D. revert N y D.
  induction x as [tag l k IH] using xml_nest_ind. intros N y D.
  inversion N as [? ? ? N1 N2 N3 N4]; subst. inversion D as [? ? l' ? k' F Fk]; subst. constructor.
  - assert (W : Forall (fun a => legal_text (snd a)) (attr_sort l)).
    { clear - F. induction F as [|a b q q' (_ & V) _ IHF]; constructor; auto. apply (value_legal _ _ V). reflexivity. }
    eapply Permutation_Forall; [|exact W]. apply Permutation_sym, sort_perm.
  - clear - IH N4 Fk. revert k' Fk. induction k as [|x k IHk]; intros k' Fk; [constructor|].
    inversion Fk; inversion IH; inversion N4; subst. constructor; eauto.
Qed.

(** * The document of a message *)

(** The texts a slide puts into the document: the source of its image and sound,
    and its text. *)
Inductive slide_source (w : world) (g : page) (s : list Z) : Prop :=
| src_image p tb te : pg_image g = Some (p, tb, te) -> source w p s -> slide_source w g s
| src_audio p tb te : pg_audio g = Some (p, tb, te) -> source w p s -> slide_source w g s
| src_text p tb te : pg_text g = Some (p, tb, te) -> data_of w p = Ok s -> slide_source w g s.

Definition leaf (s : list Z) (x : xml) : Prop :=
  exists tag l, x = Elem tag ((str "src", s) :: l) [] /\ name tag /\
    Forall (fun a => name (fst a) /\ plain_text (snd a)) l /\ NoDup (map fst ((str "src", s) :: l)).

Lemma leaf_fun s s' x : leaf s x -> leaf s' x -> s = s'.
Proof. intros (t & l & -> & _) (t' & l' & E & _). congruence. Qed.

Lemma digits_plain s : Forall (fun c => 48 <= c <= 57) s -> plain_text s.
Proof. induction 1; constructor; [lia|assumption]. Qed.
Lemma number_plain n : plain_text (py_str n).
Proof.
  destruct (py_str_notation n) as [(_ & _ & D & _)|(_ & t & -> & _ & D & _)]; [now apply digits_plain|].
  constructor; [lia|now apply digits_plain].
Qed.

Lemma const_plain (s : list Z) : forallb (fun c => (32 <=? c) && (c <=? 127)) s = true -> plain_text s.
Proof.
  intros H. rewrite forallb_forall in H. induction s as [|c s IH]; [constructor|].
  apply plain_char; [specialize (H c (or_introl eq_refl)); lia|]. apply IH. intros x Hx. apply H. right. exact Hx.
Qed.
Definition nameb (s : list Z) : bool :=
  match s with [] => false | c :: r => ((97 <=? c) && (c <=? 122)) &&
    forallb (fun c => ((97 <=? c) && (c <=? 122)) || (c =? 45)) r end.
Lemma const_name s : nameb s = true -> name s.
Proof.
  destruct s as [|c r]; [discriminate|]. cbn [nameb name]. intros H. apply andb_prop in H. destruct H as (H & F).
  split; [unfold letter; lia|]. rewrite forallb_forall in F. apply Forall_forall. intros x Hx. specialize (F x Hx).
  unfold name_char, letter. lia.
Qed.

Lemma leaf_made tag s fixed d tb te : nameb tag = true ->
  fixed = [] \/ (exists r, fixed = [(str "region", r)] /\ forallb (fun c => (32 <=? c) && (c <=? 127)) r = true) ->
  leaf s (Elem tag ([(str "src", s)] ++ fixed ++ time_attrs d tb te) []).
Proof.
  intros T F. exists tag, (fixed ++ time_attrs d tb te). split; [reflexivity|]. split; [now apply const_name|].
  assert (TA : time_attrs d tb te = [] \/ exists b e, time_attrs d tb te = [(str "begin", b); (str "end", e)] /\
    plain_text b /\ plain_text e).
  { unfold time_attrs. destruct ((0 <? tb) || (0 <? te)); [|now left]. right. do 2 eexists. split; [reflexivity|].
    split; apply number_plain. }
  assert (G : Forall (fun a => name (fst a) /\ plain_text (snd a)) fixed).
  { destruct F as [->|(r & -> & Hr)]; [constructor|]. constructor; [|constructor]. split; [apply const_name; reflexivity|].
    now apply const_plain. }
  assert (H : Forall (fun a => name (fst a) /\ plain_text (snd a)) (time_attrs d tb te)).
  { destruct TA as [->|(b & e & -> & Hb & He)]; [constructor|].
    constructor; [|constructor; [|constructor]]; (split; [apply const_name; reflexivity|assumption]). }
  split; [apply Forall_app; split; assumption|]. cbn [map fst]. rewrite map_app.
  assert (M : map fst fixed = [] \/ map fst fixed = [str "region"]) by (destruct F as [->|(r & -> & _)]; auto).
  assert (M' : map fst (time_attrs d tb te) = [] \/ map fst (time_attrs d tb te) = [str "begin"; str "end"]).
  { destruct TA as [->|(b & e & -> & _)]; auto. }
  destruct M as [->| ->], M' as [->| ->]; repeat constructor; cbn [In app]; intuition discriminate.
Qed.

Definition child_in (c : child) (pars : list (list (list Z * list Z) * list child)) : Prop :=
  exists q, In q pars /\ In c (snd q).

Record ready (i : nat) (pars : list (list (list Z * list Z) * list child)) (tn : option child) : Prop := {
  ready_ids : forall c, child_in c pars -> (fst c < 3 * i)%nat;
  ready_text : forall t, tn = Some t -> child_in t pars /\ forall c, child_in c pars -> fst c = fst t -> c = t;
  ready_pars : Forall (fun q => exists d, fst q = [(str "duration", py_str d)]) pars }.

Definition without (t : child) (q : list (list Z * list Z) * list child) : list (list Z * list Z) * list child :=
  (fst q, filter (fun c : child => negb (Nat.eqb (fst c) (fst t))) (snd q)).

Lemma in_without c t pars : child_in c (map (without t) pars) <-> child_in c pars /\ fst c <> fst t.
Proof.
  unfold child_in. split.
  - intros (q & Hq & Hc). apply in_map_iff in Hq. destruct Hq as (p & <- & Hp). cbn [without snd] in Hc.
    apply filter_In in Hc. destruct Hc as (Hc & N). split; [exists p; auto|]. intros E. rewrite E, Nat.eqb_refl in N. discriminate N.
  - intros ((q & Hq & Hc) & N). exists (without t q). split; [now apply in_map|]. cbn [without snd]. apply filter_In.
    split; [exact Hc|]. apply Bool.negb_true_iff. now apply Nat.eqb_neq.
Qed.
Lemma in_more c pars q : child_in c (pars ++ [q]) <-> child_in c pars \/ In c (snd q).
Proof.
  unfold child_in. split.
  - intros (p & Hp & Hc). apply in_app_or in Hp. destruct Hp as [Hp|[<-|[]]]; [left; eauto|now right].
  - intros [(p & Hp & Hc)|H]; [exists p|exists q]; (split; [apply in_or_app|assumption]); [now left|right; now left].
Qed.

Lemma bind_ok {A B} (a : A) (f : A -> res B) : bind (Ok a) f = f a.
Proof. reflexivity. Qed.

(** One more slide: the children are those before and those of the slide. *)
Lemma step_children : forall w i pars tn g pars' tn', ready i pars tn ->
  smil_page w i pars tn g = Ok (pars', tn') ->
  exists ns : list child, (forall c, child_in c pars' <-> child_in c pars \/ In c ns) /\
    (forall c, In c ns -> exists s, slide_source w g s /\ leaf s (snd c)) /\
    (forall s, slide_source w g s -> exists c, In c ns /\ leaf s (snd c)) /\
    ready (S i) pars' tn'.
Proof.
  intros w i pars tn [d im au te] pars' tn' R E. unfold smil_page in E. cbn [pg_duration pg_image pg_audio pg_text] in E.
  assert (I : exists ks, (forall c, In c ks -> fst c = (3 * i)%nat) /\
    (forall c, In c ks -> exists p b e s, im = Some (p, b, e) /\ source w p s /\ leaf s (snd c)) /\
    (forall p b e s, im = Some (p, b, e) -> source w p s -> exists c, In c ks /\ leaf s (snd c)) /\
    match im with
    | Some (p, tb, te) => src <- media_src w p ;;
        Ok [(3 * i, Elem (str "img") ([(str "src", src); (str "region", str "Image")]
                      ++ time_attrs d tb te) [])]%nat
    | None => Ok []
    end = Ok ks).
  { destruct im as [[[p tb] e]|].
    - destruct (media_src w p) as [s|] eqn:M; [|discriminate E]. cbn beta iota delta [bind].
      assert (LF : leaf s (Elem (str "img") ([(str "src", s); (str "region", str "Image")] ++ time_attrs d tb e) [])).
      { apply (leaf_made (str "img") s [(str "region", str "Image")] d tb e); [reflexivity|]. right. eexists. split; reflexivity. }
      eexists. split; [|split; [|split; [|reflexivity]]].
      + intros c [<-|[]]. reflexivity.
      + intros c [<-|[]]. exists p, tb, e, s. split; [reflexivity|]. split; [now apply media_src_source|exact LF].
      + intros p' b' e' s' Ep Hs. assert (p' = p) by congruence. subst p'. apply source_media_src in Hs.
        assert (s' = s) by congruence. subst s'. eexists. split; [left; reflexivity|exact LF].
    - exists []. split; [intros c []|]. split; [intros c []|]. split; [discriminate|reflexivity]. }
  destruct I as (ks & Iid & Iin & Iout & Ei). rewrite Ei, bind_ok in E. clear Ei. cbv beta in E.
  assert (T : exists ts tn1, (forall c, In c ts -> fst c = (3 * i + 1)%nat) /\
    (forall c, In c ts -> exists p b e s, te = Some (p, b, e) /\ data_of w p = Ok s /\ leaf s (snd c)) /\
    (forall p b e s, te = Some (p, b, e) -> data_of w p = Ok s -> exists c, In c ts /\ leaf s (snd c)) /\
    ((ts = [] /\ tn1 = tn) \/ exists t, ts = [t] /\ tn1 = Some t) /\
    match te with
    | None => Ok (ks, tn)
    | Some (p, tb, te) =>
        src <- data_of w p ;;
        let t := (3 * i + 1, Elem (str "text")
                    ([(str "src", src); (str "region", str "Text")]
                     ++ time_attrs d tb te) [])%nat in
        Ok (ks ++ [t], Some t)
    end = Ok (ks ++ ts, tn1)).
  { destruct te as [[[p tb] e]|].
    - destruct (data_of w p) as [s|] eqn:M; [|discriminate E]. cbn beta iota zeta delta [bind].
      assert (LF : leaf s (Elem (str "text") ([(str "src", s); (str "region", str "Text")] ++ time_attrs d tb e) [])).
      { apply (leaf_made (str "text") s [(str "region", str "Text")] d tb e); [reflexivity|]. right. eexists. split; reflexivity. }
      do 2 eexists. split; [|split; [|split; [|split; [|reflexivity]]]].
      + intros c [<-|[]]. reflexivity.
      + intros c [<-|[]]. exists p, tb, e, s. auto.
      + intros p' b' e' s' Ep Hs. assert (p' = p) by congruence. subst p'. assert (s' = s) by congruence. subst s'.
        eexists. split; [left; reflexivity|exact LF].
      + right. eexists. split; reflexivity.
    - exists [], tn. split; [intros c []|]. split; [intros c []|]. split; [discriminate|].
      split; [left; auto|]. rewrite app_nil_r. reflexivity. }
  destruct T as (ts & tn1 & Tid & Tin & Tout & Tcase & Et). cbv zeta in Et. rewrite Et, bind_ok in E. clear Et. cbn beta iota in E.
  destruct R as [R1 R2 R3].
  destruct au as [[[p tb] e]|].
  - destruct (media_src w p) as [s|] eqn:M; [|discriminate E]. cbn beta iota delta [bind] in E.
    destruct tn1 as [t|]; [|discriminate E]. cbv zeta in E. fold (without t) in E.
    set (a := (3 * i + 2, Elem (str "audio") ([(str "src", s)] ++ time_attrs d tb e) [])%nat) in E.
    assert (LF : leaf s (snd a)).
    { unfold a. cbn [snd]. apply (leaf_made (str "audio") s [] d tb e); [reflexivity|now left]. }
    match type of E with Ok (_ ++ [?Q], _) = _ => set (q := Q) in E end.
    assert (E1 : map (without t) pars ++ [q] = pars' /\ Some t = tn') by (clearbody q a; clear - E; injection E; auto). destruct E1 as (<- & <-). clear E.
    assert (Ht : In t ts \/ (ts = [] /\ tn = Some t)).
    { destruct Tcase as [(-> & X)|(t' & -> & X)]; [right; auto|left; left; congruence]. }
    assert (Ft : fst t = (3 * i + 1)%nat \/ (fst t < 3 * i)%nat).
    { destruct Ht as [Ht|(_ & Ht)]; [left; auto|right]. apply R1, R2. exact Ht. }
    assert (U : forall c, child_in c pars -> fst c = fst t -> c = t).
    { intros c Hc Ef. destruct Ht as [Ht|(_ & Ht)]; [|apply (proj2 (R2 t Ht)); assumption].
      exfalso. specialize (R1 c Hc). specialize (Tid t Ht). lia. }
    assert (Ut : forall c, In c ts -> c = t).
    { intros c Hc. destruct Tcase as [(-> & _)|(t' & -> & X)]; [destruct Hc|]. destruct Hc as [<-|[]]. congruence. }
    assert (CH : forall c, child_in c (map (without t) pars ++ [q]) <-> child_in c pars \/ In c (ks ++ ts ++ [a])).
    { intros c. rewrite in_more, in_without. unfold q. cbn [snd]. rewrite !in_app_iff, filter_In, in_app_iff. cbn [In].
      split.
      - intros [(H & _)|[(H & _)|[<-|H]]]; auto; [tauto|]. destruct Ht as [Ht|(_ & Ht)]; [tauto|]. left. apply R2. exact Ht.
      - intros [H|[H|[H|[H|[]]]]].
        + destruct (Nat.eq_dec (fst c) (fst t)) as [Ef|Ef]; [|auto]. rewrite (U c H Ef). auto.
        + right. left. split; [auto|]. specialize (Iid c H). apply Bool.negb_true_iff, Nat.eqb_neq. lia.
        + rewrite (Ut c H). auto.
        + auto. }
    exists (ks ++ ts ++ [a]). split; [exact CH|]. split; [|split; [|constructor]].
    + intros c Hc. rewrite !in_app_iff in Hc. cbn [In] in Hc. destruct Hc as [H|[H|[<-|[]]]].
      * destruct (Iin c H) as (p' & b' & e' & s' & Ei & Hs & L). exists s'. split; [eapply src_image; eauto|exact L].
      * destruct (Tin c H) as (p' & b' & e' & s' & Ei & Hs & L). exists s'. split; [eapply src_text; eauto|exact L].
      * exists s. split; [eapply src_audio; [reflexivity|now apply media_src_source]|exact LF].
    + intros s' [p' b' e' Ei Hs|p' b' e' Ei Hs|p' b' e' Ei Hs]; cbn [pg_image pg_audio pg_text] in Ei.
      * destruct (Iout _ _ _ _ Ei Hs) as (c & Hc & L). exists c. rewrite in_app_iff. auto.
      * assert (p' = p) by congruence. subst p'. apply source_media_src in Hs. assert (s' = s) by congruence. subst s'.
        exists a. rewrite !in_app_iff. cbn [In]. auto.
      * destruct (Tout _ _ _ _ Ei Hs) as (c & Hc & L). exists c. rewrite !in_app_iff. auto.
    + intros c Hc. apply CH in Hc. rewrite !in_app_iff in Hc. cbn [In] in Hc. destruct Hc as [H|[H|[H|[<-|[]]]]].
      * specialize (R1 c H). lia.
      * specialize (Iid c H). lia.
      * specialize (Tid c H). lia.
      * cbn [a fst]. lia.
    + intros t' Et. assert (t' = t) by congruence. subst t'. split.
      * apply CH. destruct Ht as [Ht|(_ & Ht)]; [right; rewrite !in_app_iff; auto|]. left. apply R2. exact Ht.
      * intros c Hc Ef. apply CH in Hc. rewrite !in_app_iff in Hc. cbn [In] in Hc. destruct Hc as [H|[H|[H|[<-|[]]]]].
        -- auto.
        -- specialize (Iid c H). lia.
        -- auto.
        -- cbn [a fst] in Ef. lia.
    + apply Forall_app. split.
      * apply Forall_forall. intros x Hx. apply in_map_iff in Hx. destruct Hx as (y & <- & Hy).
        rewrite Forall_forall in R3. exact (R3 y Hy).
      * constructor; [|constructor]. exists d. reflexivity.
  - match type of E with Ok (_ ++ [?Q], _) = _ => set (q := Q) in E end.
    assert (pars' = pars ++ [q]) by congruence. assert (tn' = tn1) by congruence. subst pars' tn'. clear E.
    assert (CH : forall c, child_in c (pars ++ [q]) <-> child_in c pars \/ In c (ks ++ ts)).
    { intros c. rewrite in_more. unfold q. cbn [snd]. tauto. }
    exists (ks ++ ts). split; [exact CH|]. split; [|split; [|constructor]].
    + intros c Hc. rewrite in_app_iff in Hc. destruct Hc as [H|H].
      * destruct (Iin c H) as (p' & b' & e' & s' & Ei & Hs & L). exists s'. split; [eapply src_image; eauto|exact L].
      * destruct (Tin c H) as (p' & b' & e' & s' & Ei & Hs & L). exists s'. split; [eapply src_text; eauto|exact L].
    + intros s' [p' b' e' Ei Hs|p' b' e' Ei Hs|p' b' e' Ei Hs]; cbn [pg_image pg_audio pg_text] in Ei.
      * destruct (Iout _ _ _ _ Ei Hs) as (c & Hc & L). exists c. rewrite in_app_iff. auto.
      * discriminate Ei.
      * destruct (Tout _ _ _ _ Ei Hs) as (c & Hc & L). exists c. rewrite !in_app_iff. auto.
    + intros c Hc. apply CH in Hc. rewrite in_app_iff in Hc. destruct Hc as [H|[H|H]].
      * specialize (R1 c H). lia.
      * specialize (Iid c H). lia.
      * specialize (Tid c H). lia.
    + intros t' Et. destruct Tcase as [(-> & ->)|(t2 & -> & ->)].
      * split; [apply CH; left; apply R2; exact Et|]. intros c Hc Ef. apply CH in Hc. rewrite in_app_iff in Hc.
        destruct (R2 t' Et) as (A & B). destruct Hc as [H|[H|[]]]; [auto|]. specialize (Iid c H). specialize (R1 t' A). lia.
      * assert (t' = t2) by congruence. subst t'. split; [apply CH; right; rewrite in_app_iff; right; left; reflexivity|].
        intros c Hc Ef. apply CH in Hc. rewrite in_app_iff in Hc. specialize (Tid t2 (or_introl eq_refl)).
        destruct Hc as [H|[H|[H|[]]]]; [specialize (R1 c H); lia|specialize (Iid c H); lia|auto].
    + apply Forall_app. split; [exact R3|]. constructor; [|constructor]. exists d. reflexivity.
Qed.

Lemma pages_children : forall w gs i pars tn qs, ready i pars tn -> smil_pages w i pars tn gs = Ok qs ->
  Forall (fun q => exists d, fst q = [(str "duration", py_str d)]) qs /\
  (forall c, child_in c qs -> child_in c pars \/ exists g s, In g gs /\ slide_source w g s /\ leaf s (snd c)) /\
  (forall c, child_in c pars -> child_in c qs) /\
  (forall g s, In g gs -> slide_source w g s -> exists c, child_in c qs /\ leaf s (snd c)).
Proof.
  intros w gs. induction gs as [|g gs IH]; intros i pars tn qs R E; cbn [smil_pages] in E.
  - assert (qs = pars) by congruence. subst. split; [apply R|]. split; [auto|]. split; [auto|]. intros g s [].
  - destruct (smil_page w i pars tn g) as [[pars' tn']|] eqn:P; [|discriminate E]. cbn beta iota delta [bind] in E.
    destruct (step_children _ _ _ _ _ _ _ R P) as (ns & A & B & C & R').
    destruct (IH _ _ _ _ R' E) as (D1 & D2 & D3 & D4). split; [exact D1|]. split; [|split].
    + intros c Hc. destruct (D2 c Hc) as [H|(g' & s & H & H')].
      * apply A in H. destruct H as [H|H]; [now left|]. destruct (B c H) as (s & Hs & L). right. exists g, s.
        split; [now left|]. auto.
      * right. exists g', s. split; [now right|exact H'].
    + intros c Hc. apply D3, A. now left.
    + intros g' s [<-|H] Hs; [|eauto]. destruct (C s Hs) as (c & Hc & L). exists c. split; [|exact L]. apply D3, A. now right.
Qed.

Lemma smil_named : forall w m t, smil_tree w m = Ok t -> named t /\
  forall P : list Z -> Prop, (forall s, plain_text s -> P s) ->
    (values P t <-> forall g s, In g (m_pages m) -> slide_source w g s -> P s).
Proof.
  intros w m t E. unfold smil_tree in E. destruct (smil_pages w 0 [] None (m_pages m)) as [qs|] eqn:Q; [|discriminate E].
  cbn beta iota delta [bind] in E.
  assert (R : ready 0 [] None).
  { constructor; [intros c (q & [] & _)|discriminate|constructor]. }
  destruct (pages_children _ _ _ _ _ _ R Q) as (D1 & D2 & _ & D4).
  assert (D2' : forall c, child_in c qs -> exists g s, In g (m_pages m) /\ slide_source w g s /\ leaf s (snd c)).
  { intros c Hc. destruct (D2 c Hc) as [(q & [] & _)|H]. exact H. }
  clear D2 R Q. set (body := map (fun q => Elem (str "par") (fst q) (map snd (snd q))) qs) in E.
  assert (Et : t = Elem (str "smil") [] [smil_head m; Elem (str "body") [] body]) by congruence. clear E.
  assert (HN : named (smil_head m)).
  { unfold smil_head, region. repeat (constructor; cbn [map fst]; try (apply const_name; reflexivity)); cbn [In]; intuition discriminate. }
  assert (HV : values plain_text (smil_head m)).
  { unfold smil_head, region. repeat match goal with
      | |- values _ _ => apply values_elem
      | |- Forall _ _ => constructor
      end; cbn [snd]; try apply number_plain; apply const_plain; reflexivity. }
  split.
  - subst t. constructor; [apply const_name; reflexivity|constructor|constructor|].
    constructor; [exact HN|]. constructor; [|constructor].
    constructor; [apply const_name; reflexivity|constructor|constructor|]. unfold body. apply Forall_forall.
    intros x Hx. apply in_map_iff in Hx. destruct Hx as ((ats, kids) & <- & Hq).
    rewrite Forall_forall in D1. destruct (D1 _ Hq) as (d & Ed). cbn [fst snd] in *. subst ats.
    constructor; [apply const_name; reflexivity|constructor; [apply const_name; reflexivity|constructor]|repeat constructor; intros []|].
    apply Forall_forall. intros x Hx. apply in_map_iff in Hx. destruct Hx as (c & <- & Hc).
    destruct (D2' c (ex_intro _ _ (conj Hq Hc))) as (g & s & _ & _ & tag & l & -> & T1 & T2 & T3).
    constructor; [exact T1| |exact T3|constructor]. constructor; [apply const_name; reflexivity|].
    eapply Forall_impl; [|exact T2]. cbn. tauto.
  - intros P HP. split.
    + intros V g s Hg Hs. destruct (D4 g s Hg Hs) as (c & (q & Hq & Hc) & tag & l & Ec & _).
      subst t. inversion V as [? ? ? _ V1]; subst. inversion V1 as [|? ? _ V2]; subst. inversion V2 as [|? ? V3 _]; subst.
      inversion V3 as [? ? ? _ V4]; subst. rewrite Forall_forall in V4.
      specialize (V4 (Elem (str "par") (fst q) (map snd (snd q)))).
      assert (V5 : values P (Elem (str "par") (fst q) (map snd (snd q)))).
      { apply V4. unfold body. now apply (in_map (fun q => Elem (str "par") (fst q) (map snd (snd q)))). }
      inversion V5 as [? ? ? _ V6]; subst. rewrite Forall_forall in V6. specialize (V6 (snd c) (in_map snd _ _ Hc)).
      rewrite Ec in V6. inversion V6 as [? ? ? V7 _]; subst. inversion V7; subst. assumption.
    + intros H. subst t. constructor; [constructor|]. constructor.
      { assert (W : forall x, values plain_text x -> values P x).
        { induction x as [tag l k IHk] using xml_nest_ind. intros X. inversion X as [? ? ? X1 X2]; subst. constructor.
          - eapply Forall_impl; [|exact X1]. intros a. apply HP.
          - rewrite Forall_forall in *. auto. }
        apply W, HV. }
      constructor; [|constructor]. constructor; [constructor|]. unfold body. apply Forall_forall.
      intros x Hx. apply in_map_iff in Hx. destruct Hx as ((ats, kids) & <- & Hq).
      rewrite Forall_forall in D1. destruct (D1 _ Hq) as (d & Ed). cbn [fst snd] in *. subst ats.
      constructor; [constructor; [apply HP, number_plain|constructor]|].
      apply Forall_forall. intros x Hx. apply in_map_iff in Hx. destruct Hx as (c & <- & Hc).
      destruct (D2' c (ex_intro _ _ (conj Hq Hc))) as (g & s & Hg & Hs & tag & l & -> & T1 & T2 & T3).
      constructor; [|constructor]. constructor; [apply (H g s Hg Hs)|]. eapply Forall_impl; [|exact T2]. cbn. intros a (_ & X). auto.
Qed.

(** C99, exactly: an XML processor finds the document of a message in the text the
    program writes just when all sources and texts of the slides are UTF-8 without
    control characters, tabs and line ends. *)
Theorem C99_exact : forall w m x, smil_tree w m = Ok x ->
  (smil toprettyxml w m = Ok (toprettyxml x)) /\
  (understood x <-> forall g s, In g (m_pages m) -> slide_source w g s -> plain_text s).
Proof.
  intros w m x E. split; [unfold smil; rewrite E; reflexivity|]. destruct (smil_named w m x E) as (N & V).
  rewrite understood_plain by exact N. apply V. auto.
Qed.
Print Assumptions C99_exact.

(** A slide text with a character that XML does not allow makes the whole
    document unreadable. *)
Theorem C99_unreadable_refuted : forall w m x g s, smil_tree w m = Ok x ->
  In g (m_pages m) -> slide_source w g s -> ~ legal_text s ->
  forall y, ~ document (toprettyxml x) y.
Proof.
  intros w m x g s E Hg Hs L y D. destruct (smil_named w m x E) as (N & V). apply L.
  assert (P : forall q, plain_text q -> legal_text q).
  { clear. induction 1; [constructor|now apply legal_char|now apply legal_utf8]. }
  apply (proj1 (V legal_text P) (read_legal x y N D) g s Hg Hs).
Qed.
Print Assumptions C99_unreadable_refuted.
Example C99_unreadable_case :
  let w := World (fun _ => None) (fun _ => None) (fun d => d) in
  let g := snd (add_text [104; 105; 7] 0 0 new_page) in
  let m := Message default_headers [g] [] 176 220 in
  (exists x, smil_tree w m = Ok x) /\ In g (m_pages m) /\ slide_source w g [104; 105; 7] /\ ~ legal_text [104; 105; 7].
Proof.
  assert (B : forall s, legal_text s -> ~ In 7 s).
  { induction 1 as [|c s H _ IH|c s H _ IH|u s H _ IH]; [intros []|intros [E|E]; [lia|auto]|
      intros [E|E]; [destruct H as [H|[H|[H|H]]]; lia|auto]|].
    rewrite in_app_iff. intros [E|E]; [|auto].
    destruct H as [a b Ha Hb|a b c Ha Hb Hc|a b c d Ha Hb Hc Hd]; unfold tail in *; cbn [In] in E;
      repeat destruct E as [E|E]; try lia; destruct E. }
  cbv zeta. split; [eexists; vm_compute; reflexivity|]. split; [now left|]. split.
  - eapply src_text; reflexivity.
  - intros L. apply (B _ L). right. right. now left.
Qed.

(** Otherwise it can be read. *)
Theorem C99_readable : forall w m x, smil_tree w m = Ok x ->
  (forall g s, In g (m_pages m) -> slide_source w g s -> legal_text s) ->
  exists y, document (toprettyxml x) y.
Proof.
  intros w m x E H. destruct (smil_named w m x E) as (N & V).
  assert (P : forall q, plain_text q -> legal_text q).
  { clear. induction 1; [constructor|now apply legal_char|now apply legal_utf8]. }
  apply (V legal_text P) in H. clear - N H.
  enough (G : exists y, reads x y) by (destruct G as (y & R); exists y; apply (document_reads x y N); exact R).
  revert N H. induction x as [tag l k IH] using xml_nest_ind. intros N V.
  inversion N as [? ? ? N1 N2 N3 N4]; subst. inversion V as [? ? ? V1 V2]; subst.
  assert (K : exists k', Forall2 reads k k').
  { clear - IH N4 V2. induction k as [|x k IHk]; [exists []; constructor|].
    inversion IH; inversion N4; inversion V2; subst. destruct (H1 H5 H9) as (y & A).
    destruct IHk as (k' & A'); auto. exists (y :: k'). constructor; assumption. }
  destruct K as (k' & K).
  assert (W : Forall (fun a => legal_text (snd a)) (attr_sort l)).
  { eapply Permutation_Forall; [apply sort_perm|exact V1]. }
  assert (L : exists l', Forall2 attr_reads (attr_sort l) l').
  { clear - W. induction W as [|(n, v) q H _ (l' & IHW)]; [exists []; constructor|].
    destruct (legal_value v H) as (v' & Hv). exists ((n, v') :: l'). constructor; [split; [reflexivity|exact Hv]|exact IHW]. }
  destruct L as (l' & L). exists (Elem tag l' k'). constructor; assumption.
Qed.
Print Assumptions C99_readable.

(** A text of two lines: the document can be read, but the line end is lost. *)
Theorem C99_lines_refuted : exists w m x, smil_tree w m = Ok x /\
  (forall g s, In g (m_pages m) -> slide_source w g s -> legal_text s) /\
  (exists y, document (toprettyxml x) y) /\ ~ understood x.
Proof.
  set (w := World (fun _ => None) (fun _ => None) (fun d => d)).
  set (g := snd (add_text (str "one" ++ [10] ++ str "two") 0 0 new_page)).
  set (m := Message default_headers [g] [] 176 220).
  assert (T : exists x, smil_tree w m = Ok x) by (eexists; vm_compute; reflexivity). destruct T as (x & T).
  assert (S : forall g' s, In g' (m_pages m) -> slide_source w g' s -> s = str "one" ++ [10] ++ str "two").
  { intros g' s [<-|[]] [p b e E H|p b e E H|p b e E H]; [discriminate E|discriminate E|].
    assert (p = set_text (str "one" ++ [10] ++ str "two") new_part) by (cbn [g add_text] in E; vm_compute in E |- *; congruence).
    subst p. vm_compute in H |- *. congruence. }
  assert (G : forall g' s, In g' (m_pages m) -> slide_source w g' s -> legal_text s).
  { intros g' s Hg Hs. rewrite (S g' s Hg Hs). vm_compute.
    repeat first [apply legal_end|apply legal_char; [lia|]|apply legal_blank; [right; right; now left|]]. }
  exists w, m, x. split; [exact T|]. split; [exact G|]. split; [apply (C99_readable w m x T G)|].
  intros U. pose proof (proj1 (proj2 (C99_exact w m x T)) U) as U1. clear U. rename U1 into U. specialize (U g (str "one" ++ [10] ++ str "two") (or_introl eq_refl)).
  assert (P : plain_text (str "one" ++ [10] ++ str "two")) by (apply U; eapply src_text; reflexivity).
  assert (B : forall s, plain_text s -> ~ In 10 s).
  { clear. induction 1 as [|c s H _ IH|u s H _ IH]; [intros []|intros [E|E]; [lia|auto]|].
    rewrite in_app_iff. intros [E|E]; [|auto].
    destruct H as [a b Ha Hb|a b c Ha Hb Hc|a b c d Ha Hb Hc Hd]; unfold tail in *; cbn [In] in E;
      repeat destruct E as [E|E]; try lia; destruct E. }
  apply (B _ P). rewrite !in_app_iff. right. left. now left.
Qed.
Print Assumptions C99_lines_refuted.

(** A slide with an image, sound and a text of quotes, ampersands and letters
    beyond ASCII is understood. *)
Example C99_case :
  let w := World (fun _ => Some [1]) (fun _ => Some (str "image/jpeg")) (fun d => d) in
  let text := str "<b>""Fish & chips""</b> " ++ [195; 169] in
  let g := snd (add_audio w (str "/s.amr") 0 9000 (snd (add_text text 5 0
             (snd (add_image w (str "/a.jpg") 0 0 new_page))))) in
  let m := Message default_headers [g; new_page] [] 176 220 in
  exists x, smil_tree w m = Ok x /\ understood x /\
    (exists a b, toprettyxml x = a ++ str "src=""&lt;b&gt;&quot;Fish &amp; chips&quot;&lt;/b&gt; " ++ [195; 169] ++ b).
Proof.
  cbv zeta.
  set (w := World (fun _ => Some [1]) (fun _ => Some (str "image/jpeg")) (fun d => d)).
  set (text := str "<b>""Fish & chips""</b> " ++ [195; 169]).
  set (g := snd (add_audio w (str "/s.amr") 0 9000 (snd (add_text text 5 0
             (snd (add_image w (str "/a.jpg") 0 0 new_page)))))).
  set (m := Message default_headers [g; new_page] [] 176 220).
  assert (T : exists x, smil_tree w m = Ok x) by (eexists; vm_compute; reflexivity). destruct T as (x & T).
  exists x. split; [exact T|]. split.
  - apply (proj2 (C99_exact w m x T)). intros g' s [<-|[<-|[]]] [p b e E H|p b e E H|p b e E H]; try discriminate E.
    + injection E as <- <- <-. apply source_media_src in H. vm_compute in H. assert (s = str "a.jpg") by (vm_compute; congruence).
      subst s. apply const_plain. reflexivity.
    + injection E as <- <- <-. apply source_media_src in H. vm_compute in H. assert (s = str "s.amr") by (vm_compute; congruence).
      subst s. apply const_plain. reflexivity.
    + injection E as <- <- <-. assert (s = text) by (unfold set_text, data_of in H; vm_compute in H; vm_compute; congruence).
      subst s. vm_compute. repeat (apply plain_char; [lia|]). apply (plain_utf8 [195; 169] []); [|constructor].
      apply utf8_2; unfold tail; lia.
  - assert (E : match smil_tree w m with Ok y => toprettyxml y | Err _ => [] end = toprettyxml x) by now rewrite T.
    rewrite <- E. exists (firstn 334 (match smil_tree w m with Ok y => toprettyxml y | Err _ => [] end)),
      (skipn 389 (match smil_tree w m with Ok y => toprettyxml y | Err _ => [] end)). vm_compute. reflexivity.
Qed.
