(** Exactly which slide shows the SMIL document describes, C61. *)
From Coq Require Import Lia.
From Verif Require Import Py Message SpecSmil MessageClaims PyFacts MessageFacts PropMessage.
Open Scope Z_scope.

Definition is_text (x : xml) : Prop := match x with Elem tag _ _ => tag = str "text" end.
Definition no_text (q : list (list Z * list Z) * list child) : Prop :=
  Forall (fun c : child => ~ is_text (snd c)) (snd q).

(** The element of some slide has lost its text. *)
Definition lost (pars : list (list (list Z * list Z) * list child)) (gs : list page) : Prop :=
  exists k q g, nth_error pars k = Some q /\ nth_error gs k = Some g /\ pg_text g <> None /\ no_text q.

(** The text in hand is all the text of some slide. *)
Definition held (pars : list (list (list Z * list Z) * list child)) (tn : option child)
  (gs : list page) : Prop :=
  forall t, tn = Some t -> exists k q g, nth_error pars k = Some q /\ nth_error gs k = Some g /\
    pg_text g <> None /\ Forall (fun c : child => is_text (snd c) -> fst c = fst t) (snd q).

Definition drop (t : child) (q : list (list Z * list Z) * list child) : list (list Z * list Z) * list child :=
  (fst q, filter (fun c : child => negb (Nat.eqb (fst c) (fst t))) (snd q)).

Lemma nth_app_l : forall A (l r : list A) k x, nth_error l k = Some x -> nth_error (l ++ r) k = Some x.
Proof. intros A l r k x H. rewrite nth_error_app1; [exact H|]. apply nth_error_Some. congruence. Qed.

Lemma lost_more : forall pars gs q g, lost pars gs -> lost (pars ++ [q]) (gs ++ [g]).
Proof.
  intros pars gs q g (k & x & y & A & B & C). exists k, x, y. split; [|split; [|exact C]]; apply nth_app_l; assumption.
Qed.

Lemma lost_drop : forall t pars gs, lost pars gs -> lost (map (drop t) pars) gs.
Proof.
  intros t pars gs (k & x & y & A & B & C & D). exists k, (drop t x), y.
  rewrite nth_error_map, A. repeat split; auto. unfold no_text, drop in *. cbn [snd].
  rewrite Forall_forall in *. intros c Hc. apply filter_In in Hc. apply D. tauto.
Qed.

Lemma held_more : forall pars tn gs q g, held pars tn gs -> held (pars ++ [q]) tn (gs ++ [g]).
Proof.
  intros pars tn gs q g H t E. destruct (H t E) as (k & x & y & A & B & C).
  exists k, x, y. split; [|split; [|exact C]]; apply nth_app_l; assumption.
Qed.

Lemma held_lost : forall pars t gs, held pars (Some t) gs -> lost (map (drop t) pars) gs.
Proof.
  intros pars t gs H. destruct (H t eq_refl) as (k & x & y & A & B & C & D).
  exists k, (drop t x), y. rewrite nth_error_map, A. repeat split; auto. unfold no_text, drop. cbn [snd].
  rewrite Forall_forall in *. intros c Hc T. apply filter_In in Hc. destruct Hc as (Hc & N).
  rewrite (D c Hc T), Nat.eqb_refl in N. discriminate N.
Qed.

(** One slide. *)
Lemma page_step : forall w i pars tn g pars' tn' gs, length pars = length gs ->
  smil_page w i pars tn g = Ok (pars', tn') ->
  length pars' = length (gs ++ [g]) /\
  (lost pars gs -> lost pars' (gs ++ [g])) /\
  (held pars tn gs ->
   (audio_with_text g -> lost pars' (gs ++ [g]) \/ held pars' tn' (gs ++ [g])) /\
   (~ audio_with_text g -> lost pars' (gs ++ [g]))).
Proof.
  intros w i pars tn [d im au te] pars' tn' gs Hl E. unfold smil_page in E.
  cbn [pg_duration pg_image pg_audio pg_text] in E.
  assert (I : exists ks, Forall (fun c : child => ~ is_text (snd c)) ks /\
    match im with
    | Some (p, tb, te) => src <- media_src w p ;;
        Ok [(3 * i, Elem (str "img") ([(str "src", src); (str "region", str "Image")]
                      ++ time_attrs d tb te) [])]%nat
    | None => Ok []
    end = Ok ks).
  { destruct im as [[[p tb] e]|].
    - destruct (media_src w p) as [s|]; [|discriminate E]. cbn beta iota delta [bind].
      eexists. split; [|reflexivity]. repeat constructor. cbn [is_text snd]. discriminate.
    - exists []. split; [constructor|reflexivity]. }
  destruct I as (ks & Ik & Ei). rewrite Ei in E. clear Ei. cbn beta iota delta [bind] in E.
  assert (N : nth_error (gs ++ [Page d im au te]) (length gs) = Some (Page d im au te)).
  { rewrite nth_error_app2, Nat.sub_diag by lia. reflexivity. }
  assert (Nq : forall A (l : list A) q, length l = length gs -> nth_error (l ++ [q]) (length gs) = Some q).
  { intros A l q L. rewrite nth_error_app2, L, Nat.sub_diag by lia. reflexivity. }
  destruct te as [[[pt bt] et]|].
  - destruct (data_of w pt) as [s|]; [|discriminate E]. cbn beta iota zeta delta [bind] in E.
    set (t := (3 * i + 1, Elem (str "text") ([(str "src", s); (str "region", str "Text")]
                 ++ time_attrs d bt et) [])%nat) in E.
    assert (A : audio_with_text (Page d im au (Some (pt, bt, et)))).
    { intros _. cbn [pg_text]. discriminate. }
    destruct au as [[[pa ba] ea]|].
    + destruct (media_src w pa) as [sa|]; [|discriminate E]. cbn beta iota zeta delta [bind] in E.
      fold (drop t) in E.
      match type of E with Ok (?P ++ [?Q], _) = _ => set (q := Q) in E; change P with (map (drop t) pars) in E end.
      assert (pars' = map (drop t) pars ++ [q]) by congruence. assert (tn' = Some t) by congruence. subst pars' tn'.
      clear E. split; [rewrite !app_length, map_length, Hl; reflexivity|].
      split; [intros X; apply lost_more, lost_drop, X|]. intros _. split; [|intros X; destruct (X A)].
      intros _. right. intros t' Et. assert (t' = t) by congruence. subst t'.
      exists (length gs), q, (Page d im (Some (pa, ba, ea)) (Some (pt, bt, et))).
      split; [apply Nq; rewrite map_length; exact Hl|]. split; [exact N|]. split; [cbn [pg_text]; discriminate|].
      unfold q. cbn [snd]. apply Forall_app. split.
      * rewrite Forall_forall in *. intros c Hc T. apply filter_In in Hc. destruct Hc as (Hc & _).
        apply in_app_or in Hc. destruct Hc as [Hc|[<-|[]]]; [destruct (Ik c Hc T)|reflexivity].
      * repeat constructor. cbn [is_text snd]. discriminate.
    + match type of E with Ok (?P ++ [?Q], _) = _ => set (q := Q) in E end.
      assert (pars' = pars ++ [q]) by congruence. assert (tn' = Some t) by congruence. subst pars' tn'.
      clear E. split; [rewrite !app_length, Hl; reflexivity|].
      split; [intros X; apply lost_more, X|]. intros _. split; [|intros X; destruct (X A)].
      intros _. right. intros t' Et. assert (t' = t) by congruence. subst t'.
      exists (length gs), q, (Page d im None (Some (pt, bt, et))).
      split; [apply Nq; exact Hl|]. split; [exact N|]. split; [cbn [pg_text]; discriminate|].
      unfold q. cbn [snd]. apply Forall_app. split.
      * rewrite Forall_forall in *. intros c Hc T. destruct (Ik c Hc T).
      * repeat constructor.
  - cbn beta iota zeta delta [bind] in E. destruct au as [[[pa ba] ea]|].
    + destruct (media_src w pa) as [sa|]; [|discriminate E]. cbn beta iota zeta delta [bind] in E.
      destruct tn as [t|]; [|discriminate E]. fold (drop t) in E.
      match type of E with Ok (?P ++ [?Q], _) = _ => set (q := Q) in E; change P with (map (drop t) pars) in E end.
      assert (pars' = map (drop t) pars ++ [q]) by congruence. subst pars'. clear E.
      split; [rewrite !app_length, map_length, Hl; reflexivity|].
      split; [intros X; apply lost_more, lost_drop, X|]. intros X.
      pose proof (lost_more _ _ q (Page d im (Some (pa, ba, ea)) None) (held_lost _ _ _ X)) as Y. auto.
    + match type of E with Ok (?P ++ [?Q], _) = _ => set (q := Q) in E end.
      assert (pars' = pars ++ [q]) by congruence. assert (tn' = tn) by congruence. subst pars' tn'. clear E.
      split; [rewrite !app_length, Hl; reflexivity|]. split; [intros X; apply lost_more, X|].
      intros X. split; [intros _; right; apply held_more, X|]. intros Y. destruct Y. intros Z. exact Z.
Qed.

Lemma pages_lost : forall w gs i pars tn done qs, length pars = length done ->
  lost pars done \/ held pars tn done -> smil_pages w i pars tn gs = Ok qs ->
  lost pars done \/ Exists (fun g => ~ audio_with_text g) gs -> lost qs (done ++ gs).
Proof.
  intros w gs. induction gs as [|g gs IH]; intros i pars tn done qs Hl H E X.
  - cbn [smil_pages] in E. rewrite app_nil_r. assert (qs = pars) by congruence. subst.
    destruct X as [X|X]; [exact X|inversion X].
  - cbn [smil_pages] in E. destruct (smil_page w i pars tn g) as [[pars' tn']|] eqn:P; [|discriminate E].
    cbn beta iota delta [bind] in E. destruct (page_step _ _ _ _ _ _ _ _ Hl P) as (L & S1 & S2).
    change (g :: gs) with ([g] ++ gs). rewrite app_assoc.
    assert (T : audio_with_text g \/ ~ audio_with_text g).
    { unfold audio_with_text. destruct (pg_audio g), (pg_text g); intuition congruence. }
    destruct H as [H|H].
    + apply (IH _ _ _ _ _ L (or_introl (S1 H)) E). left. exact (S1 H).
    + destruct (S2 H) as (S3 & S4). destruct T as [T|T].
      * apply (IH _ _ _ _ _ L (S3 T) E). destruct X as [X|X]; [left; exact (S1 X)|].
        inversion X; subst; [contradiction|]. right. assumption.
      * apply (IH _ _ _ _ _ L (or_introl (S4 T)) E). left. exact (S4 T).
Qed.

Lemma lost_described : forall w gs qs, lost qs gs -> ~ Forall2 (slide_described w) gs (map par_element qs).
Proof.
  intros w gs qs (k & q & g & A & B & C & D) F.
  assert (X : slide_described w g (par_element q)).
  { clear C D. revert k qs A B F. induction gs as [|g0 gs IH]; intros k qs A B F; [destruct k; discriminate B|].
    destruct qs as [|q0 qs]; [destruct k; discriminate A|]. cbn [map] in F. inversion F; subst.
    destruct k as [|k]; cbn [nth_error] in A, B.
    - assert (q0 = q) by congruence. assert (g0 = g) by congruence. subst. assumption.
    - eapply IH; eauto. }
  destruct X as (i & t & a & _ & Dt & _ & (dd & li & lt & la & _ & _ & St & _ & Ex)).
  unfold describes in Dt. destruct (pg_text g) as [[[p tb] te]|]; [|contradiction].
  destruct t as [[[src tb'] te']|]; [|contradiction].
  cbn [shown] in St. destruct St as (x & (attrs & _ & Et) & ->).
  unfold par_element in Ex. assert (K : map snd (snd q) = li ++ [x] ++ la) by congruence.
  assert (I : In x (map snd (snd q))) by (rewrite K; apply in_or_app; right; left; reflexivity).
  apply in_map_iff in I. destruct I as (c & Ec & Ic). unfold no_text in D. rewrite Forall_forall in D.
  apply (D c Ic). rewrite Ec, Et. reflexivity.
Qed.

(** C61, settled: when every part has a source, there is a document that describes
    every slide of the message just when every slide with sound has text as well. *)
Theorem C61_exact : forall w m, Forall (has_sources w) (m_pages m) ->
  ((exists x pars, smil_tree w m = Ok x /\ slide_show (m_width m) (m_height m) pars x /\
      Forall2 (slide_described w) (m_pages m) pars) <->
   Forall audio_with_text (m_pages m)).
Proof.
  intros w m Hs. split.
  - intros (x & pars & E & (a & b & _ & _ & Ex) & F).
    destruct (Forall_Exists_dec audio_with_text) with (l := m_pages m) as [Y|Y]; [|exact Y|exfalso].
    { intros g. unfold audio_with_text. destruct (pg_audio g), (pg_text g);
        (left; intros; congruence) || (right; intros Z; apply Z; congruence). }
    unfold smil_tree in E.
    destruct (smil_pages w 0 [] None (m_pages m)) as [qs|] eqn:P; [|discriminate E].
    cbn beta iota delta [bind] in E.
    assert (Ep : pars = map par_element qs).
    { rewrite Ex in E. apply (f_equal (fun r => match r with
        | Ok (Elem _ _ [_; Elem _ _ l]) => l | _ => [] end)) in E. cbn in E. symmetry. exact E. }
    subst pars.
    assert (L : lost qs ([] ++ m_pages m)).
    { eapply (pages_lost w (m_pages m) 0 [] None []); [reflexivity| |exact P|right; exact Y].
      right. intros t Z. discriminate Z. }
    exact (lost_described w _ _ L F).
  - intros Ha. destruct (smil_run (fun _ => []) w m Hs Ha) as (x & pars & E0 & E & A & B).
    unfold smil in E. destruct (smil_tree w m) as [t|] eqn:Et; [|discriminate E].
    destruct (smil_pages_run w (m_pages m) 0 [] None Hs Ha) as (qs & E' & F); [constructor|].
    cbn [app] in E'. unfold smil_tree in Et. rewrite E' in Et. cbn beta iota delta [bind] in Et.
    exists t, (map par_element qs). split; [reflexivity|]. split; [|exact F].
    exists (py_str (m_width m)), (py_str (m_height m)).
    split; [apply py_str_notation|]. split; [apply py_str_notation|]. symmetry.
    assert (Y : forall u v : xml, Ok u = Ok v -> u = v) by (intros; congruence). apply Y in Et. exact Et.
Qed.
Print Assumptions C61_exact.

(** Text on the first slide, sound on the second and third: no document describes
    them, though every part has a source. *)
Example C61_exact_case :
  let w := World (fun _ => Some [1]) (fun _ => Some (str "audio/amr")) (fun d => d) in
  let g1 := snd (add_text (str "hi") 0 0 new_page) in
  let g2 := snd (add_audio w (str "/s.amr") 0 0 new_page) in
  let m := Message default_headers [g1; g2; g2] [] 176 220 in
  Forall (has_sources w) (m_pages m) /\ ~ Forall audio_with_text (m_pages m) /\
  match smil_tree w m with
  | Ok (Elem _ _ [_; Elem _ _ [Elem _ _ a; Elem _ _ b; Elem _ _ c]]) =>
      (length a, length b, length c) = (0, 1, 2)%nat
  | _ => False
  end.
Proof.
  split; [|split].
  - repeat apply Forall_cons; try apply Forall_nil; split; try split; intros p tb te E;
      vm_compute in E; try discriminate E; injection E as <- <- <-; eexists;
      first [apply source_location; reflexivity|reflexivity].
  - intros H. apply Forall_inv_tail, Forall_inv in H. apply H; vm_compute; congruence.
  - vm_compute. reflexivity.
Qed.
