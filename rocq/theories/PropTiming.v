(** When media and slides are shown: C100, C101. *)
From Coq Require Import Lia ZifyBool.
From Verif Require Import Py Message SpecSmil SpecTiming MessageClaims PyFacts MessageFacts PropXml.
Open Scope Z_scope.

Lemma notation_fun n n' s : notation n s -> notation n' s -> n = n'.
Proof.
  intros [(A & _ & B & C & _)|(A & t & E & _ & B & C & _)] [(A' & _ & B' & C' & _)|(A' & t' & E' & _ & B' & C' & _)].
  - congruence.
  - exfalso. rewrite E' in B. inversion B. lia.
  - exfalso. rewrite E in B'. inversion B'. lia.
  - assert (t = t') by congruence. subst. lia.
Qed.

Lemma times_described d tb te attrs t : times d tb te attrs ->
  (described_at d attrs t <-> 0 <= t < d /\ (0 < tb \/ 0 < te -> tb <= t < Z.min te d)).
Proof.
  intros [(A & B & ->)|(A & b & e & Hb & He & ->)]; unfold described_at; split.
  - intros (R & _). split; [exact R|lia].
  - intros (R & _). split; [exact R|]. split; intros ? ? [].
  - intros (R & P & Q). split; [exact R|]. intros _. split; [apply (P b); [now left|exact Hb]|apply (Q e); [right; now left|exact He]].
  - intros (R & P). specialize (P A). split; [exact R|]. split.
    + intros x n [E|[E|[]]] Hn; [|exfalso; apply (f_equal fst) in E; discriminate E].
      assert (x = b) by congruence. subst x. rewrite (notation_fun _ _ _ Hn Hb). lia.
    + intros x n [E|[E|[]]] Hn; [exfalso; apply (f_equal fst) in E; discriminate E|].
      assert (x = e) by congruence. subst x. rewrite (notation_fun _ _ _ Hn He). lia.
Qed.

(** A medium that is to appear after the slide was opened and to stay. *)
Definition late_to_stay (duration tb te : Z) : Prop := te <= 0 /\ 0 < tb < duration.

Lemma times_documented d tb te attrs : times d tb te attrs ->
  ((forall t, described_at d attrs t <-> documented d tb te t) <-> ~ late_to_stay d tb te).
Proof.
  intros T. unfold late_to_stay. split.
  - intros H (A & B). specialize (H tb). rewrite (times_described _ _ _ _ _ T) in H. unfold documented in H. lia.
  - intros H t. rewrite (times_described _ _ _ _ _ T). unfold documented. lia.
Qed.

(** The medium with this tag in the [par] element is shown when it should be. *)
Definition shown_as_documented (duration : Z) (tag : list Z) (s : slot) (kids : list xml) : Prop :=
  forall p tb te, s = Some (p, tb, te) -> exists attrs sub, In (Elem tag attrs sub) kids /\
    forall t, described_at duration attrs t <-> documented duration tb te t.
Definition as_documented (g : page) (par : xml) : Prop :=
  match par with Elem _ _ kids =>
    shown_as_documented (pg_duration g) (str "img") (pg_image g) kids /\
    shown_as_documented (pg_duration g) (str "text") (pg_text g) kids /\
    shown_as_documented (pg_duration g) (str "audio") (pg_audio g) kids
  end.
Definition no_late (duration : Z) (s : slot) : Prop :=
  forall p tb te, s = Some (p, tb, te) -> ~ late_to_stay duration tb te.

Lemma slot_documented R tag reg d s dm l pre post : describes R s dm -> shown tag reg d dm l ->
  (forall a, In (str "begin", a) reg -> False) -> (forall a, In (str "end", a) reg -> False) ->
  (forall x k, ~ In (Elem tag x k) pre) -> (forall x k, ~ In (Elem tag x k) post) ->
  (shown_as_documented d tag s (pre ++ l ++ post) <-> no_late d s).
Proof.
  intros D S B E Pr Po. unfold shown_as_documented, no_late. destruct s as [[[p tb] te]|].
  - destruct dm as [[[src b] e]|]; [|destruct D]. destruct D as (_ & -> & ->). destruct S as (x & (at_ & T & ->) & ->).
    assert (W : forall t, described_at d (([(str "src", src)] ++ reg) ++ at_) t <-> described_at d at_ t).
    { intros t. unfold described_at. split; intros (X & Y & Z0); (split; [exact X|]; split; intros v n I N).
      - apply (Y v n); [apply in_or_app; now right|exact N].
      - apply (Z0 v n); [apply in_or_app; now right|exact N].
      - apply in_app_or in I. destruct I as [[I|I]|I]; [apply (f_equal fst) in I; discriminate I|exfalso; eauto|eauto].
      - apply in_app_or in I. destruct I as [[I|I]|I]; [apply (f_equal fst) in I; discriminate I|exfalso; eauto|eauto]. }
    split.
    + intros H p' tb' te' Ep. destruct (H p' tb' te' Ep) as (a & k & I & Hd). injection Ep as <- <- <-.
      apply (times_documented d tb te at_ T).
      assert (Ea : a = ([(str "src", src)] ++ reg) ++ at_).
      { apply in_app_or in I. destruct I as [I|I]; [destruct (Pr _ _ I)|]. apply in_app_or in I.
        destruct I as [[I|[]]|I]; [congruence|destruct (Po _ _ I)]. }
      subst a. intros t. rewrite <- W. apply Hd.
    + intros H p' tb' te' Ep. pose proof (H p' tb' te' Ep) as N. injection Ep as <- <- <-.
      do 2 eexists. split; [apply in_or_app; right; apply in_or_app; left; left; reflexivity|].
      intros t. rewrite W. revert t. apply (times_documented d tb te at_ T). exact N.
  - split; intros _ p' tb' te' X; discriminate X.
Qed.

Lemma shown_tags tag reg d dm l : shown tag reg d dm l -> forall t x k, In (Elem t x k) l -> t = tag.
Proof.
  destruct dm as [[[src b] e]|]; cbn [shown]; [|intros -> t x k []].
  intros (y & (at_ & _ & ->) & ->) t x k [E|[]]. congruence.
Qed.

(** C100, exactly, for messages that are described at all: the media of a slide are
    shown when the documentation says, except those that are to appear late and to
    stay, and these are never shown. *)
Theorem C100_exact : forall w m, Forall (has_sources w) (m_pages m) -> Forall audio_with_text (m_pages m) ->
  exists x pars, smil_tree w m = Ok x /\ slide_show (m_width m) (m_height m) pars x /\
    Forall2 (fun g par => as_documented g par <->
      no_late (pg_duration g) (pg_image g) /\ no_late (pg_duration g) (pg_text g) /\ no_late (pg_duration g) (pg_audio g))
      (m_pages m) pars.
Proof.
  intros w m S A. destruct (smil_run (fun _ => []) w m S A) as (x & pars & E & _ & Sh & F).
  exists x, pars. split; [exact E|]. split; [exact Sh|]. eapply Forall2_impl; [|exact F].
  intros [d im au te] par (i & t & a & Di & Dt & Da & dd & li & lt & la & _ & Si & St & Sa & ->).
  cbn [pg_duration pg_image pg_audio pg_text as_documented] in *.
  assert (Ti := shown_tags _ _ _ _ _ Si). assert (Tt := shown_tags _ _ _ _ _ St). assert (Ta := shown_tags _ _ _ _ _ Sa).
  assert (R : forall r v : list Z, In (str "begin", v) [(str "region", r)] -> False).
  { intros r v [X|[]]. apply (f_equal fst) in X. discriminate X. }
  assert (R' : forall r v : list Z, In (str "end", v) [(str "region", r)] -> False).
  { intros r v [X|[]]. apply (f_equal fst) in X. discriminate X. }
  assert (Hi : shown_as_documented d (str "img") im (li ++ lt ++ la) <-> no_late d im).
  { apply (slot_documented _ _ _ _ _ _ _ [] (lt ++ la) Di Si); [apply R|apply R'|intros ? ? []|].
    intros ? ? I. apply in_app_or in I. destruct I as [I|I]; [apply Tt in I|apply Ta in I]; discriminate I. }
  assert (Ht : shown_as_documented d (str "text") te (li ++ lt ++ la) <-> no_late d te).
  { apply (slot_documented _ _ _ _ _ _ _ li la Dt St); [apply R|apply R'| |];
    intros ? ? I; [apply Ti in I|apply Ta in I]; discriminate I. }
  assert (Ha : shown_as_documented d (str "audio") au (li ++ lt ++ la) <-> no_late d au).
  { replace (li ++ lt ++ la) with ((li ++ lt) ++ la ++ []) by (rewrite <- app_assoc, app_nil_r; reflexivity).
    apply (slot_documented _ _ _ _ _ _ _ (li ++ lt) [] Da Sa); [intros ? []|intros ? []| |intros ? ? []].
    intros ? ? I. apply in_app_or in I. destruct I as [I|I]; [apply Ti in I|apply Tt in I]; discriminate I. }
  rewrite Hi, Ht, Ha. tauto.
Qed.
Print Assumptions C100_exact.
Example C100_case :
  let w := World (fun _ => Some [1]) (fun _ => Some (str "image/jpeg")) (fun d => d) in
  let g := snd (add_text (str "hi") 500 9000 (snd (add_image w (str "/a.jpg") (-1) 2000 new_page))) in
  let m := Message default_headers [g] [] 176 220 in
  Forall (has_sources w) (m_pages m) /\ Forall audio_with_text (m_pages m) /\
  no_late (pg_duration g) (pg_image g) /\ no_late (pg_duration g) (pg_text g) /\ no_late (pg_duration g) (pg_audio g) /\
  documented 4000 500 9000 3999 /\ ~ documented 4000 (-1) 2000 2000.
Proof.
  cbv zeta. split; [|split; [|split; [|split; [|split; [|split]]]]].
  - repeat apply Forall_cons; try apply Forall_nil; split; try split; intros p tb te E;
      vm_compute in E; try discriminate E; injection E as <- <- <-; eexists;
      first [apply source_location; reflexivity|reflexivity].
  - repeat apply Forall_cons; try apply Forall_nil; intros X; vm_compute in X |- *; congruence.
  - intros p tb te E. vm_compute in E. injection E as <- <- <-. unfold late_to_stay. lia.
  - intros p tb te E. vm_compute in E. injection E as <- <- <-. unfold late_to_stay. lia.
  - intros p tb te E. discriminate E.
  - unfold documented. lia.
  - unfold documented. lia.
Qed.

(** C100 fails: a text or image added with a begin and no end is never shown,
    though it was to be shown until the next slide. *)
Theorem C100_late_refuted : forall w text tb te g, machine_int tb -> machine_int te ->
  late_to_stay (pg_duration g) tb te ->
  let g' := snd (add_text text tb te g) in
  fst (add_text text tb te g) = Ok tt /\
  (forall par, slide_described w g' par -> exists attrs sub kids, par = Elem (str "par") sub kids /\
     In (Elem (str "text") attrs []) kids /\ forall t, ~ described_at (pg_duration g) attrs t) /\
  documented (pg_duration g) tb te tb.
Proof.
  intros w text tb te g Mb Me L. cbv zeta.
  assert (C : add_text text tb te g = (Ok tt, Page (pg_duration g) (pg_image g) (pg_audio g) (Some (set_text text new_part, tb, te)))).
  { destruct L as (L1 & L2). unfold add_text, check_times, st_bind, st_upd.
    rewrite (proj2 (is_int_machine tb) Mb), (proj2 (is_int_machine te) Me). cbn [negb orb].
    replace ((0 <? te) && (te <? tb)) with false by lia. reflexivity. }
  rewrite C. cbn [fst snd]. split; [reflexivity|]. split.
  - intros par (i & t & a & Di & Dt & Da & dd & li & lt & la & _ & Si & St & Sa & ->).
    cbn [pg_duration pg_text describes] in *. destruct t as [[[src b] e]|]; [|destruct Dt]. destruct Dt as (_ & -> & ->).
    cbn [shown] in St. destruct St as (x & (ats & T & ->) & ->).
    do 3 eexists. split; [reflexivity|]. split; [apply in_or_app; right; apply in_or_app; left; left; reflexivity|].
    intros u H. assert (H' : described_at (pg_duration g) ats u).
    { destruct H as (X & Y & Z0). split; [exact X|]. split; intros v n I N; [apply (Y v n)|apply (Z0 v n)]; auto; now (right; right). }
    apply (times_described _ _ _ _ _ T) in H'. destruct L. lia.
  - destruct L. unfold documented. lia.
Qed.
Print Assumptions C100_late_refuted.
Example C100_late_case : machine_int 500 /\ machine_int 0 /\ late_to_stay (pg_duration new_page) 500 0.
Proof. unfold machine_int, late_to_stay. cbn. lia. Qed.

(** * C101: what a SMIL player makes of the numbers *)

Lemma digits_bare s n : digits s -> clock s n -> n = 1000 * digits_value s.
Proof.
  intros (_ & D) C. inversion C as [? _|t _ E|t _ E]; subst; [reflexivity| |]; exfalso; apply Forall_app in D; destruct D as (_ & D);
    inversion D; lia.
Qed.
Lemma notation_clock n s : 0 <= n -> notation n s -> clock s (1000 * n) /\ forall k, clock s k -> k = 1000 * n.
Proof.
  intros P [(_ & N & D & V & _)|(X & _)]; [|lia]. rewrite <- V. split; [apply clock_bare; split; assumption|].
  intros k. apply digits_bare. split; assumption.
Qed.

(** C101 fails: a medium that is to appear [tb] milliseconds after the slide was
    opened is said to appear after [tb] seconds; its end likewise; and *)
Theorem C101_seconds_refuted : forall w m, Forall (has_sources w) (m_pages m) -> Forall audio_with_text (m_pages m) ->
  exists x pars, smil_tree w m = Ok x /\ slide_show (m_width m) (m_height m) pars x /\
  Forall2 (fun g par => forall tag tb te p,
    (pg_image g = Some (p, tb, te) /\ tag = str "img") \/ (pg_text g = Some (p, tb, te) /\ tag = str "text") \/
      (pg_audio g = Some (p, tb, te) /\ tag = str "audio") ->
    0 < tb -> 0 < te -> 0 < pg_duration g ->
    exists atts kids sub ats b e, par = Elem (str "par") atts kids /\ In (Elem tag ats sub) kids /\
      In (str "begin", b) ats /\ In (str "end", e) ats /\
      (forall k, clock b k <-> k = 1000 * tb) /\ (forall k, clock e k <-> k = 1000 * Z.min te (pg_duration g)) /\
      ~ clock b tb /\ ~ clock e (Z.min te (pg_duration g))) (m_pages m) pars.
Proof.
  intros w m S A. destruct (smil_run (fun _ => []) w m S A) as (x & pars & E & _ & Sh & F).
  exists x, pars. split; [exact E|]. split; [exact Sh|]. eapply Forall2_impl; [|exact F].
  intros [d im au te] par (i & t & a & Di & Dt & Da & dd & li & lt & la & _ & Si & St & Sa & ->).
  cbn [pg_duration pg_image pg_audio pg_text] in *. intros tag tb te0 p H Pb Pe Pd.
  assert (G : forall R reg s dm l, describes R s dm -> shown tag reg d dm l -> s = Some (p, tb, te0) ->
    exists sub ats b e, In (Elem tag ats sub) l /\ In (str "begin", b) ats /\ In (str "end", e) ats /\
      (forall k, clock b k <-> k = 1000 * tb) /\ (forall k, clock e k <-> k = 1000 * Z.min te0 d) /\
      ~ clock b tb /\ ~ clock e (Z.min te0 d)).
  { intros R reg s dm l D Sl ->. cbn [describes] in D. destruct dm as [[[src b] e]|]; [|destruct D].
    destruct D as (_ & -> & ->). destruct Sl as (y & (ats & T & ->) & ->).
    destruct T as [(X & _)|(_ & b & e & Hb & He & ->)]; [lia|].
    destruct (notation_clock tb b ltac:(lia) Hb) as (B1 & B2).
    destruct (notation_clock (Z.min te0 d) e ltac:(lia) He) as (E1 & E2).
    exists [], (([(str "src", src)] ++ reg) ++ [(str "begin", b); (str "end", e)]), b, e.
    split; [now left|]. split; [apply in_or_app; right; now left|]. split; [apply in_or_app; right; right; now left|].
    split; [intros k; split; [apply B2|intros ->; exact B1]|]. split; [intros k; split; [apply E2|intros ->; exact E1]|].
    split; intros C; [apply B2 in C|apply E2 in C]; lia. }
  assert (K : exists sub ats b e, In (Elem tag ats sub) (li ++ lt ++ la) /\ In (str "begin", b) ats /\ In (str "end", e) ats /\
      (forall k, clock b k <-> k = 1000 * tb) /\ (forall k, clock e k <-> k = 1000 * Z.min te0 d) /\
      ~ clock b tb /\ ~ clock e (Z.min te0 d)).
  { destruct H as [(H & ->)|[(H & ->)|(H & ->)]].
    - destruct (G _ _ _ _ _ Di Si H) as (sub & ats & b & e & I & R). exists sub, ats, b, e. split; [|exact R].
      apply in_or_app. now left.
    - destruct (G _ _ _ _ _ Dt St H) as (sub & ats & b & e & I & R). exists sub, ats, b, e. split; [|exact R].
      apply in_or_app. right. apply in_or_app. now left.
    - destruct (G _ _ _ _ _ Da Sa H) as (sub & ats & b & e & I & R). exists sub, ats, b, e. split; [|exact R].
      apply in_or_app. right. apply in_or_app. now right. }
  destruct K as (sub & ats & b & e & R). do 2 eexists. exists sub, ats, b, e. split; [reflexivity|exact R].
Qed.
Print Assumptions C101_seconds_refuted.

(** no slide of any message says how long it lasts in the attribute that SMIL has
    for it, [dur]. *)
Theorem C101_dur_refuted : forall w m x, smil_tree w m = Ok x ->
  exists head pars, x = Elem (str "smil") [] [head; Elem (str "body") [] pars] /\
    length pars = length (m_pages m) /\
    Forall (fun par => exists d kids, par = Elem (str "par") [(str "duration", d)] kids /\
      ~ exists v, In (str "dur", v) [(str "duration", d)]) pars.
Proof.
  intros w m x E. unfold smil_tree in E. destruct (smil_pages w 0 [] None (m_pages m)) as [qs|] eqn:Q; [|discriminate E].
  cbn beta iota delta [bind] in E.
  assert (R : ready 0 [] None).
  { constructor; [intros c (q & [] & _)|discriminate|constructor]. }
  destruct (pages_children _ _ _ _ _ _ R Q) as (D & _).
  assert (L : forall gs i pars tn qs, smil_pages w i pars tn gs = Ok qs -> length qs = (length pars + length gs)%nat).
  { clear. induction gs as [|g gs IH]; intros i pars tn qs E; cbn [smil_pages] in E.
    - assert (qs = pars) by congruence. subst. cbn. lia.
    - destruct (smil_page w i pars tn g) as [[pars' tn']|] eqn:P; [|discriminate E]. cbn beta iota delta [bind] in E.
      rewrite (IH _ _ _ _ E). cbn [length].
      enough (length pars' = S (length pars)) by lia. clear - P. destruct g as [d im au te]. unfold smil_page in P.
      destruct (match pg_image _ with None => _ | Some _ => _ end) as [ks|]; [|discriminate P].
      cbn beta iota delta [bind] in P.
      destruct (match pg_text _ with None => _ | Some _ => _ end) as [[ks' tn1]|]; [|discriminate P].
      cbn beta iota in P. destruct (pg_audio _) as [[[p tb] e]|].
      + destruct (media_src w p); [|discriminate P]. destruct tn1; [|discriminate P]. injection P as <- _.
        rewrite app_length, map_length. cbn [length]. lia.
      + injection P as <- _. rewrite app_length. cbn [length]. lia. }
  apply L in Q. injection E as <-. do 2 eexists. split; [reflexivity|]. split; [rewrite map_length; exact Q|].
  apply Forall_forall. intros y Hy. apply in_map_iff in Hy. destruct Hy as ((ats, kids) & <- & Hq).
  rewrite Forall_forall in D. destruct (D _ Hq) as (d & Ed). cbn [fst] in Ed. subst ats.
  do 2 eexists. split; [reflexivity|]. intros (v & [I|[]]). apply (f_equal fst) in I. discriminate I.
Qed.
Print Assumptions C101_dur_refuted.
Example C101_case :
  let w := World (fun _ => Some [1]) (fun _ => Some (str "image/jpeg")) (fun d => d) in
  let g := snd (add_text (str "hi") 500 3500 (snd (add_image w (str "/a.jpg") 0 0 new_page))) in
  let m := Message default_headers [g] [] 176 220 in
  (exists x, smil_tree w m = Ok x) /\ Forall (has_sources w) (m_pages m) /\ Forall audio_with_text (m_pages m) /\
  (exists p, pg_text g = Some (p, 500, 3500)) /\ clock (str "500") 500000 /\ clock (str "500ms") 500.
Proof.
  cbv zeta. split; [|split; [|split; [|split; [|split]]]].
  - eexists. vm_compute. reflexivity.
  - repeat apply Forall_cons; try apply Forall_nil; split; try split; intros p tb te E;
      vm_compute in E; try discriminate E; injection E as <- <- <-; eexists;
      first [apply source_location; reflexivity|reflexivity].
  - repeat apply Forall_cons; try apply Forall_nil; intros X; vm_compute in X |- *; congruence.
  - eexists. reflexivity.
  - apply (clock_bare (str "500")). split; [discriminate|]. repeat constructor; vm_compute; discriminate.
  - apply (clock_ms (str "500")). split; [discriminate|]. repeat constructor; vm_compute; discriminate.
Qed.
