(** C130: what a multimedia message holds after any sequence of calls. *)
From Coq Require Import Lia ZifyBool ZifyNat.
From Verif Require Import Py Iter Tables WspDec WspEnc Message MmsEnc SpecWsp SpecVersion WspClaims MmsClaims
  MessageClaims SpecFills PyFacts WspFacts HeaderFacts MsgHeaderFacts BodyFacts RefuseFacts PropAttach PropFills
  PropBroken PropDeeds SpecRefuse SpecDeeds SpecHolds.
Open Scope Z_scope.

(** What the message holds. *)
Definition held_by (m : message) : holds_now := HoldsNow (m_pages m) (m_parts m) (m_width m) (m_height m).

(** Slides made by the calls of SpecFills.v, and dictionaries in any order. *)
Definition slides_made (ds : list deed) : Prop := forall g, In (AddSlide g) ds -> exists cs, g = after_fills cs.
Definition orders_any (ds : list deed) : Prop := forall w rand, In (EncodeIt w rand) ds -> any_order w.

(** * One part *)

Lemma part_step w p r p' : any_order w -> encode_part w p = (r, p') ->
  (exists b, r = Ok b /\ (forall e, ~ part_refused w p e) /\ asked_data w p p') \/
  (exists e, r = Err e /\ part_refused w p e /\ p' = p).
Proof.
  intros Hw E. destruct (part_out w p Hw) as (A & B). destruct r as [b|e].
  - left. exists b. split; [reflexivity|]. split.
    { intros e R. destruct (B e R) as (e' & p2 & X). congruence. }
    clear A B. unfold encode_part, st_bind, st_get, st_lift, st_ret, st_err in E.
    destruct (h_get (str "Content-Type") (dp_headers p)) as [v|]; [|discriminate].
    destruct (unpack_type v) as [[n ps]|]; [|discriminate].
    destruct (encode_content_type_value n ps) as [ct|]; [|discriminate].
    destruct (mapM _ _) as [hs|]; [|discriminate].
    unfold part_len, get_data, st_bind, st_get, st_upd, st_ret, st_err in E.
    destruct p as [h pa [f|] [d|]]; cbn [dp_filename dp_data dp_headers dp_params] in E.
    + destruct (w_file w f); [|discriminate]. destruct (array_of ct); [|discriminate].
      destruct (array_of (concat hs)); [|discriminate]. apply (f_equal snd) in E; cbn -[encode_uint_var] in E; subst p'; constructor.
    + destruct (w_file w f) eqn:F; [|discriminate]. destruct (array_of ct); [|discriminate].
      destruct (array_of (concat hs)); [|discriminate]. apply (f_equal snd) in E; cbn -[encode_uint_var] in E; rewrite F in E; cbn -[encode_uint_var] in E; subst p'; constructor. exact F.
    + destruct (array_of ct); [|discriminate].
      destruct (array_of (concat hs)); [|discriminate]. apply (f_equal snd) in E; cbn -[encode_uint_var] in E; subst p'; constructor.
    + destruct (array_of ct); [|discriminate].
      destruct (array_of (concat hs)); [|discriminate]. apply (f_equal snd) in E; cbn -[encode_uint_var] in E; subst p'; constructor.
  - right. exists e. split; [reflexivity|]. split; [exact (A e p' E)|].
    clear A B. unfold encode_part, st_bind, st_get, st_lift, st_ret, st_err in E.
    destruct (h_get (str "Content-Type") (dp_headers p)) as [v|]; [|congruence].
    destruct (unpack_type v) as [[n ps]|]; [|congruence].
    destruct (encode_content_type_value n ps) as [ct|]; [|congruence].
    destruct (mapM _ _) as [hs|]; [|congruence].
    unfold part_len, get_data, st_bind, st_get, st_upd, st_ret, st_err in E.
    destruct p as [h pa [f|] [d|]]; cbn [dp_filename dp_data dp_headers dp_params] in E;
      try (destruct (w_file w f) eqn:F; [|congruence]); (destruct (array_of ct); [|congruence]);
      (destruct (array_of (concat hs)); [|congruence]); cbn -[encode_uint_var] in E; rewrite ?F in E;
      cbn -[encode_uint_var] in E; discriminate E.
Qed.

(** * The slides *)

Definition all_sent (w : world) : list part -> list part -> Prop :=
  Forall2 (fun p p' => (forall e, ~ part_refused w p e) /\ asked_data w p p').
Definition stopped (w : world) (ps ps' : list part) : Prop := exists a a' p b e,
  ps = a ++ p :: b /\ ps' = a' ++ p :: b /\ all_sent w a a' /\ part_refused w p e.

Lemma all_in_turn w ps ps' : all_sent w ps ps' -> asked_in_turn w ps ps'.
Proof. induction 1 as [|p p' ps ps' (A & B)]; constructor; assumption. Qed.
Lemma stopped_in_turn w ps ps' : stopped w ps ps' -> asked_in_turn w ps ps'.
Proof.
  intros (a & a' & p & b & e & -> & -> & H & R).
  induction H as [|q q' a a' (A & B) H IH]; cbn [app]; [eapply at_refused; eassumption|].
  apply at_sent; assumption.
Qed.
Lemma stopped_left w a a' b : stopped w a a' -> stopped w (a ++ b) (a' ++ b).
Proof.
  intros (x & x' & p & y & e & -> & -> & H & R). exists x, x', p, (y ++ b), e.
  rewrite <- !app_assoc. cbn [app]. auto.
Qed.
Lemma stopped_right w a a' b b' : all_sent w a a' -> stopped w b b' -> stopped w (a ++ b) (a' ++ b').
Proof.
  intros S (x & x' & p & y & e & -> & -> & H & R). exists (a ++ x), (a' ++ x'), p, y, e.
  rewrite <- !app_assoc. split; [reflexivity|]. split; [reflexivity|]. split; [|exact R].
  apply Forall2_app; assumption.
Qed.

Lemma slot_step w s r s' : any_order w -> encode_slot w s = (r, s') ->
  same_times s s' /\
  match r with Ok _ => all_sent w (slot_part s) (slot_part s') | Err _ => stopped w (slot_part s) (slot_part s') end.
Proof.
  intros Hw E. destruct s as [[[p b] e]|]; cbn [encode_slot] in E.
  - destruct (encode_part w p) as [r0 p'] eqn:F. injection E as <- <-. cbn [same_times slot_part].
    split; [auto|]. destruct (part_step w p r0 p' Hw F) as [(x & -> & A & B)|(x & -> & A & ->)].
    + constructor; [auto|constructor].
    + exists [], [], p, [], x. repeat split; [constructor|exact A].
  - injection E as <- <-. cbn. split; [auto|constructor].
Qed.

Definition slide_part_list (g : page) : list part :=
  slot_part (pg_image g) ++ slot_part (pg_audio g) ++ slot_part (pg_text g).
Lemma times_refl s : same_times s s.
Proof. destruct s as [[[p b] e]|]; cbn; auto. Qed.

Lemma page_step w g r g' : any_order w -> encode_page w g = (r, g') ->
  same_slide g g' /\
  match r with Ok _ => all_sent w (slide_part_list g) (slide_part_list g')
             | Err _ => stopped w (slide_part_list g) (slide_part_list g') end.
Proof.
  intros Hw E. unfold encode_page in E. unfold same_slide, slide_part_list.
  destruct (encode_slot w (pg_image g)) as [[a|x] i] eqn:E1; cbn [pg_duration pg_image pg_audio pg_text] in E;
    destruct (slot_step w _ _ _ Hw E1) as (T1 & S1).
  2:{ injection E as <- <-. cbn [pg_duration pg_image pg_audio pg_text].
      repeat split; try apply times_refl; [exact T1|]. apply stopped_left, S1. }
  destruct (encode_slot w (pg_audio g)) as [[b|x] u] eqn:E2; cbn [pg_duration pg_image pg_audio pg_text] in E;
    destruct (slot_step w _ _ _ Hw E2) as (T2 & S2).
  2:{ injection E as <- <-. cbn [pg_duration pg_image pg_audio pg_text].
      repeat split; try apply times_refl; try assumption. apply stopped_right; [exact S1|]. apply stopped_left, S2. }
  destruct (encode_slot w (pg_text g)) as [[c|x] t] eqn:E3; cbn [pg_duration pg_image pg_audio pg_text] in E;
    destruct (slot_step w _ _ _ Hw E3) as (T3 & S3); injection E as <- <-;
    cbn [pg_duration pg_image pg_audio pg_text]; repeat split; try assumption.
  - apply Forall2_app; [exact S1|]. apply Forall2_app; assumption.
  - apply stopped_right; [exact S1|]. apply stopped_right; assumption.
Qed.

Lemma slides_refl gs : Forall2 same_slide gs gs.
Proof. induction gs; constructor; [repeat split; apply times_refl|assumption]. Qed.

Lemma pages_step w gs r gs' : any_order w -> encode_pages w gs = (r, gs') ->
  Forall2 same_slide gs gs' /\
  match r with Ok _ => all_sent w (sent_parts gs) (sent_parts gs')
             | Err _ => stopped w (sent_parts gs) (sent_parts gs') end.
Proof.
  intros Hw. revert r gs'. induction gs as [|g gs IH]; intros r gs' E; cbn [encode_pages] in E.
  - injection E as <- <-. split; constructor.
  - destruct (encode_page w g) as [[a|x] g1] eqn:E1; destruct (page_step w _ _ _ Hw E1) as (T1 & S1).
    2:{ injection E as <- <-. split; [constructor; [exact T1|apply slides_refl]|].
        unfold sent_parts. cbn [flat_map]. apply stopped_left, S1. }
    destruct (encode_pages w gs) as [[b|x] r1] eqn:E2; destruct (IH _ _ eq_refl) as (T2 & S2);
      injection E as <- <-; (split; [constructor; assumption|]); unfold sent_parts; cbn [flat_map].
    + apply Forall2_app; assumption.
    + apply stopped_right; assumption.
Qed.

(** * The headers *)

Lemma goes_out_is rand d k u : goes_out rand (fun k => h_get k d) k u <-> sent_headers rand d k = Some u.
Proof.
  assert (C : forall k, (forall k' x', In (k', x') first_headers -> k <> k' /\ k <> x') ->
    sent_headers rand d k = h_get k d).
  { intros k0 N.
    assert (Q : forall s, In s (map fst first_headers ++ map snd first_headers) -> leqb k0 s = false).
    { intros s I. destruct (leqb k0 s) eqn:F; [|reflexivity]. apply leqb_eq in F. subst s. exfalso.
      apply in_app_iff in I. destruct I as [I|I]; apply in_map_iff in I; destruct I as ((a & b) & X & I);
        cbn [fst snd] in X; subst; destruct (N _ _ I); congruence. }
    unfold sent_headers. rewrite !Q by (cbn [In first_headers map fst snd app]; tauto). reflexivity. }
  split.
  - intros [k0 x u0 I T|k0 u0 N E].
    + now apply (to_go_is rand d k0 x u0 I).
    + rewrite C by exact N. exact E.
  - intros E. destruct (in_dec (list_eq_dec Z.eq_dec) k (map fst first_headers)) as [I|N1].
    { apply in_map_iff in I. destruct I as ((k0 & x) & <- & I). eapply out_first; [exact I|].
      now apply (to_go_is rand d k0 x u I). }
    destruct (in_dec (list_eq_dec Z.eq_dec) k (map snd first_headers)) as [I|N2].
    { exfalso. apply in_map_iff in I. destruct I as ((k0 & x) & <- & I). cbn [snd] in E. apply first_names in I.
      unfold sent_headers in E. destruct I as [(_ & ->)|[(_ & ->)|(_ & ->)]]; cbn in E; discriminate E. }
    assert (K : forall k' x', In (k', x') first_headers -> k <> k' /\ k <> x').
    { intros k' x' I. split; intros ->; [apply N1|apply N2]; apply in_map_iff; exists (k', x'); auto. }
    apply out_other; [exact K|]. rewrite <- C by exact K. exact E.
Qed.

Lemma headers_refused_is rand d : headers_refused rand (fun k => h_get k d) <-> exists e, header_problem rand d e.
Proof.
  assert (T : sent_headers rand d (str "Content-Type") = h_get (str "Content-Type") d) by reflexivity.
  unfold header_problem. rewrite T. split.
  - intros [k u e G N R|E|u e E R].
    + exists e. left. exists k, u. rewrite <- goes_out_is. auto.
    + exists KeyError. right. left. auto.
    + exists e. right. right. eauto.
  - intros (e & [(k & u & G & N & R)|[(E & _)|(u & E & R)]]).
    + eapply hs_header; [apply goes_out_is; exact G|exact N|exact R].
    + now apply hs_no_type.
    + eapply hs_type; eassumption.
Qed.

(** * The description *)

(** Slides whose images and sounds have names and whose texts are there. *)
Definition named (g : page) : Prop :=
  (forall p b e, pg_image g = Some (p, b, e) \/ pg_audio g = Some (p, b, e) ->
     exists s, d_get leqb (str "Content-Location") (dp_headers p) = Some (HStr s)) /\
  (forall p b e, pg_text g = Some (p, b, e) -> dp_data p <> None \/ dp_filename p = None).

Lemma filled_named cs : named (after_fills cs).
Proof.
  destruct (C128_slide cs) as (i & a & t & d & _ & _ & _ & _ & Mi & Ma & Mt & _). split.
  - intros p b e [E|E].
    + destruct i as [[[[w f] b0] e0]|]; cbn [medium_of] in Mi; [|congruence].
      destruct Mi as (p0 & X & Y). rewrite X in E. injection E as -> _ _.
      destruct (pr_name _ _ _ Y) as (s & _ & Z). exists s. exact Z.
    + destruct a as [[[[w f] b0] e0]|]; cbn [medium_of] in Ma; [|congruence].
      destruct Ma as (p0 & X & Y). rewrite X in E. injection E as -> _ _.
      destruct (pr_name _ _ _ Y) as (s & _ & Z). exists s. exact Z.
  - intros p b e E. destruct t as [[[t0 b0] e0]|]; cbn [text_of_slot] in Mt; [|congruence].
    destruct Mt as (p0 & X & _ & Y). rewrite X in E. injection E as -> _ _.
    destruct (dp_data p) eqn:D; [left; discriminate|right]. destruct (dp_filename p) as [f|] eqn:F; [|reflexivity].
    exfalso. specialize (Y (World (fun _ => None) (fun _ => None) (fun d => d))).
    assert (N : data_of (World (fun _ => None) (fun _ => None) (fun d => d)) p = Err OSError).
    { apply data_out. split; [|reflexivity]. split; [exact D|]. exists f. auto. }
    congruence.
Qed.

Lemma sound_first_is w gs : Forall named gs -> ((exists e, slides_refused w gs e) <-> sound_first gs).
Proof.
  intros N. rewrite Forall_forall in N. split.
  - intros (e & [g p b e0 x I S R|g p b e0 I S (D & f & F & _)|before g after E A B]).
    + exfalso. destruct (N g I) as (N1 & _). destruct (N1 p b e0 S) as (s & L).
      destruct R as [v V W|v V|V]; rewrite L in V; try discriminate V. injection V as <-. exact (W s eq_refl).
    + exfalso. destruct (N g I) as (_ & N2). destruct (N2 p b e0 S) as [X|X]; congruence.
    + exists before, g, after. auto.
  - intros (before & g & after & E & A & B). exists UnboundLocalError. eapply sl_sound; eassumption.
Qed.


(** * What stays *)

(** The same part, but for a file that may have been read. *)
Definition same_part (p p' : part) : Prop :=
  dp_headers p' = dp_headers p /\ dp_params p' = dp_params p /\ dp_filename p' = dp_filename p /\
  (dp_data p <> None \/ dp_filename p = None -> dp_data p' = dp_data p).
Definition same_slot (s s' : slot) : Prop :=
  match s, s' with
  | None, None => True
  | Some (p, b, e), Some (p', b', e') => b = b' /\ e = e' /\ same_part p p'
  | _, _ => False
  end.
Definition still_there (g g' : page) : Prop :=
  pg_duration g = pg_duration g' /\ same_slot (pg_image g) (pg_image g') /\
  same_slot (pg_audio g) (pg_audio g') /\ same_slot (pg_text g) (pg_text g').

Lemma same_part_refl p : same_part p p.
Proof. unfold same_part. auto. Qed.
Lemma same_part_trans p q r : same_part p q -> same_part q r -> same_part p r.
Proof.
  intros (A & B & C & D) (A' & B' & C' & D'). unfold same_part. rewrite A', B', C'. repeat split; auto.
  intros H. rewrite <- (D H). apply D'. rewrite (D H), C. exact H.
Qed.
Lemma same_slot_refl s : same_slot s s.
Proof. destruct s as [[[p b] e]|]; cbn; auto using same_part_refl. Qed.
Lemma same_slot_trans s t u : same_slot s t -> same_slot t u -> same_slot s u.
Proof.
  destruct s as [[[p b] e]|], t as [[[q b'] e']|], u as [[[r b''] e'']|]; cbn; try tauto.
  intros (-> & -> & A) (-> & -> & B). eauto using same_part_trans.
Qed.
Lemma still_refl gs : Forall2 still_there gs gs.
Proof. induction gs; constructor; [repeat split; apply same_slot_refl|assumption]. Qed.
Lemma still_trans gs : forall hs ks, Forall2 still_there gs hs -> Forall2 still_there hs ks -> Forall2 still_there gs ks.
Proof.
  induction gs as [|g gs IH]; intros hs ks A B; inversion A as [|? ? ? ? P Q]; subst;
    inversion B as [|? ? ? ? P' Q']; subst; constructor; [|eapply IH; eassumption].
  destruct P as (P1 & P2 & P3 & P4), P' as (R1 & R2 & R3 & R4). repeat split; [congruence|..];
    eapply same_slot_trans; eassumption.
Qed.

Lemma asked_keeps w p p' : asked_data w p p' -> same_part p p'.
Proof.
  intros H. destruct H; unfold same_part; cbn; repeat split; try reflexivity; intros [X|X]; try congruence.
Qed.
Lemma turn_keeps w ps ps' : asked_in_turn w ps ps' -> Forall2 same_part ps ps'.
Proof.
  induction 1 as [|p p' ps ps' _ A _ IH|p ps e R]; constructor; auto using same_part_refl.
  - eapply asked_keeps; eassumption.
  - clear. induction ps; constructor; auto using same_part_refl.
Qed.

Lemma slot_keeps (R : part -> part -> Prop) s s' l l' : same_times s s' ->
  Forall2 R (slot_part s ++ l) (slot_part s' ++ l') ->
  Forall2 R (slot_part s) (slot_part s') /\ Forall2 R l l'.
Proof.
  intros T H. destruct s as [[[p b] e]|], s' as [[[p' b'] e']|]; cbn [same_times slot_part app] in *; try contradiction.
  - inversion H; subst. auto.
  - auto.
Qed.
Lemma slot_same s s' : same_times s s' -> Forall2 same_part (slot_part s) (slot_part s') -> same_slot s s'.
Proof.
  intros T H. destruct s as [[[p b] e]|], s' as [[[p' b'] e']|]; cbn [same_times slot_part same_slot] in *; try contradiction.
  - inversion H; subst. tauto.
  - exact I.
Qed.
Lemma slides_keep gs gs' : Forall2 same_slide gs gs' -> Forall2 same_part (sent_parts gs) (sent_parts gs') ->
  Forall2 still_there gs gs'.
Proof.
  induction 1 as [|g g' gs gs' (D & I & A & T) _ IH]; intros H; [constructor|].
  unfold sent_parts in H. cbn [flat_map] in H. rewrite <- !app_assoc in H.
  apply slot_keeps in H; [|exact I]. destruct H as (H1 & H).
  apply slot_keeps in H; [|exact A]. destruct H as (H2 & H).
  apply slot_keeps in H; [|exact T]. destruct H as (H3 & H).
  constructor; [|exact (IH H)]. repeat split; [exact D|..]; apply slot_same; assumption.
Qed.

Lemma still_named gs gs' : Forall2 still_there gs gs' -> Forall named gs -> Forall named gs'.
Proof.
  induction 1 as [|g g' gs gs' (_ & I & A & T) _ IH]; intros H; [constructor|].
  inversion H as [|? ? (N1 & N2) N]; subst. constructor; [|exact (IH N)]. split.
  - assert (Q : forall s s', same_slot s s' -> (forall p b e, s = Some (p, b, e) ->
        exists n, d_get leqb (str "Content-Location") (dp_headers p) = Some (HStr n)) ->
      forall p b e, s' = Some (p, b, e) ->
        exists n, d_get leqb (str "Content-Location") (dp_headers p) = Some (HStr n)).
    { intros s s' S F p b e ->. destruct s as [[[q b'] e']|]; cbn [same_slot] in S; [|contradiction].
      destruct S as (_ & _ & S & _). rewrite S. exact (F q b' e' eq_refl). }
    intros p b e [E|E]; [eapply (Q _ _ I)|eapply (Q _ _ A)]; try exact E; intros p0 b0 e0 X; eapply N1; eauto.
  - intros p b e E. rewrite E in T. destruct (pg_text g) as [[[q b'] e']|] eqn:X; cbn [same_slot] in T; [|contradiction].
    destruct T as (_ & _ & _ & _ & F & D). specialize (N2 q b' e' eq_refl). rewrite F, (D N2). exact N2.
Qed.

(** * One call of [encode] *)

Lemma body_reads render w rand m r m' : any_order w -> is_dict (m_headers m) -> Forall named (m_pages m) ->
  encode render w rand m = (r, m') ->
  m_parts m' = m_parts m /\ m_width m' = m_width m /\ m_height m' = m_height m /\
  read_by w rand (shown m) (m_pages m) (m_pages m') /\
  (forall b, r = Ok b -> all_sent w (sent_parts (m_pages m)) (sent_parts (m_pages m'))).
Proof.
  intros Hw Hd Hn E. unfold encode, st_bind, st_ret in E.
  destruct (message_header_out w rand m Hw Hd) as (A & B).
  pose proof (headers_refused_is rand (m_headers m)) as HR.
  destruct (encode_message_header w rand m) as [[h|e0] m1] eqn:E1.
  2:{ assert (m' = m1) by congruence. assert (r = Err e0) by congruence. subst m1 r.
      assert (K : m_pages m' = m_pages m /\ m_parts m' = m_parts m /\ m_width m' = m_width m /\ m_height m' = m_height m).
      { apply header_left in E1; [|exact Hd]. cbv zeta in E1.
        repeat match type of E1 with context [match ?c with Ok _ => _ | Err _ => _ end] => destruct c end;
          try (destruct E1 as (_ & ->)); try subst m'; cbn; auto. }
      destruct K as (K1 & K2 & K3 & K4). repeat (split; [assumption|]). split; [|discriminate].
      apply rb_nothing; [|exact K1]. left. apply HR. exists e0. exact (A e0 m' eq_refl). }
  destruct (message_header_inv w rand m h m1 Hd E1) as (-> & _).
  assert (NH : ~ headers_refused rand (shown m)).
  { intros X. apply HR in X. destruct X as (e & X). destruct (B e X) as (e' & m2 & Y). congruence. }
  clear A B HR E1. unfold encode_message_body, st_bind, st_get, st_lift in E. rewrite smil_with_headers in E.
  destruct (smil_out render w m) as (S1 & S2). pose proof (sound_first_is w (m_pages m) Hn) as SF.
  destruct (smil render w m) as [text|e0].
  2:{ assert (m' = with_headers (dels sent_first (fix_rest rand (fix_message_type (renames (m_headers m))))) m) by congruence.
      assert (r = Err e0) by congruence. subst m' r. cbn [m_parts m_width m_height m_pages with_headers].
      repeat (split; [reflexivity|]). split; [|discriminate]. apply rb_nothing; [|reflexivity].
      right. apply SF. exists e0. exact (S1 e0 eq_refl). }
  assert (NS : ~ sound_first (m_pages m)).
  { intros X. apply SF in X. destruct X as (e & X). destruct (S2 e X) as (e' & Y). discriminate Y. }
  destruct (smil_sendable w text) as (T1 & T2).
  destruct (part_roundtrip w (smil_part text) text Hw T1 T2) as (sb & p1 & p' & E2 & _). rewrite E2 in E.
  cbn [fst m_pages with_headers m_headers m_parts m_width m_height] in E.
  destruct (encode_pages w (m_pages m)) as [r0 gs] eqn:P.
  destruct (pages_step w _ _ _ Hw P) as (P1 & P2).
  destruct r0 as [b|e0].
  - assert (X : m_pages m' = gs /\ m_parts m' = m_parts m /\ m_width m' = m_width m /\ m_height m' = m_height m).
    { apply (f_equal snd) in E. cbn [snd] in E. subst m'. auto. }
    destruct X as (-> & -> & -> & ->). repeat (split; [reflexivity|]). split; [|intros; exact P2].
    apply rb_parts; auto using all_in_turn.
  - assert (X : m_pages m' = gs /\ m_parts m' = m_parts m /\ m_width m' = m_width m /\ m_height m' = m_height m).
    { apply (f_equal snd) in E. cbn [snd] in E. subst m'. auto. }
    assert (r = Err e0) by congruence. subst r.
    destruct X as (-> & -> & -> & ->). repeat (split; [reflexivity|]). split; [|discriminate].
    apply rb_parts; auto using stopped_in_turn.
Qed.

(** * After any deeds *)

Lemma slide_added g m :
  (exists t, first_item (shown m (str "Content-Type")) t /\ held_by (snd (add_page g m)) =
     HoldsNow (m_pages m ++ [g]) (m_parts m) (m_width m) (m_height m)) \/
  ((forall t, ~ first_item (shown m (str "Content-Type")) t) /\ held_by (snd (add_page g m)) = held_by m).
Proof.
  unfold add_page, content_type, shown, st_bind, st_get, st_lift, st_upd, st_ret.
  change (d_get leqb (str "Content-Type") (m_headers m)) with (h_get (str "Content-Type") (m_headers m)).
  destruct (h_get (str "Content-Type") (m_headers m)) as [v|] eqn:E.
  2:{ right. split; [intros t H; inversion H|reflexivity]. }
  destruct (first_of v) as [t|e] eqn:F.
  2:{ right. split; [|reflexivity]. intros t H. apply first_item_iff in H. congruence. }
  left. exists t. split; [now apply first_item_iff|].
  destruct (leqb t (str "application/vnd.wap.multipart.related")); reflexivity.
Qed.

Lemma read_still w rand v gs gs' : read_by w rand v gs gs' -> Forall2 still_there gs gs'.
Proof.
  intros [_ ->|_ _ S T]; [apply still_refl|]. apply slides_keep; [exact S|]. eapply turn_keeps; eassumption.
Qed.

Lemma holding_inv render ds : slides_made ds -> orders_any ds ->
  Forall named (m_pages (after_deeds render ds new_message)) /\
  holding ds (held_by (after_deeds render ds new_message)).
Proof.
  induction ds as [|a ds IH] using rev_ind; intros Hs Ho.
  - split; constructor.
  - rewrite after_deed. destruct (told_inv render ds) as (Hd & T).
    destruct IH as (N & H).
    { intros g I. apply Hs, in_app_iff. now left. }
    { intros w rand I. apply (Ho w rand), in_app_iff. now left. }
    set (m := after_deeds render ds new_message) in *. clearbody m.
    destruct a as [k v|k|g|p|x y|w rand]; cbn [does].
    + split; [exact N|]. apply ho_give, H.
    + split; [exact N|]. apply ho_take, H.
    + destruct (slide_added g m) as [(t & F & E)|(F & E)]; rewrite E.
      * split.
        { apply (f_equal slides_now) in E. cbn [held_by slides_now] in E. rewrite E.
          apply Forall_app. split; [exact N|]. constructor; [|constructor].
          destruct (Hs g) as (cs & ->); [apply in_app_iff; right; now left|]. apply filled_named. }
        eapply ho_slide; [exact H|exact T|exact F].
      * split; [|eapply ho_slide_refused; eassumption].
        apply (f_equal slides_now) in E. cbn [held_by slides_now] in E. now rewrite E.
    + split; [exact N|]. apply ho_part, H.
    + split; [exact N|]. apply ho_screen with (x := m_width m) (y := m_height m), H.
    + assert (Hw : any_order w) by (apply (Ho w rand), in_app_iff; right; now left).
      destruct (encode render w rand m) as [r m'] eqn:E. cbn [snd].
      destruct (body_reads render w rand m r m' Hw Hd N E) as (A & B & C & D & _). split.
      * eapply still_named; [|exact N]. eapply read_still; eassumption.
      * unfold held_by. rewrite A, B, C. eapply ho_encode; [exact H|exact T|exact D].
Qed.

(** C130: after any deeds in any order, those that raised included, the message holds what
    SpecHolds.v tells: the slides accepted, in order, the parts attached, in order, the
    size last set, and of the files of the slides those that an [encode] has come to, as
    they were at the first one.  The slides are made by the calls of C128. *)
Theorem C130_holds : forall render ds, slides_made ds -> orders_any ds ->
  holding ds (held_by (after_deeds render ds new_message)).
Proof. intros render ds Hs Ho. exact (proj2 (holding_inv render ds Hs Ho)). Qed.
Print Assumptions C130_holds.

(** * SpecHolds.v leaves no choice *)

Lemma to_go_ext rand v w k u : (forall k, v k = w k) -> to_go rand v k u -> to_go rand w k u.
Proof.
  intros E.
  assert (N : nobody w <-> nobody v) by (unfold nobody; rewrite !E; tauto).
  assert (K : forall k o, asked v k o -> asked w k o).
  { intros k0 o [x u0 I H|x I H].
    - eapply asked_x; [exact I|]. now rewrite <- E.
    - rewrite E. eapply asked_k; [exact I|]. now rewrite <- E. }
  intros H; destruct H as [H|H H'|H|H|k u H H'].
  - apply go_type_none, K, H.
  - apply go_type_nobody; [apply K, H|apply N, H'].
  - apply go_id_none, K, H.
  - apply go_version_none, K, H.
  - apply go_asked; [apply K, H|]. rewrite N. exact H'.
Qed.
Lemma refused_ext rand v w : (forall k, v k = w k) -> headers_refused rand v -> headers_refused rand w.
Proof.
  intros E [k u e [k0 x u0 I T|k0 u0 N G] C R|G|u e G R].
  - eapply hs_header; [eapply out_first; [exact I|eapply to_go_ext; eassumption]|exact C|exact R].
  - eapply hs_header; [eapply out_other; [exact N|rewrite <- E; exact G]|exact C|exact R].
  - apply hs_no_type. now rewrite <- E.
  - eapply hs_type; [rewrite <- E; exact G|exact R].
Qed.
Lemma asked_data_fun w p q q' : asked_data w p q -> asked_data w p q' -> q = q'.
Proof. intros A B. destruct A; inversion B; subst; congruence. Qed.
Lemma turn_fun w ps qs : asked_in_turn w ps qs -> forall qs', asked_in_turn w ps qs' -> qs = qs'.
Proof.
  induction 1 as [|p p' ps ps' N A _ IH|p ps e R]; intros qs' H; inversion H; subst; try reflexivity.
  - f_equal; [eapply asked_data_fun; eassumption|auto].
  - match goal with X : part_refused w p ?e |- _ => destruct (N e X) end.
  - match goal with X : forall e, ~ part_refused w p e |- _ => destruct (X e R) end.
Qed.
Lemma slot_fun s t t' l l' : same_times s t -> same_times s t' ->
  slot_part t ++ l = slot_part t' ++ l' -> t = t' /\ l = l'.
Proof.
  destruct s as [[[p b] e]|], t as [[[q b1] e1]|], t' as [[[r b2] e2]|]; cbn [same_times slot_part app];
    try contradiction; [|auto]. intros (-> & ->) (-> & ->) H. injection H as -> ->. auto.
Qed.
Lemma slides_fun gs hs : Forall2 same_slide gs hs -> forall hs', Forall2 same_slide gs hs' ->
  sent_parts hs = sent_parts hs' -> hs = hs'.
Proof.
  induction 1 as [|g h gs hs (D & I & A & T) _ IH]; intros hs' H E; inversion H as [|? h' ? hs2 (D' & I' & A' & T') H2]; subst;
    [reflexivity|]. unfold sent_parts in E. cbn [flat_map] in E. rewrite <- !app_assoc in E.
  destruct (slot_fun _ _ _ _ _ I I' E) as (E1 & F). destruct (slot_fun _ _ _ _ _ A A' F) as (E2 & F').
  destruct (slot_fun _ _ _ _ _ T T' F') as (E3 & F2). f_equal; [|exact (IH _ H2 F2)].
  destruct h, h'; cbn in *; congruence.
Qed.
Lemma read_fun w rand v v' gs hs hs' : (forall k, v k = v' k) ->
  read_by w rand v gs hs -> read_by w rand v' gs hs' -> hs = hs'.
Proof.
  intros E A B. destruct A as [[R|R] ->|N S L T], B as [[R' |R'] ->|N' S' L' T']; try reflexivity.
  - destruct N'. eapply refused_ext; eassumption.
  - now destruct S'.
  - destruct N. eapply refused_ext; [|exact R']. intros k. symmetry. apply E.
  - now destruct S.
  - eapply slides_fun; [exact L|exact L'|]. eapply turn_fun; eassumption.
Qed.

Theorem C130_once : forall ds h h', holding ds h -> holding ds h' -> h = h'.
Proof.
  intros ds h h' H. revert h'.
  induction H as [|ds h k u H IH|ds h k H IH|ds gs ps x y v g t H IH T F|ds h v g H IH T F|ds gs ps x y p H IH
    |ds gs ps x y a b H IH|ds gs ps x y v w rand gs' H IH T R]; intros h' H2.
  - remember [] as l eqn:E. destruct H2; try (destruct ds; discriminate E). reflexivity.
  - remember (ds ++ [GiveHeader k u]) as l eqn:E. destruct H2;
      [destruct ds; discriminate E|apply app_inj_tail in E; destruct E as (-> & E); try discriminate E..]. auto.
  - remember (ds ++ [TakeHeader k]) as l eqn:E. destruct H2;
      [destruct ds; discriminate E|apply app_inj_tail in E; destruct E as (-> & E); try discriminate E..]. auto.
  - remember (ds ++ [AddSlide g]) as l eqn:E.
    destruct H2 as [| | |ds2 gs2 ps2 x2 y2 v2 g2 t2 H2 T2 F2|ds2 h2 v2 g2 H2 T2 F2| | |];
      [destruct ds; discriminate E|apply app_inj_tail in E; destruct E as (-> & E); try discriminate E..].
    + injection E as ->. specialize (IH _ H2). congruence.
    + exfalso. apply (F2 t). now rewrite (C127_once _ _ _ T2 T).
  - remember (ds ++ [AddSlide g]) as l eqn:E.
    destruct H2 as [| | |ds2 gs2 ps2 x2 y2 v2 g2 t2 H2 T2 F2|ds2 h2 v2 g2 H2 T2 F2| | |];
      [destruct ds; discriminate E|apply app_inj_tail in E; destruct E as (-> & E); try discriminate E..].
    + exfalso. apply (F t2). now rewrite (C127_once _ _ _ T T2).
    + auto.
  - remember (ds ++ [AttachPart p]) as l eqn:E.
    destruct H2 as [| | | | |ds2 gs2 ps2 x2 y2 p2 H2| |];
      [destruct ds; discriminate E|apply app_inj_tail in E; destruct E as (-> & E); try discriminate E..].
    injection E as ->. specialize (IH _ H2). congruence.
  - remember (ds ++ [PutScreen a b]) as l eqn:E.
    destruct H2 as [| | | | | |ds2 gs2 ps2 x2 y2 a2 b2 H2|];
      [destruct ds; discriminate E|apply app_inj_tail in E; destruct E as (-> & E); try discriminate E..].
    injection E as -> ->. specialize (IH _ H2). congruence.
  - remember (ds ++ [EncodeIt w rand]) as l eqn:E.
    destruct H2 as [| | | | | | |ds2 gs2 ps2 x2 y2 v2 w2 rand2 gs3 H2 T2 R2];
      [destruct ds; discriminate E|apply app_inj_tail in E; destruct E as (-> & E); try discriminate E..].
    injection E as -> ->. specialize (IH _ H2). injection IH as -> -> -> ->.
    rewrite (read_fun _ _ _ _ _ _ _ (C127_once _ _ _ T T2) R R2). reflexivity.
Qed.
Print Assumptions C130_once.

(** * What it means *)

Lemma slides_made_app a b : slides_made (a ++ b) -> slides_made a.
Proof. intros H g I. apply H, in_app_iff. now left. Qed.
Lemma orders_any_app a b : orders_any (a ++ b) -> orders_any a.
Proof. intros H w rand I. apply (H w rand), in_app_iff. now left. Qed.

(** Slides are never taken out, moved or changed, except that files are read; the parts
    attached stay as they are. *)
Theorem C130_kept : forall render ds more, slides_made (ds ++ more) -> orders_any (ds ++ more) ->
  exists gs gs' ps, Forall2 still_there (m_pages (after_deeds render ds new_message)) gs /\
    m_pages (after_deeds render (ds ++ more) new_message) = gs ++ gs' /\
    m_parts (after_deeds render (ds ++ more) new_message) = m_parts (after_deeds render ds new_message) ++ ps.
Proof.
  intros render ds more. induction more as [|a more IH] using rev_ind; intros Hs Ho.
  - rewrite !app_nil_r. exists (m_pages (after_deeds render ds new_message)), [], [].
    rewrite !app_nil_r. split; [apply still_refl|auto].
  - rewrite app_assoc in Hs, Ho |- *. rewrite after_deed.
    destruct (IH (slides_made_app _ _ Hs) (orders_any_app _ _ Ho)) as (gs & gs' & ps & S & E & F). clear IH.
    destruct (told_inv render (ds ++ more)) as (Hd & _).
    destruct (holding_inv render (ds ++ more) (slides_made_app _ _ Hs) (orders_any_app _ _ Ho)) as (N & _).
    set (m := after_deeds render (ds ++ more) new_message) in *. clearbody m.
    destruct a as [k v|k|g|p|x y|w rand]; cbn [does].
    + exists gs, gs', ps. auto.
    + exists gs, gs', ps. auto.
    + destruct (slide_added g m) as [(t & _ & G)|(_ & G)]; unfold held_by in G; injection G as -> -> _ _.
      * exists gs, (gs' ++ [g]), ps. rewrite E, app_assoc. auto.
      * exists gs, gs', ps. auto.
    + exists gs, gs', (ps ++ [p]). cbn [add_data_part m_pages m_parts]. rewrite F, app_assoc. auto.
    + exists gs, gs', ps. auto.
    + assert (Hw : any_order w) by (apply (Ho w rand), in_app_iff; right; now left).
      destruct (encode render w rand m) as [r m'] eqn:G. cbn [snd].
      destruct (body_reads render w rand m r m' Hw Hd N G) as (-> & _ & _ & D & _).
      apply read_still in D. rewrite E in D. apply Forall2_app_inv_l in D. destruct D as (l1 & l2 & D1 & D2 & ->).
      exists l1, l2, ps. split; [eapply still_trans; eassumption|auto].
Qed.
Print Assumptions C130_kept.

Lemma still_parts gs gs' : Forall2 still_there gs gs' -> Forall2 same_part (sent_parts gs) (sent_parts gs').
Proof.
  assert (S : forall s s', same_slot s s' -> Forall2 same_part (slot_part s) (slot_part s')).
  { intros [[[p b] e]|] [[[p' b'] e']|]; cbn [same_slot slot_part]; try contradiction; [|constructor].
    intros (_ & _ & H). constructor; [exact H|constructor]. }
  induction 1 as [|g g' gs gs' (_ & I & A & T) _ IH]; [constructor|]. unfold sent_parts. cbn [flat_map].
  repeat apply Forall2_app; auto.
Qed.
Lemma data_frozen w w' p q r : asked_data w p q -> same_part q r -> data_of w' r = data_of w p.
Proof.
  intros A (_ & _ & C & D). unfold data_of, get_data, st_bind, st_get, st_upd, st_ret.
  destruct A; cbn [dp_data dp_filename] in *.
  - rewrite D by (left; discriminate). now rewrite H.
  - rewrite D by (left; discriminate). reflexivity.
  - rewrite D by (now right). now rewrite C.
Qed.

(** Once a message was encoded, its slides keep the content the files had then, whatever
    happens to the files and whatever is done with the message. *)
Theorem C130_frozen : forall render ds w rand bytes more w',
  let m := after_deeds render ds new_message in
  slides_made (ds ++ EncodeIt w rand :: more) -> orders_any (ds ++ EncodeIt w rand :: more) ->
  fst (encode render w rand m) = Ok bytes ->
  exists ps later, sent_parts (m_pages (after_deeds render (ds ++ EncodeIt w rand :: more) new_message)) = ps ++ later /\
    Forall2 (fun p p' => data_of w' p' = data_of w p) (sent_parts (m_pages m)) ps.
Proof.
  intros render ds w rand bytes more w' m Hs Ho E.
  change (EncodeIt w rand :: more) with ([EncodeIt w rand] ++ more) in Hs, Ho |- *. rewrite app_assoc in Hs, Ho |- *.
  destruct (C130_kept render (ds ++ [EncodeIt w rand]) more Hs Ho) as (gs & gs' & _ & S & F & _).
  apply slides_made_app in Hs. apply orders_any_app in Ho. rewrite after_deed in S. cbn [does] in S. fold m in S.
  destruct (told_inv render ds) as (Hd & _).
  destruct (holding_inv render ds (slides_made_app _ _ Hs) (orders_any_app _ _ Ho)) as (N & _). fold m in Hd, N.
  assert (Hw : any_order w) by (apply (Ho w rand), in_app_iff; right; now left).
  destruct (encode render w rand m) as [r m'] eqn:G. cbn [fst snd] in *.
  destruct (body_reads render w rand m r m' Hw Hd N G) as (_ & _ & _ & _ & A). specialize (A bytes E).
  rewrite F. exists (sent_parts gs), (sent_parts gs'). split; [unfold sent_parts; apply flat_map_app|].
  apply still_parts in S. clear - A S. revert A S. generalize (sent_parts (m_pages m)) (sent_parts (m_pages m')) (sent_parts gs).
  intros a b c A. revert c. induction A as [|p q a b (_ & X) _ IH]; intros c S; inversion S; subst; constructor.
  - eapply data_frozen; eassumption.
  - auto.
Qed.
Print Assumptions C130_frozen.

(** An image that is replaced between two encodings: the second message announces one
    octet, the length of the file by then, and has the three of the old file.  A second
    slide, added while the message had no content type, was refused, and the encoding
    after it raised before it came to the files. *)
Definition disk (c : list Z) : world :=
  World (fun f => if leqb f (str "/a.gif") then Some c else None) (fun _ => Some (str "image/gif")) (fun d => d).
Definition picture : page := after_fills [FillImage (disk [7]) (str "/a.gif") 0 0; FillText (str "hi") 0 0].
Definition holds_deeds : list deed :=
  [AddSlide picture; EncodeIt (disk [1; 2; 3]) 5; PutScreen 320 240;
   TakeHeader (str "Content-Type"); AddSlide picture; EncodeIt (disk [4]) 6;
   GiveHeader (str "Content-Type") (HType related []); AttachPart new_part].
Example C130_case :
  slides_made holds_deeds /\ orders_any holds_deeds /\
  let m := after_deeds (fun _ => []) holds_deeds new_message in
  map dp_data (sent_parts (m_pages m)) = [Some [1; 2; 3]; Some (str "hi")] /\
  (m_width m, m_height m) = (320, 240) /\ m_parts m = [new_part] /\
  match fst (encode (fun _ => []) (disk [9]) 7 m) with
  | Ok bytes => exists a b, bytes = a ++ [1; 157; 142] ++ str "a.gif" ++ [0; 1; 2; 3] ++ b
  | _ => False end.
Proof.
  split; [|split; [|cbv zeta; split; [|split; [|split]]]].
  - intros g [E|[E|[E|[E|[E|[E|[E|[E|[]]]]]]]]]; try discriminate E; injection E as <-; eexists; reflexivity.
  - intros w rand [E|[E|[E|[E|[E|[E|[E|[E|[]]]]]]]]]; try discriminate E; injection E as <- <-; intros d; apply Permutation_refl.
  - vm_compute. reflexivity.
  - vm_compute. reflexivity.
  - vm_compute. reflexivity.
  - vm_compute. exists [140; 132; 152; 55; 0; 141; 144; 132; 179; 4; 35; 0; 97; 112; 112;
      108; 105; 99; 97; 116; 105; 111; 110; 47; 115; 109; 105; 108; 0;
      67; 111; 110; 116; 101; 110; 116; 45; 73; 68; 0; 60; 48; 48; 48; 48; 62; 0; 8], [1; 2; 131; 104; 105].
    reflexivity.
Qed.
