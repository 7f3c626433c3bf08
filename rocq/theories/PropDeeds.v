(** C127: the headers of a multimedia message after any sequence of calls. *)
From Coq Require Import Lia ZifyBool ZifyNat.
From Verif Require Import Py Iter Tables WspDec WspEnc Message MmsEnc SpecWsp SpecVersion WspClaims MmsClaims
  SpecRefuse SpecWritten SpecDeeds PyFacts WspFacts HeaderFacts MsgHeaderFacts RefuseFacts PropBroken PropWritten.
Open Scope Z_scope.

(** The message after a deed; [render] is the serialiser of the SMIL document. *)
Definition does (render : xml -> list Z) (a : deed) (m : message) : message :=
  match a with
  | GiveHeader k v => with_headers (d_set leqb k v (m_headers m)) m
  | TakeHeader k => with_headers (d_del leqb k (m_headers m)) m
  | AddSlide g => snd (add_page g m)
  | AttachPart p => add_data_part p m
  | PutScreen width height => Message (m_headers m) (m_pages m) (m_parts m) width height
  | EncodeIt w rand => snd (encode render w rand m)
  end.
Definition after_deeds (render : xml -> list Z) (ds : list deed) (m : message) : message :=
  fold_left (fun m a => does render a m) ds m.

Definition shown (m : message) : view := fun k => h_get k (m_headers m).

(** * One call of [encode] *)

Lemma headers_left render w rand m r m' k : is_dict (m_headers m) ->
  let D := fix_rest rand (fix_message_type (renames (m_headers m))) in
  encode render w rand m = (r, m') ->
  is_dict (m_headers m') /\
  h_get k (m_headers m') =
  match encode_entry (str "Message-Type") D with
  | Err _ => sent_headers rand (m_headers m) k
  | Ok _ =>
    if leqb k (str "Message-Type") then None else
    match encode_entry (str "Transaction-Id") D with
    | Err _ => sent_headers rand (m_headers m) k
    | Ok _ =>
      if leqb k (str "Transaction-Id") then None else
      match encode_entry (str "MMS-Version") D with
      | Err _ => sent_headers rand (m_headers m) k
      | Ok _ => if leqb k (str "MMS-Version") then None else sent_headers rand (m_headers m) k
      end
    end
  end.
Proof.
  intros Hd D E.
  assert (HD : is_dict D) by (apply is_dict_rest, is_dict_type, is_dict_renames, Hd).
  unfold encode, st_bind, st_ret in E.
  destruct (encode_message_header w rand m) as [r1 m1] eqn:E1.
  assert (F : m_headers m' = m_headers m1).
  { destruct r1; [|congruence]. destruct (encode_message_body render w m1) as [r2 m2] eqn:E2.
    apply message_body_headers in E2. destruct r2; congruence. }
  rewrite F. clear E F. apply header_left in E1; [|exact Hd]. fold D in E1. cbv zeta in E1.
  pose proof (sent_spec rand (m_headers m) k Hd) as S. fold D in S. rewrite <- S. clear S.
  destruct (encode_entry (str "Message-Type") D).
  2:{ destruct E1 as (_ & ->). auto. }
  destruct (encode_entry (str "Transaction-Id") D).
  2:{ destruct E1 as (_ & ->). cbn [with_headers m_headers]. rewrite h_get_del by exact HD.
      split; [apply is_dict_del, HD|reflexivity]. }
  destruct (encode_entry (str "MMS-Version") D).
  2:{ destruct E1 as (_ & ->). cbn [with_headers m_headers].
      rewrite !h_get_del by (repeat apply is_dict_del; exact HD). split; [repeat apply is_dict_del; exact HD|].
      destruct (leqb k (str "Message-Type")), (leqb k (str "Transaction-Id")); reflexivity. }
  subst m1. cbn [with_headers m_headers]. rewrite h_get_dels by exact HD. cbn [existsb sent_first].
  split; [apply is_dict_dels, HD|].
  destruct (leqb k (str "Message-Type")), (leqb k (str "Transaction-Id")), (leqb k (str "MMS-Version"));
    reflexivity.
Qed.

Lemma first_names k x : In (k, x) first_headers ->
  k = str "Message-Type" /\ x = str "X-Mms-Message-Type" \/
  k = str "Transaction-Id" /\ x = str "X-Mms-Transaction-Id" \/
  k = str "MMS-Version" /\ x = str "X-Mms-Version".
Proof. intros H. cbn [first_headers In] in H. intuition congruence. Qed.

Lemma asked_is v k x o : In (k, x) first_headers ->
  (asked v k o <-> o = match v x with Some u => Some u | None => v k end).
Proof.
  intros H. assert (U : forall x', In (k, x') first_headers -> x' = x).
  { intros x' H'. apply first_names in H, H'.
    destruct H as [(-> & ->)|[(-> & ->)|(-> & ->)]]; destruct H' as [(X & ->)|[(X & ->)|(X & ->)]];
      try reflexivity; discriminate X. }
  split.
  - intros [x' u H1 E|x' H1 E]; rewrite (U _ H1) in E; rewrite E; reflexivity.
  - intros ->. destruct (v x) eqn:E; [eapply asked_x; eassumption|eapply asked_k; eassumption].
Qed.

Lemma is_hstr_iff u s : is_hstr u s = true <-> u = HStr s.
Proof.
  unfold is_hstr, HStr. destruct u as [[]| | | |]; try (split; [discriminate|congruence]).
  rewrite leqb_eq. split; congruence.
Qed.

Lemma nobody_iff d : nobody (fun k => h_get k d) <->
  negb (h_mem (str "To") d) && negb (h_mem (str "Cc") d) && negb (h_mem (str "Bc") d) = true.
Proof.
  unfold nobody, h_mem. destruct (h_get (str "To") d), (h_get (str "Cc") d), (h_get (str "Bc") d); cbn;
    intuition congruence.
Qed.

Lemma to_go_is rand d k x u : In (k, x) first_headers ->
  (to_go rand (fun k => h_get k d) k u <-> sent_headers rand d k = Some u).
Proof.
  intros H. pose proof (fun o => asked_is (fun k => h_get k d) k x o H) as A.
  pose proof (nobody_iff d) as N. pose proof H as H0. apply first_names in H.
  unfold sent_headers. destruct H as [(-> & ->)|[(-> & ->)|(-> & ->)]]; keys; cbv zeta; cbv beta in A.
  - set (o := match h_get (str "X-Mms-Message-Type") d with Some u => Some u | None => h_get (str "Message-Type") d end) in *.
    clearbody o. split.
    + intros G. inversion G as [B|B C|B|B|k' u' B C]; subst; try discriminate.
      * apply A in B. subst o. reflexivity.
      * apply A in B. subst o. apply N in C. rewrite (proj2 (is_hstr_iff _ _) eq_refl).
        cbn [andb]. rewrite C. reflexivity.
      * apply A in B. subst o.
        destruct (is_hstr u (str "m-send-req")) eqn:E; [|reflexivity]. apply is_hstr_iff in E.
        cbn [andb]. destruct (_ && _ && _) eqn:F; [|reflexivity]. destruct C. tauto.
    + intros G. destruct o as [v|].
      * destruct (is_hstr v (str "m-send-req")) eqn:E; cbn [andb] in G.
        -- apply is_hstr_iff in E. subst v. destruct (_ && _ && _) eqn:F.
           ++ injection G as <-. apply go_type_nobody; [apply A; reflexivity|tauto].
           ++ injection G as <-. apply go_asked; [apply A; reflexivity|].
              intros (_ & _ & X). apply N in X. congruence.
        -- injection G as <-. apply go_asked; [apply A; reflexivity|]. intros (_ & X & _).
           apply is_hstr_iff in X. congruence.
      * injection G as <-. apply go_type_none. apply A. reflexivity.
  - set (o := match h_get (str "X-Mms-Transaction-Id") d with Some u => Some u | None => h_get (str "Transaction-Id") d end) in *.
    clearbody o. split.
    + intros G. inversion G as [B|B C|B|B|k' u' B C]; subst; try discriminate.
      * apply A in B. subst o. reflexivity.
      * apply A in B. subst o. reflexivity.
    + intros G. destruct o as [v|]; injection G as <-.
      * apply go_asked; [apply A; reflexivity|]. intros (X & _). discriminate X.
      * apply go_id_none. apply A. reflexivity.
  - set (o := match h_get (str "X-Mms-Version") d with Some u => Some u | None => h_get (str "MMS-Version") d end) in *.
    clearbody o. split.
    + intros G. inversion G as [B|B C|B|B|k' u' B C]; subst; try discriminate.
      * apply A in B. subst o. reflexivity.
      * apply A in B. subst o. reflexivity.
    + intros G. destruct o as [v|]; injection G as <-.
      * apply go_asked; [apply A; reflexivity|]. intros (X & _). discriminate X.
      * apply go_version_none. apply A. reflexivity.
Qed.

(** Each of the first headers is written or refused. *)
Lemma first_out rand d k x : is_dict d -> In (k, x) first_headers ->
  let D := fix_rest rand (fix_message_type (renames d)) in
  exists u, sent_headers rand d k = Some u /\
    ((exists b, encode_entry k D = Ok b) /\ (forall e, ~ header_refused k u e) \/
     (exists e, encode_entry k D = Err e /\ header_refused k u e)).
Proof.
  intros Hd H D.
  assert (G : exists u, sent_headers rand d k = Some u).
  { destruct (sent_headers rand d k) eqn:E; [eauto|]. exfalso. revert E. apply first_names in H.
    unfold sent_headers. destruct H as [(-> & _)|[(-> & _)|(-> & _)]]; keys; cbv zeta;
      repeat match goal with |- context [match ?c with _ => _ end] => destruct c end; discriminate. }
  destruct G as (u & G). exists u. split; [exact G|].
  pose proof (sent_spec rand d k Hd) as S. fold D in S. rewrite G in S.
  assert (Hct : k <> str "Content-Type").
  { apply first_names in H. destruct H as [(-> & _)|[(-> & _)|(-> & _)]]; discriminate. }
  assert (E : encode_entry k D = header_octets k u).
  { unfold encode_entry, header_octets. rewrite S. reflexivity. }
  rewrite E. destruct (header_octets k u) as [b|e] eqn:F.
  - left. split; [eauto|]. intros e X. apply header_out in X; [congruence|exact Hct].
  - right. exists e. split; [reflexivity|]. apply header_out; assumption.
Qed.

Lemma encode_left render w rand m r m' : is_dict (m_headers m) ->
  encode render w rand m = (r, m') -> left_by rand (shown m) (shown m').
Proof.
  intros Hd E. unfold shown. set (d := m_headers m) in *.
  pose proof (fun k => proj2 (headers_left render w rand m r m' k Hd E)) as L. cbv zeta in L. fold d in L.
  destruct (first_out rand d (str "Message-Type") (str "X-Mms-Message-Type") Hd ltac:(cbn [In first_headers]; auto)) as (u1 & S1 & O1).
  destruct (first_out rand d (str "Transaction-Id") (str "X-Mms-Transaction-Id") Hd ltac:(cbn [In first_headers]; auto)) as (u2 & S2 & O2).
  destruct (first_out rand d (str "MMS-Version") (str "X-Mms-Version") Hd ltac:(cbn [In first_headers]; auto)) as (u3 & S3 & O3).
  set (D := fix_rest rand (fix_message_type (renames d))) in *. clearbody D.
  assert (G1 := proj2 (to_go_is rand d (str "Message-Type") (str "X-Mms-Message-Type") u1 ltac:(cbn [In first_headers]; auto)) S1).
  assert (G2 := proj2 (to_go_is rand d (str "Transaction-Id") (str "X-Mms-Transaction-Id") u2 ltac:(cbn [In first_headers]; auto)) S2).
  assert (G3 := proj2 (to_go_is rand d (str "MMS-Version") (str "X-Mms-Version") u3 ltac:(cbn [In first_headers]; auto)) S3).
  assert (C : forall before k x after, first_headers = before ++ (k, x) :: after ->
    before = [] /\ k = str "Message-Type" \/
    before = [(str "Message-Type", str "X-Mms-Message-Type")] /\ k = str "Transaction-Id" \/
    before = [(str "Message-Type", str "X-Mms-Message-Type"); (str "Transaction-Id", str "X-Mms-Transaction-Id")]
      /\ k = str "MMS-Version").
  { intros before k x after H. unfold first_headers in H.
    destruct before as [|a [|b [|c before]]]; cbn [app] in H.
    - left. split; [reflexivity|congruence].
    - right. left. split; congruence.
    - right. right. split; congruence.
    - exfalso. injection H as _ _ _ H. destruct before; discriminate H. }
  constructor.
  - intros before k x after H W. rewrite L.
    assert (W' : forall k', In k' (map fst (before ++ [(k, x)])) -> forall u e, to_go rand (fun k => h_get k d) k' u ->
      ~ header_refused k' u e).
    { intros k' I u e. apply in_map_iff in I. destruct I as ((k1 & x1) & <- & I). exact (W k1 x1 u e I). }
    destruct (C _ _ _ _ H) as [(-> & ->)|[(-> & ->)|(-> & ->)]]; cbn [map fst app] in W'.
    + destruct O1 as [((b & ->) & _)|(e & _ & R)]; [keys; reflexivity|].
      destruct (W' (str "Message-Type") ltac:(cbn [In]; auto) _ e G1 R).
    + destruct O1 as [((b & ->) & _)|(e & _ & R)]; [|destruct (W' (str "Message-Type") ltac:(cbn [In]; auto) _ e G1 R)].
      destruct O2 as [((b2 & ->) & _)|(e & _ & R)]; [keys; reflexivity|].
      destruct (W' (str "Transaction-Id") ltac:(cbn [In]; auto) _ e G2 R).
    + destruct O1 as [((b & ->) & _)|(e & _ & R)]; [|destruct (W' (str "Message-Type") ltac:(cbn [In]; auto) _ e G1 R)].
      destruct O2 as [((b2 & ->) & _)|(e & _ & R)]; [|destruct (W' (str "Transaction-Id") ltac:(cbn [In]; auto) _ e G2 R)].
      destruct O3 as [((b3 & ->) & _)|(e & _ & R)]; [keys; reflexivity|].
      destruct (W' (str "MMS-Version") ltac:(cbn [In]; auto) _ e G3 R).
  - intros before k x after k' x' u e H I G R. rewrite L.
    assert (U : forall k0 x0 a b, In (k0, x0) first_headers -> to_go rand (fun k => h_get k d) k0 a ->
      sent_headers rand d k0 = Some b -> a = b).
    { intros k0 x0 a b I0 A B. apply (to_go_is rand d k0 x0 a I0) in A. congruence. }
    assert (F : forall k0 x0 u0, In (k0, x0) first_headers -> k' = k0 -> sent_headers rand d k0 = Some u0 ->
      header_refused k0 u0 e).
    { intros k0 x0 u0 I0 -> S. now rewrite <- (U _ _ _ _ I0 G S). }
    destruct (C _ _ _ _ H) as [(-> & ->)|[(-> & ->)|(-> & ->)]]; cbn [app In] in I.
    + exists u1. split; [exact G1|]. destruct I as [I|[]].
      pose proof (F (str "Message-Type") (str "X-Mms-Message-Type") u1 ltac:(cbn [In first_headers]; auto) ltac:(congruence) S1) as X.
      destruct O1 as [(_ & N)|(e' & -> & _)]; [destruct (N _ X)|]. exact S1.
    + exists u2. split; [exact G2|].
      destruct O1 as [((b1 & ->) & N1)|(e' & -> & _)]; [|exact S2]. keys.
      destruct O2 as [((b2 & ->) & N2)|(e' & -> & _)]; [|exact S2]. exfalso.
      destruct I as [I|[I|[]]].
      * exact (N1 _ (F (str "Message-Type") (str "X-Mms-Message-Type") u1 ltac:(cbn [In first_headers]; auto) ltac:(congruence) S1)).
      * exact (N2 _ (F (str "Transaction-Id") (str "X-Mms-Transaction-Id") u2 ltac:(cbn [In first_headers]; auto) ltac:(congruence) S2)).
    + exists u3. split; [exact G3|].
      destruct O1 as [((b1 & ->) & N1)|(e' & -> & _)]; [|exact S3]. keys.
      destruct O2 as [((b2 & ->) & N2)|(e' & -> & _)]; [|exact S3]. keys.
      destruct O3 as [((b3 & ->) & N3)|(e' & -> & _)]; [|exact S3]. exfalso.
      destruct I as [I|[I|[I|[]]]].
      * exact (N1 _ (F (str "Message-Type") (str "X-Mms-Message-Type") u1 ltac:(cbn [In first_headers]; auto) ltac:(congruence) S1)).
      * exact (N2 _ (F (str "Transaction-Id") (str "X-Mms-Transaction-Id") u2 ltac:(cbn [In first_headers]; auto) ltac:(congruence) S2)).
      * exact (N3 _ (F (str "MMS-Version") (str "X-Mms-Version") u3 ltac:(cbn [In first_headers]; auto) ltac:(congruence) S3)).
  - intros k x I. rewrite L. assert (X : sent_headers rand d x = None).
    { apply first_names in I. unfold sent_headers. destruct I as [(_ & ->)|[(_ & ->)|(_ & ->)]]; keys; reflexivity. }
    rewrite X. apply first_names in I. destruct I as [(_ & ->)|[(_ & ->)|(_ & ->)]]; keys;
      repeat match goal with |- context [match ?c with _ => _ end] => destruct c end; reflexivity.
  - intros k K. rewrite L.
    assert (N : forall s, In s (map fst first_headers ++ map snd first_headers) -> leqb k s = false).
    { intros s I. destruct (leqb k s) eqn:F; [|reflexivity]. apply leqb_eq in F. subst s. exfalso.
      apply in_app_iff in I. destruct I as [I|I]; apply in_map_iff in I; destruct I as ((a & b) & X & I);
        cbn [fst snd] in X; subst; destruct (K _ _ I); congruence. }
    assert (X : sent_headers rand d k = h_get k d).
    { unfold sent_headers. rewrite !N by (cbn [In first_headers map fst snd app]; tauto). reflexivity. }
    rewrite X, !N by (cbn [In first_headers map fst snd app]; tauto).
    repeat match goal with |- context [match ?c with _ => _ end] => destruct c end; reflexivity.
Qed.

(** * After any deeds *)

Lemma left_ext rand v v' w w' : (forall k, v k = w k) -> (forall k, v' k = w' k) ->
  left_by rand v v' -> left_by rand w w'.
Proof.
  intros E E' [A B C D].
  assert (N : nobody w <-> nobody v) by (unfold nobody; rewrite !E; tauto).
  assert (K : forall k o, asked w k o <-> asked v k o).
  { intros k o. split; intros [x u I H|x I H].
    - eapply asked_x; [exact I|]. now rewrite E.
    - rewrite <- E. eapply asked_k; [exact I|]. now rewrite E.
    - eapply asked_x; [exact I|]. now rewrite <- E.
    - rewrite E. eapply asked_k; [exact I|]. now rewrite <- E. }
  assert (G : forall k u, to_go rand w k u <-> to_go rand v k u).
  { intros k u. split; intros H; destruct H as [H|H H'|H|H|k u H H'].
    all: try (constructor; (apply K || apply N); exact H).
    all: try (apply go_type_nobody; [apply K; exact H|apply N; exact H']).
    all: apply go_asked; [apply K; exact H|rewrite N in H' || rewrite <- N in H'; exact H']. }
  constructor.
  - intros b k x a H W. rewrite <- E'. eapply A; [exact H|]. intros k' x' u e I T. apply (W k' x' u e I).
    now apply G.
  - intros b k x a k' x' u e H I T R. destruct (B b k x a k' x' u e H I) as (u' & T' & R').
    + now apply G.
    + exact R.
    + exists u'. split; [now apply G|]. now rewrite <- E'.
  - intros k x I. rewrite <- E'. exact (C k x I).
  - intros k H. rewrite <- E, <- E'. exact (D k H).
Qed.

Lemma new_shown k : at_first k (shown new_message k).
Proof.
  unfold shown, new_message, default_headers, m_headers, h_get. cbn [d_get].
  destruct (leqb k (str "Message-Type")) eqn:A; [apply leqb_eq in A; subst k; constructor|].
  destruct (leqb k (str "Transaction-Id")) eqn:B; [apply leqb_eq in B; subst k; constructor|].
  destruct (leqb k (str "MMS-Version")) eqn:C; [apply leqb_eq in C; subst k; constructor|].
  destruct (leqb k (str "Content-Type")) eqn:D; [apply leqb_eq in D; subst k; constructor|].
  constructor. intros [X|[X|[X|[X|[]]]]]; subst k.
  - now rewrite leqb_refl in A.
  - now rewrite leqb_refl in B.
  - now rewrite leqb_refl in C.
  - now rewrite leqb_refl in D.
Qed.

Lemma first_item_iff v t : first_item (Some v) t <-> first_of v = Ok t.
Proof.
  split.
  - intros H. inversion H; reflexivity.
  - destruct v as [[]| | | |]; cbn [first_of]; try discriminate; intros H;
      try (injection H as <-; constructor).
    match type of H with match ?s with _ => _ end = _ => destruct s as [|c s']; [discriminate|] end.
    injection H as <-. apply (fi_text c s').
Qed.

Lemma slide_shown g m : is_dict (m_headers m) ->
  is_dict (m_headers (snd (add_page g m))) /\
  ((exists t, first_item (shown m (str "Content-Type")) t /\ t <> related /\
     shown (snd (add_page g m)) (str "Content-Type") = Some (HType related []) /\
     forall k, k <> str "Content-Type" -> shown (snd (add_page g m)) k = shown m k) \/
   ((forall t, first_item (shown m (str "Content-Type")) t -> t = related) /\
     forall k, shown (snd (add_page g m)) k = shown m k)).
Proof.
  intros Hd. unfold add_page, content_type, shown, st_bind, st_get, st_lift, st_upd, st_ret. fold h_get.
  change (d_get leqb (str "Content-Type") (m_headers m)) with (h_get (str "Content-Type") (m_headers m)).
  destruct (h_get (str "Content-Type") (m_headers m)) as [v|] eqn:E.
  2:{ cbn [snd]. split; [exact Hd|]. right. split; [|reflexivity]. intros t H. inversion H. }
  destruct (first_of v) as [t|e] eqn:F.
  2:{ cbn [snd]. split; [exact Hd|]. right. split; [|reflexivity]. intros t H. apply first_item_iff in H. congruence. }
  pose proof F as F'. apply first_item_iff in F'.
  destruct (leqb t (str "application/vnd.wap.multipart.related")) eqn:T; cbn [snd m_headers with_headers].
  - apply leqb_eq in T. split; [exact Hd|]. right. split; [|reflexivity].
    intros t' H. apply first_item_iff in H. unfold related. congruence.
  - split; [apply is_dict_set, Hd|]. left. exists t. split; [exact F'|]. split.
    { unfold related. intros ->. rewrite leqb_refl in T. discriminate. }
    split; [rewrite h_get_set, leqb_refl; reflexivity|].
    intros k N. rewrite h_get_set. destruct (leqb k (str "Content-Type")) eqn:X; [|reflexivity].
    apply leqb_eq in X. contradiction.
Qed.

Lemma after_deed render ds a m : after_deeds render (ds ++ [a]) m = does render a (after_deeds render ds m).
Proof. unfold after_deeds. now rewrite fold_left_app. Qed.

Lemma told_inv render ds :
  is_dict (m_headers (after_deeds render ds new_message)) /\ told ds (shown (after_deeds render ds new_message)).
Proof.
  induction ds as [|a ds (Hd & T)] using rev_ind.
  - split; [|apply td_new, new_shown]. cbn [after_deeds fold_left m_headers new_message].
    unfold is_dict, default_headers. cbn [map fst].
    repeat constructor; cbn [In]; intuition discriminate.
  - rewrite after_deed. set (m := after_deeds render ds new_message) in *. clearbody m.
    destruct a as [k v|k|g|p|x y|w rand]; cbn [does].
    + split; [apply is_dict_set, Hd|]. eapply td_give; [exact T|..]; unfold shown; cbn [m_headers with_headers].
      * now rewrite h_get_set, leqb_refl.
      * intros k' N. rewrite h_get_set. destruct (leqb k' k) eqn:X; [|reflexivity]. apply leqb_eq in X. contradiction.
    + split; [apply is_dict_del, Hd|]. eapply td_take; [exact T|..]; unfold shown; cbn [m_headers with_headers].
      * now rewrite h_get_del, leqb_refl.
      * intros k' N. rewrite h_get_del by exact Hd.
        destruct (leqb k' k) eqn:X; [|reflexivity]. apply leqb_eq in X. contradiction.
    + destruct (slide_shown g m Hd) as (Hd' & [(t & A & B & C & D)|(A & B)]); split; try exact Hd'.
      * eapply td_slide; eassumption.
      * eapply td_slide_as_is; eassumption.
    + split; [exact Hd|]. eapply td_part; [exact T|reflexivity].
    + split; [exact Hd|]. eapply td_screen; [exact T|reflexivity].
    + destruct (encode render w rand m) as [r m'] eqn:E. cbn [snd]. split.
      * exact (proj1 (headers_left render w rand m r m' [] Hd E)).
      * eapply td_encode; [exact T|]. eapply encode_left; eassumption.
Qed.

(** C127: after any deeds in any order, those that raised included, each header of the
    message shows what SpecDeeds.v tells. *)
Theorem C127_after : forall render ds, told ds (shown (after_deeds render ds new_message)).
Proof. intros render ds. exact (proj2 (told_inv render ds)). Qed.
Print Assumptions C127_after.

(** * SpecDeeds.v leaves no choice *)

Lemma at_first_fun k a b : at_first k a -> at_first k b -> a = b.
Proof.
  intros H1 H2. inversion H1; subst; inversion H2; subst; try reflexivity;
    match goal with H : ~ In _ _ |- _ => exfalso; apply H; cbn [In]; auto end.
Qed.

Lemma first_item_fun v a b : first_item v a -> first_item v b -> a = b.
Proof. intros H1 H2. inversion H1; subst; inversion H2; subst; reflexivity. Qed.

Lemma asked_fun v k a b : asked v k a -> asked v k b -> a = b.
Proof.
  intros H1 H2. assert (exists x, In (k, x) first_headers) as (x & I) by (destruct H1; eauto).
  apply (asked_is v k x _ I) in H1, H2. congruence.
Qed.

Lemma to_go_fun rand v k a b : to_go rand v k a -> to_go rand v k b -> a = b.
Proof.
  intros H1 H2. destruct H1 as [A|A B|A|A|k a A B]; inversion H2 as [C|C D|C|C|k' b' C D]; subst;
    try reflexivity; pose proof (asked_fun _ _ _ _ A C) as X; try discriminate X; try congruence.
  - injection X as <-. destruct D. auto.
  - injection X as ->. destruct B. auto.
Qed.

Lemma left_fun rand v a b : left_by rand v a -> left_by rand v b ->
  (forall k x, In (k, x) first_headers -> exists u, to_go rand v k u) ->
  (forall k x u, In (k, x) first_headers ->
     (forall e, ~ header_refused k u e) \/ (exists e, header_refused k u e)) ->
  forall k, a k = b k.
Proof.
  intros [A1 A2 A3 A4] [B1 B2 B3 B4] G R k.
  assert (F : forall before k x after, first_headers = before ++ (k, x) :: after -> a k = b k).
  { intros before k0 x after H.
    assert (Q : forall l, (forall y, In y l -> In y first_headers) ->
      (forall k' x' u e, In (k', x') l -> to_go rand v k' u -> ~ header_refused k' u e) \/
      (exists k' x' u e, In (k', x') l /\ to_go rand v k' u /\ header_refused k' u e)).
    { induction l as [|(k1 & x1) l IH]; intros Hl; [left; intros ? ? ? ? []|].
      destruct IH as [IH|(k' & x' & u & e & I & T & X)]; [intros y I; apply Hl; now right| |].
      - destruct (G k1 x1 (Hl _ (or_introl eq_refl))) as (u & T). destruct (R k1 x1 u (Hl _ (or_introl eq_refl))) as [N|(e & X)].
        + left. intros k' x' u' e [I|I] T'; [|exact (IH k' x' u' e I T')].
          injection I as <- <-. rewrite (to_go_fun _ _ _ _ _ T' T). apply N.
        + right. exists k1, x1, u, e. split; [now left|auto].
      - right. exists k', x', u, e. split; [now right|auto]. }
    destruct (Q (before ++ [(k0, x)])) as [N|(k' & x' & u & e & I & T & X)].
    { intros y I. rewrite H. apply in_app_iff in I. apply in_app_iff. destruct I as [I|[I|[]]]; [auto|right; now left]. }
    - rewrite (A1 _ _ _ _ H N), (B1 _ _ _ _ H N). reflexivity.
    - destruct (A2 _ _ _ _ _ _ _ _ H I T X) as (u1 & T1 & ->).
      destruct (B2 _ _ _ _ _ _ _ _ H I T X) as (u2 & T2 & ->). now rewrite (to_go_fun _ _ _ _ _ T1 T2). }
  destruct (in_dec (list_eq_dec Z.eq_dec) k (map fst first_headers)) as [I|N1].
  { apply in_map_iff in I. destruct I as ((k0 & x) & <- & I). apply in_split in I. destruct I as (l1 & l2 & I).
    exact (F _ _ _ _ I). }
  destruct (in_dec (list_eq_dec Z.eq_dec) k (map snd first_headers)) as [I|N2].
  { apply in_map_iff in I. destruct I as ((k0 & x) & <- & I). cbn [snd]. now rewrite (A3 _ _ I), (B3 _ _ I). }
  assert (K : forall k' x', In (k', x') first_headers -> k <> k' /\ k <> x').
  { intros k' x' I. split; intros ->; [apply N1|apply N2]; apply in_map_iff; exists (k', x'); auto. }
  now rewrite (A4 k K), (B4 k K).
Qed.

Lemma to_go_exists rand v k x : In (k, x) first_headers -> exists u, to_go rand v k u.
Proof.
  intros I. pose proof (fun o => asked_is v k x o I) as A.
  set (o := match v x with Some u => Some u | None => v k end) in *. clearbody o.
  specialize (A o). pose proof (proj2 A eq_refl) as Q. destruct o as [u|].
  - destruct (list_eq_dec Z.eq_dec k (str "Message-Type")) as [->|N].
    + destruct (is_hstr u (str "m-send-req")) eqn:E.
      * apply is_hstr_iff in E. subst u.
        destruct (v (str "To")) eqn:T; [|destruct (v (str "Cc")) eqn:C; [|destruct (v (str "Bc")) eqn:B]].
        4:{ eexists. apply go_type_nobody; [exact Q|]. unfold nobody. auto. }
        all: eexists; apply go_asked; [exact Q|]; unfold nobody; intros (_ & _ & X); intuition congruence.
      * eexists. apply go_asked; [exact Q|]. intros (_ & X & _). apply is_hstr_iff in X. congruence.
    + eexists. apply go_asked; [exact Q|]. tauto.
  - apply first_names in I. destruct I as [(-> & _)|[(-> & _)|(-> & _)]]; eexists.
    + now apply go_type_none.
    + now apply go_id_none.
    + now apply go_version_none.
Qed.

Lemma refused_dec k u : k <> str "Content-Type" ->
  (forall e, ~ header_refused k u e) \/ (exists e, header_refused k u e).
Proof.
  intros N. destruct (header_octets k u) as [b|e] eqn:E.
  - left. intros e X. apply header_out in X; [congruence|exact N].
  - right. exists e. apply header_out; assumption.
Qed.

Theorem C127_once : forall ds v v', told ds v -> told ds v' -> forall k, v k = v' k.
Proof.
  intros ds v v' H. revert v'. induction H as
    [v A|ds v k u v1 T IH A B|ds v k v1 T IH A B|ds v g v1 t T IH A B C D|ds v g v1 T IH A B
     |ds v p v1 T IH A|ds v a b v1 T IH A|ds v w rand v1 T IH A]; intros v2 H2.
  - remember [] as l eqn:E. destruct H2 as [v2 A2| | | | | | |]; try (destruct ds; discriminate E).
    intros k. exact (at_first_fun _ _ _ (A k) (A2 k)).
  - remember (ds ++ [GiveHeader k u]) as l eqn:E. destruct H2;
      [destruct ds; discriminate E|apply app_inj_tail in E; destruct E as (-> & E); try discriminate E..].
    injection E as -> ->. intros k'. destruct (list_eq_dec Z.eq_dec k' k) as [->|N]; [congruence|].
    rewrite B by exact N. match goal with H : forall k', k' <> k -> v' k' = _ |- _ => rewrite H by exact N end.
    auto.
  - remember (ds ++ [TakeHeader k]) as l eqn:E. destruct H2;
      [destruct ds; discriminate E|apply app_inj_tail in E; destruct E as (-> & E); try discriminate E..].
    injection E as ->. intros k'. destruct (list_eq_dec Z.eq_dec k' k) as [->|N]; [congruence|].
    rewrite B by exact N. match goal with H : forall k', k' <> k -> v' k' = _ |- _ => rewrite H by exact N end.
    auto.
  - remember (ds ++ [AddSlide g]) as l eqn:E. destruct H2 as
      [| | |ds2 w2 g2 w3 t2 T2 A2 B2 C2 D2|ds2 w2 g2 w3 T2 A2 B2| | |];
      [destruct ds; discriminate E|apply app_inj_tail in E; destruct E as (-> & E); try discriminate E..].
    + intros k. destruct (list_eq_dec Z.eq_dec k (str "Content-Type")) as [->|N]; [congruence|].
      rewrite D, D2 by exact N. auto.
    + rewrite (IH _ T2) in A. destruct (B (A2 _ A)).
  - remember (ds ++ [AddSlide g]) as l eqn:E. destruct H2 as
      [| | |ds2 w2 g2 w3 t2 T2 A2 B2 C2 D2|ds2 w2 g2 w3 T2 A2 B2| | |];
      [destruct ds; discriminate E|apply app_inj_tail in E; destruct E as (-> & E); try discriminate E..].
    + rewrite <- (IH _ T2) in A2. destruct (B2 (A _ A2)).
    + intros k. rewrite B, B2. auto.
  - remember (ds ++ [AttachPart p]) as l eqn:E. destruct H2 as
      [| | | | |ds2 w2 p2 w3 T2 A2| |];
      [destruct ds; discriminate E|apply app_inj_tail in E; destruct E as (-> & E); try discriminate E..].
    intros k. rewrite A, A2. auto.
  - remember (ds ++ [PutScreen a b]) as l eqn:E. destruct H2 as
      [| | | | | |ds2 w2 a2 b2 w3 T2 A2|];
      [destruct ds; discriminate E|apply app_inj_tail in E; destruct E as (-> & E); try discriminate E..].
    intros k. rewrite A, A2. auto.
  - remember (ds ++ [EncodeIt w rand]) as l eqn:E. destruct H2 as
      [| | | | | | |ds2 w2 w0 rand2 w3 T2 A2];
      [destruct ds; discriminate E|apply app_inj_tail in E; destruct E as (-> & E); try discriminate E..].
    injection E as -> ->. apply (left_fun rand v).
    + exact A.
    + eapply left_ext; [|reflexivity|exact A2]. intros k. symmetry. auto.
    + intros k x. apply to_go_exists.
    + intros k x u I. apply refused_dec. apply first_names in I.
      destruct I as [(-> & _)|[(-> & _)|(-> & _)]]; discriminate.
Qed.
Print Assumptions C127_once.

(** * What it means *)

(** A header that is none of the first ones, by either name, nor the content type shows
    the value last given to it, unless it was taken away since. *)
Theorem C127_plain : forall render ds k,
  (forall k' x', In (k', x') first_headers -> k <> k' /\ k <> x') -> k <> str "Content-Type" ->
  ((forall a o, In a ds -> ~ given k a o) -> shown (after_deeds render ds new_message) k = None) /\
  (forall before a o after, ds = before ++ a :: after -> given k a o ->
     (forall a' o', In a' after -> ~ given k a' o') ->
     shown (after_deeds render ds new_message) k = o).
Proof.
  intros render ds k K Kc.
  assert (S : forall a m, is_dict (m_headers m) -> (forall o, ~ given k a o) -> shown (does render a m) k = shown m k).
  { intros a m Hd N. destruct a as [k' v|k'|g|p|x y|w rand]; cbn [does].
    - unfold shown. cbn [m_headers with_headers]. rewrite h_get_set. destruct (leqb k k') eqn:E; [|reflexivity].
      apply leqb_eq in E. subst k'. destruct (N (Some v)). constructor.
    - unfold shown. cbn [m_headers with_headers]. rewrite h_get_del by exact Hd.
      destruct (leqb k k') eqn:E; [|reflexivity].
      apply leqb_eq in E. subst k'. destruct (N None). constructor.
    - destruct (slide_shown g m Hd) as (_ & [(t & _ & _ & _ & D)|(_ & B)]); auto.
    - reflexivity.
    - reflexivity.
    - destruct (encode render w rand m) as [r m'] eqn:E. cbn [snd].
      exact (l_kept _ _ _ (encode_left render w rand m r m' Hd E) k K). }
  assert (R : forall after before, (forall a' o', In a' after -> ~ given k a' o') ->
    shown (after_deeds render (before ++ after) new_message) k = shown (after_deeds render before new_message) k).
  { induction after as [|a after IH] using rev_ind; intros before N; [now rewrite app_nil_r|].
    rewrite app_assoc, after_deed, S.
    - apply IH. intros a' o' I. apply N. apply in_app_iff. now left.
    - apply told_inv.
    - intros o. apply N. apply in_app_iff. right. now left. }
  split.
  - intros N. pose proof (R ds [] N) as Q. cbn [app] in Q. rewrite Q. clear Q. pose proof (new_shown k) as A. cbn [after_deeds fold_left].
    destruct A; try reflexivity; exfalso.
    + destruct (K (str "Message-Type") (str "X-Mms-Message-Type")); [cbn [In first_headers]; auto|congruence].
    + destruct (K (str "Transaction-Id") (str "X-Mms-Transaction-Id")); [cbn [In first_headers]; auto|congruence].
    + destruct (K (str "MMS-Version") (str "X-Mms-Version")); [cbn [In first_headers]; auto|congruence].
    + congruence.
  - intros before a o after -> G N. change (a :: after) with ([a] ++ after). rewrite app_assoc, R by exact N.
    rewrite after_deed. destruct G as [v|]; unfold shown; cbn [does m_headers with_headers].
    + now rewrite h_get_set, leqb_refl.
    + rewrite h_get_del, leqb_refl; [reflexivity|apply told_inv].
Qed.
Print Assumptions C127_plain.

(** A message that was encoded, successfully or not, and not given a type since goes out
    as a retrieve confirmation, however it is changed; unless the type it had then was a
    content type, which cannot be written. *)
Theorem C127_type : forall render ds w rand after w2 rand2 bytes m',
  (forall v, In (GiveHeader (str "Message-Type") v) ds \/ In (GiveHeader (str "X-Mms-Message-Type") v) ds ->
     forall t ps, v <> HType t ps) ->
  (forall v, ~ In (GiveHeader (str "Message-Type") v) after /\
             ~ In (GiveHeader (str "X-Mms-Message-Type") v) after) ->
  encode render w2 rand2 (after_deeds render (ds ++ EncodeIt w rand :: after) new_message) = (Ok bytes, m') ->
  exists more, bytes = 140 :: 132 :: more.
Proof.
  intros render ds w rand after w2 rand2 bytes m' Ht Ha E.
  set (m := after_deeds render (ds ++ EncodeIt w rand :: after) new_message) in *.
  assert (N : shown m (str "Message-Type") = None /\ shown m (str "X-Mms-Message-Type") = None).
  2:{ destruct N as (N1 & N2).
      destruct (encode_inv _ _ _ _ _ _ E) as (h & b & m0 & F1 & _ & -> & _).
      assert (Hd : is_dict (m_headers m)) by apply told_inv.
      destruct (message_header_inv _ _ _ _ _ Hd F1) as (_ & v & n & more & F2 & F3 & ->).
      rewrite sent_type_missing in F2 by (intros X; now apply X).
      assert (v = HStr (str "m-retrieve-conf")) by congruence. subst v.
      assert (n = 132) by (vm_compute in F3; congruence). subst n. eexists. reflexivity. }
  clear E. subst m. change (EncodeIt w rand :: after) with ([EncodeIt w rand] ++ after). rewrite app_assoc.
  induction after as [|a after IH] using rev_ind.
  - rewrite app_nil_r, after_deed. cbn [does].
    assert (TI := told_inv render ds). destruct TI as (Hd & _).
    assert (V : forall v, shown (after_deeds render ds new_message) (str "Message-Type") = Some v \/
                shown (after_deeds render ds new_message) (str "X-Mms-Message-Type") = Some v ->
                forall t ps, v <> HType t ps).
    { clear Hd. induction ds as [|a ds IHd] using rev_ind.
      - intros v [X|X]; vm_compute in X; [injection X as <-|discriminate X]. intros t ps Y. discriminate Y.
      - rewrite after_deed.
        assert (IH : forall v, shown (after_deeds render ds new_message) (str "Message-Type") = Some v \/
                shown (after_deeds render ds new_message) (str "X-Mms-Message-Type") = Some v ->
                forall t ps, v <> HType t ps).
        { apply IHd. intros v I. apply Ht. destruct I as [I|I]; [left|right]; apply in_app_iff; now left. }
        destruct (told_inv render ds) as (Hd & _).
        set (m := after_deeds render ds new_message) in *. clearbody m. clear IHd.
        destruct a as [k v|k|g|p|x y|w' r']; cbn [does].
        + unfold shown. cbn [m_headers with_headers]. rewrite !h_get_set. intros u [X|X].
          * destruct (leqb (str "Message-Type") k) eqn:F; [|apply IH; now left].
            apply leqb_eq in F. subst k. injection X as <-. apply Ht. left. apply in_app_iff. right. now left.
          * destruct (leqb (str "X-Mms-Message-Type") k) eqn:F; [|apply IH; now right].
            apply leqb_eq in F. subst k. injection X as <-. apply Ht. right. apply in_app_iff. right. now left.
        + unfold shown. cbn [m_headers with_headers]. rewrite !h_get_del by exact Hd. intros u [X|X].
          * destruct (leqb (str "Message-Type") k) eqn:F; [discriminate|apply IH; now left].
          * destruct (leqb (str "X-Mms-Message-Type") k) eqn:F; [discriminate|apply IH; now right].
        + destruct (slide_shown g m Hd) as (_ & [(t & _ & _ & _ & D)|(_ & B)]).
          * rewrite !D by discriminate. exact IH.
          * rewrite !B. exact IH.
        + exact IH.
        + exact IH.
        + destruct (encode render w' r' m) as [r m'2] eqn:E. cbn [snd].
          pose proof (encode_left render w' r' m r m'2 Hd E) as [L1 L2 L3 L4].
          rewrite (L3 (str "Message-Type") (str "X-Mms-Message-Type")) by (cbn [In first_headers]; auto).
          intros u [X|X]; [|discriminate X].
          destruct (to_go_exists r' (shown m) (str "Message-Type") (str "X-Mms-Message-Type")) as (u0 & G);
            [cbn [In first_headers]; auto|].
          assert (Hu : forall t ps, u0 <> HType t ps).
          { intros t ps ->. inversion G as [|B C| | |k' u' B C]; subst.
            apply (asked_is _ _ (str "X-Mms-Message-Type")) in B; [|cbn [In first_headers]; auto].
            destruct (shown m (str "X-Mms-Message-Type")) as [z|] eqn:Z.
            - eapply (IH z); [now right|]. injection B as <-. reflexivity.
            - eapply (IH (HType t ps)); [left; now symmetry|reflexivity]. }
          rewrite (L1 [] (str "Message-Type") (str "X-Mms-Message-Type") _ eq_refl) in X; [discriminate X|].
          intros k' x' u' e [I|[]] G' R'. injection I as <- <-. rewrite (to_go_fun _ _ _ _ _ G' G) in R'.
          inversion R'; subst; try discriminate; try (eapply Hu; reflexivity).
          all: match goal with H : In _ _ |- _ => revert H | H : ~ In _ _ |- _ => apply H end;
            vm_compute; intuition discriminate. }
    set (m := after_deeds render ds new_message) in *. clearbody m.
    destruct (encode render w rand m) as [r m'2] eqn:E. cbn [snd].
    pose proof (encode_left render w rand m r m'2 Hd E) as [L1 L2 L3 L4].
    split; [|apply (L3 (str "Message-Type")); cbn [In first_headers]; auto].
    apply (L1 [] (str "Message-Type") (str "X-Mms-Message-Type") _ eq_refl).
    intros k' x' u' e [I|[]] G R'. injection I as <- <-.
    assert (Hu : forall t ps, u' <> HType t ps).
    { intros t ps ->. inversion G as [|B C| | |k' u'' B C]; subst.
      apply (asked_is _ _ (str "X-Mms-Message-Type")) in B; [|cbn [In first_headers]; auto].
      destruct (shown m (str "X-Mms-Message-Type")) as [z|] eqn:Z.
      - eapply (V z); [now right|]. injection B as <-. reflexivity.
      - eapply (V (HType t ps)); [left; now symmetry|reflexivity]. }
    inversion R'; subst; try discriminate; try (eapply Hu; reflexivity).
    all: match goal with H : In _ _ |- _ => revert H | H : ~ In _ _ |- _ => apply H end;
      vm_compute; intuition discriminate.
  - rewrite app_assoc, after_deed.
    destruct IH as (N1 & N2).
    { intros v. destruct (Ha v) as (A & B). split; intros I; [apply A|apply B]; apply in_app_iff; now left. }
    destruct (told_inv render ((ds ++ [EncodeIt w rand]) ++ after)) as (Hd & _).
    set (m := after_deeds render ((ds ++ [EncodeIt w rand]) ++ after) new_message) in *. clearbody m.
    destruct a as [k v|k|g|p|x y|w' r']; cbn [does].
    + destruct (Ha v) as (A & B). unfold shown in *. cbn [m_headers with_headers]. rewrite !h_get_set.
      split.
      * destruct (leqb (str "Message-Type") k) eqn:F; [|exact N1]. apply leqb_eq in F. subst k.
        destruct A. apply in_app_iff. right. now left.
      * destruct (leqb (str "X-Mms-Message-Type") k) eqn:F; [|exact N2]. apply leqb_eq in F. subst k.
        destruct B. apply in_app_iff. right. now left.
    + unfold shown in *. cbn [m_headers with_headers]. rewrite !h_get_del, N1, N2 by exact Hd.
      split; destruct (leqb _ k); reflexivity.
    + destruct (slide_shown g m Hd) as (_ & [(t & _ & _ & _ & D)|(_ & B)]).
      * rewrite !D by discriminate. auto.
      * rewrite !B. auto.
    + auto.
    + auto.
    + destruct (encode render w' r' m) as [r m'2] eqn:E. cbn [snd].
      pose proof (encode_left render w' r' m r m'2 Hd E) as [L1 L2 L3 L4].
      split; [|apply (L3 (str "Message-Type")); cbn [In first_headers]; auto].
      apply (L1 [] (str "Message-Type") (str "X-Mms-Message-Type") _ eq_refl).
      intros k' x' u' e [I|[]] G R'. injection I as <- <-.
      assert (u' = HStr (str "m-retrieve-conf")) as ->.
      { inversion G as [|B C| | |k' u'' B C]; subst; try reflexivity.
        apply (asked_is _ _ (str "X-Mms-Message-Type")) in B; [|cbn [In first_headers]; auto].
        rewrite N1, N2 in B. discriminate B. }
      inversion R'; subst; try discriminate.
      all: match goal with H : In _ _ |- _ => revert H | H : ~ In _ _ |- _ => apply H end;
        vm_compute; intuition discriminate.
Qed.
Print Assumptions C127_type.

(** What [encode] returns after the deeds is written by SpecWritten.v for any headers the
    deeds tell. *)
Theorem C127_sent : forall render ds w rand d bytes m',
  any_order w -> told ds (fun k => h_get k d) ->
  let m := after_deeds render ds new_message in
  encode render w rand m = (Ok bytes, m') ->
  exists text, smil render w m = Ok text /\ message_written w rand (with_headers d m) text bytes.
Proof.
  intros render ds w rand d bytes m' Hw T m E.
  destruct (told_inv render ds) as (Hd & T'). fold m in Hd, T'.
  destruct (C123_octets render w rand m bytes m' Hw Hd E) as (text & S & W). exists text. split; [exact S|].
  pose proof (C127_once _ _ _ T' T) as Q. unfold shown in Q. cbv beta in Q.
  assert (X : forall k, sent_headers rand (m_headers m) k = sent_headers rand d k).
  { intros k. unfold sent_headers, h_mem. now rewrite !Q. }
  destruct W as [firsts others bs u ty ps ct count sm es W1 W2 W3 W4 W5 W0 W6 W7 W8 W9].
  eapply message_is; cbn [m_headers with_headers m_pages m_parts]; eauto.
  - eapply Forall2_impl; [|exact W1]. intros k b (v & A & B). exists v. now rewrite <- X.
  - intros k v. rewrite W3, X. tauto.
  - rewrite <- X. exact W5.
Qed.
Print Assumptions C127_sent.

(** A send request is encoded; then its version is set to something that cannot be
    written, so the next attempt fails after the two headers before it and leaves it
    there.  Once it is taken away the message goes out, as a retrieve confirmation. *)
Definition no_files : world := World (fun _ => None) (fun _ => None) (fun d => d).
Definition some_deeds : list deed :=
  [GiveHeader (str "To") (HStr (str "a@b")); AddSlide new_page; EncodeIt no_files 1111;
   GiveHeader (str "MMS-Version") (HInt 1); GiveHeader (str "X-Mms-Transaction-Id") (HStr (str "7"));
   EncodeIt no_files 2222; TakeHeader (str "Cc"); GiveHeader (str "Subject") (HStr (str "five"))].
Example C127_case :
  let m := after_deeds (fun _ => []) some_deeds new_message in
  shown m (str "Message-Type") = None /\ shown m (str "Transaction-Id") = None /\
  shown m (str "MMS-Version") = Some (HInt 1) /\ shown m (str "X-Mms-Transaction-Id") = None /\
  shown m (str "Content-Type") = Some (HType related []) /\
  shown m (str "Subject") = Some (HStr (str "five")) /\
  fst (encode (fun _ => []) no_files 3333 m) = Err TypeError /\
  match encode (fun _ => []) no_files 3333 (does (fun _ => []) (TakeHeader (str "MMS-Version")) m) with
  | (Ok bytes, _) => firstn 10 bytes = [140; 132; 152] ++ str "3333" ++ [0; 141; 144]
  | _ => False end.
Proof. vm_compute. repeat split; reflexivity. Qed.
