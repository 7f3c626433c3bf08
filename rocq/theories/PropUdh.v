(** C106: the user data header parser on all octet strings.  The vocabulary is in
    SpecUdh.v. *)
From Coq Require Import Lia ZifyBool ZifyNat.
From Verif Require Import Py PyFacts SpecPack SpecDeliver SpecUdh Udh UdhFacts.
Open Scope Z_scope.

(** What the object shows after the elements [els]. *)
Definition shows_elements (els : list element) (u : udh) : Prop :=
  concat_view u = concatenation (map essence els) /\
  ports_view u = port_addresses (map essence els) /\
  forall i, d_get Z.eqb i (h_headers u) = element_data i els.

Lemma map_snoc {A B} (f : A -> B) l x : map f (l ++ [x]) = map f l ++ [f x].
Proof. now rewrite map_app. Qed.

Lemma essence_fst e : fst (essence e) = fst e.
Proof. destruct e as [i d]. cbn. now destruct ((i =? 8) || (i =? 5)). Qed.

Lemma udh_element_shows els u i d :
  shows_elements els u -> Forall octet d -> right_size (i, d) ->
  exists u', udh_element i d u = Ok u' /\ shows_elements (els ++ [(i, d)]) u'.
Proof.
  intros (Hc & Hp & Hh) Hd (O0 & O8 & O4 & O5). unfold udh_element. cbn zeta.
  assert (forall j, d_get Z.eqb j (d_set Z.eqb i d (h_headers u)) =
                    element_data j (els ++ [(i, d)])) as Hh'.
  { intros j. unfold element_data. rewrite last_such_snoc. cbn [fst].
    destruct (Z.eq_dec i j) as [->|Hne].
    - rewrite Z.eqb_refl. cbn. rewrite d_get_set_same by exact Zeqb_spec. reflexivity.
    - destruct (i =? j) eqn:E; [lia|]. rewrite d_get_set_other by (auto using Zeqb_spec).
      apply Hh. }
  unfold shows_elements, concatenation, port_addresses. rewrite !map_snoc, !last_such_snoc, !essence_fst.
  cbn [fst].
  destruct (i =? 0) eqn:E0; [|destruct (i =? 8) eqn:E8; [|destruct (i =? 4) eqn:E4;
    [|destruct (i =? 5) eqn:E5]]].
  - assert (i = 0) by lia. subst i. specialize (O0 eq_refl).
    destruct d as [|a [|b [|c [|]]]]; try discriminate. cbn [bind h_concat h_ports h_headers].
    eexists. split; [reflexivity|]. cbn. auto.
  - assert (i = 8) by lia. subst i. specialize (O8 eq_refl).
    destruct d as [|a [|b [|c [|e tl]]]]; try (cbn in O8; lia).
    pose proof (Forall_inv Hd) as Ha. pose proof (Forall_inv (Forall_inv_tail Hd)) as Hb.
    cbn [bind h_concat h_ports h_headers].
    assert (forall k x, nth_error (a :: b :: c :: e :: tl) (Z.to_nat k) = Some x -> 0 <= k < 4 ->
      py_index (a :: b :: c :: e :: tl) k = Ok x) as Hi.
    { intros k x Hk Hr. unfold py_index. destruct (k <? 0) eqn:Ek; [lia|].
      try rewrite Hk; try reflexivity.
      all: try (unfold zlen; cbn [length]; destruct (_ <? _) eqn:?; try lia; now rewrite ?Hk). }
    rewrite (Hi 0 a), (Hi 1 b), (Hi 2 c), (Hi 3 e) by (try reflexivity; lia).
    eexists. split; [reflexivity|]. cbn [h_concat h_ports h_headers concat_view ports_view].
    split; [|auto]. unfold concat_view. cbn -[Z.lor Z.shiftl Z.mul Z.add]. unfold octet in *.
    rewrite lor_shift8 by lia. do 3 f_equal. lia.
  - assert (i = 4) by lia. subst i. specialize (O4 eq_refl).
    destruct d as [|a [|b [|]]]; try discriminate. cbn [bind h_concat h_ports h_headers].
    eexists. split; [reflexivity|]. cbn. auto.
  - assert (i = 5) by lia. subst i. specialize (O5 eq_refl).
    destruct d as [|a [|b [|c [|e tl]]]]; try (cbn in O5; lia).
    pose proof (Forall_inv Hd) as Ha. pose proof (Forall_inv (Forall_inv_tail Hd)) as Hb.
    pose proof (Forall_inv (Forall_inv_tail (Forall_inv_tail Hd))) as Hc'.
    pose proof (Forall_inv (Forall_inv_tail (Forall_inv_tail (Forall_inv_tail Hd)))) as He.
    cbn [bind h_concat h_ports h_headers].
    assert (forall k x, nth_error (a :: b :: c :: e :: tl) (Z.to_nat k) = Some x -> 0 <= k < 4 ->
      py_index (a :: b :: c :: e :: tl) k = Ok x) as Hi.
    { intros k x Hk Hr. unfold py_index. destruct (k <? 0) eqn:Ek; [lia|].
      try rewrite Hk; try reflexivity.
      all: try (unfold zlen; cbn [length]; destruct (_ <? _) eqn:?; try lia; now rewrite ?Hk). }
    rewrite (Hi 0 a), (Hi 1 b), (Hi 2 c), (Hi 3 e) by (try reflexivity; lia).
    eexists. split; [reflexivity|]. cbn [h_concat h_ports h_headers concat_view ports_view].
    split; [exact Hc|]. split; [|auto]. unfold ports_view. cbn -[Z.lor Z.shiftl Z.mul Z.add]. unfold octet in *.
    rewrite !lor_shift8 by lia. do 2 f_equal; lia.
  - cbn [bind orb]. eexists. split; [reflexivity|]. cbn. auto.
Qed.

Lemma right_size_dec e : right_size e \/ ~ right_size e.
Proof. destruct e as [i d]. unfold right_size. lia. Qed.

Lemma py_index_short {A} (l : list A) k : (length l <= Z.to_nat k)%nat -> 0 <= k ->
  py_index l k = Err IndexError.
Proof.
  intros H Hk. unfold py_index. destruct (k <? 0) eqn:E; [lia|]. rewrite E.
  apply nth_error_None in H. now rewrite H.
Qed.

Lemma udh_element_wrong i d u : ~ right_size (i, d) -> exists e, udh_element i d u = Err e.
Proof.
  intros H. unfold udh_element. cbn zeta. unfold right_size in H.
  destruct (i =? 0) eqn:E0.
  { destruct d as [|a [|b [|c [|]]]]; try (eexists; reflexivity). cbn [length] in H. lia. }
  cbn [bind]. destruct (i =? 8) eqn:E8; [|destruct (i =? 4) eqn:E4; [|destruct (i =? 5) eqn:E5]].
  - assert (length d < 4)%nat by lia.
    destruct d as [|a [|b [|c [|]]]]; try (eexists; reflexivity). cbn [length] in *. lia.
  - destruct d as [|a [|b [|]]]; try (eexists; reflexivity). cbn [length] in H. lia.
  - assert (length d < 4)%nat by lia.
    destruct d as [|a [|b [|c [|]]]]; try (eexists; reflexivity). cbn [length] in *. lia.
  - lia.
Qed.

Lemma found_head i n data els : found (i :: n :: data) els ->
  exists els', els = (i, py_to data n) :: els'.
Proof.
  intros F. inversion F as [|i' d' rest' els' F'|i' n' d' Hl]; subst.
  - exists els'. now rewrite py_to_app.
  - exists []. rewrite py_to_all; [reflexivity|]. unfold zlen. lia.
Qed.

Lemma found_tail i n data e els : found (i :: n :: data) (e :: els) -> found (py_from data n) els.
Proof.
  intros F. inversion F as [|i' d' rest' els' F'|i' n' d' Hl]; subst.
  - now rewrite py_from_app.
  - unfold py_from. rewrite skipn_all2 by lia. constructor.
Qed.

Lemma udh_loop_found fuel : forall data done u,
  Forall octet data -> (length data <= fuel)%nat -> shows_elements done u ->
  match udh_loop fuel data u with
  | Ok u' => exists els, found data els /\ Forall right_size els /\ shows_elements (done ++ els) u'
  | Err _ => forall els, found data els -> ~ Forall right_size els
  end.
Proof.
  induction fuel as [|fuel IH]; intros data done u Ho Hf Hu.
  - destruct data as [|x data]; [|cbn in Hf; lia]. cbn [udh_loop].
    exists []. split; [constructor|]. split; [constructor|]. now rewrite app_nil_r.
  - destruct data as [|i [|n data]]; cbn [udh_loop pop0 bind].
    + exists []. split; [constructor|]. split; [constructor|]. now rewrite app_nil_r.
    + intros els H. inversion H.
    + pose proof (Forall_inv (Forall_inv_tail Ho)) as On. unfold octet in On.
      pose proof (Forall_inv_tail (Forall_inv_tail Ho)) as Od.
      set (d := py_to data n). set (rest := py_from data n).
      assert (data = d ++ rest) as Ed by (unfold d, rest, py_to, py_from; now rewrite firstn_skipn).
      rewrite Ed in Od. apply Forall_app in Od as [Od Or].
      assert ((Z.of_nat (length d) = n) \/ (rest = [] /\ Z.of_nat (length d) < n)) as Hn.
      { unfold d, rest, py_to, py_from. rewrite firstn_length.
        destruct (Z.le_gt_cases n (Z.of_nat (length data))); [left; lia|right].
        split; [|lia]. apply skipn_all2. lia. }
      pose proof (found_head i n data : forall els, found _ els -> exists els', els = (i, d) :: els') as Hd.
      destruct (right_size_dec (i, d)) as [Rd|Rd].
      * destruct (udh_element_shows done u i d Hu Od Rd) as (u1 & E1 & H1). rewrite E1. cbn [bind].
        assert (length rest <= fuel)%nat as Lr.
        { cbn [length] in Hf. rewrite Ed, app_length in Hf. lia. }
        specialize (IH rest (done ++ [(i, d)]) u1 Or Lr H1).
        destruct (udh_loop fuel rest u1) as [u'|e].
        -- destruct IH as (els & F & R & S). exists ((i, d) :: els).
           split; [|split; [now constructor|now rewrite <- app_assoc in S]].
           rewrite Ed. destruct Hn as [Hn|[Er Hn]]; [rewrite <- Hn; now apply found_element|].
           rewrite Er in F |- *. assert (els = []) as -> by (inversion F; reflexivity). rewrite app_nil_r. now apply found_cut.
        -- intros els F R. destruct (Hd els F) as (els' & ->).
           apply Forall_inv_tail in R. revert R.
           apply IH. exact (found_tail _ _ _ _ _ F).
      * destruct (udh_element_wrong i d u Rd) as (e & E). rewrite E. cbn [bind].
        intros els F R. destruct (Hd els F) as (els' & ->). exact (Rd (Forall_inv R)).
Qed.

(** C106, exactly, for all strings of octets: the parser accepts them just when they
    are elements of the right sizes, the last of which may have lost some of its data,
    and shows these elements. *)
Theorem C106_exact : forall data, Forall octet data ->
  (forall u, from_bytes data = Ok u ->
     exists els, found data els /\ Forall right_size els /\
       concat_view u = concatenation (map essence els) /\
       ports_view u = port_addresses (map essence els) /\
       forall i, d_get Z.eqb i (h_headers u) = element_data i els) /\
  (forall els, found data els -> Forall right_size els -> exists u, from_bytes data = Ok u).
Proof.
  intros data Ho.
  assert (shows_elements [] udh_empty) as H0 by (repeat split).
  pose proof (udh_loop_found (length data) data [] udh_empty Ho (le_n _) H0) as H.
  fold (from_bytes data) in H. destruct (from_bytes data) as [u'|e].
  - split; [|intros; now exists u']. intros u E. injection E as <-. exact H.
  - split; [discriminate|]. intros els F R. destruct (H els F R).
Qed.
Print Assumptions C106_exact.

Lemma found_serial els rest els' : found rest els' -> found (serial els ++ rest) (els ++ els').
Proof.
  intros F. induction els as [|[i d] els IH]; cbn [serial app]; [exact F|].
  unfold zlen in *. rewrite <- app_assoc. now apply found_element.
Qed.

Lemma found_det data els els' : found data els -> found data els' -> els = els'.
Proof.
  intros F. revert els'. induction F as [|i d rest els F IH|i n d Hl]; intros els' F'.
  - inversion F'. reflexivity.
  - inversion F' as [|i' d' rest' els1 F1 Ei El|i' n' d' Hl]; subst.
    + match goal with H : _ ++ _ = _ ++ _ |- _ => rename H into E end.
      assert (length d' = length d) as L by lia.
      assert (d' = d /\ rest' = rest) as [-> ->].
      { clear - L E. revert d E L. induction d' as [|x d' IHd]; intros [|y d] E L; try discriminate; auto.
        cbn in E. injection E as -> E. destruct (IHd d E) as [-> ->]; auto. }
      f_equal. now apply IH.
    + rewrite app_length in Hl. lia.
  - inversion F' as [|i' d' rest' els1 F1 Ei El|i' n' d' Hl']; subst; [|reflexivity].
    rewrite app_length in Hl. lia.
Qed.

Lemma element_right els : Forall element_ok els -> Forall right_size els.
Proof.
  intros H. eapply Forall_impl; [|exact H]. intros [i d] (_ & _ & _ & A & B & C & D).
  unfold right_size. lia.
Qed.

(** C106 fails: a header that breaks off in the data of its last element is accepted,
    with the data that are there, when the element is not about parts or ports. *)
Theorem C106_cut_refuted : forall els i n d, Forall element_ok els ->
  octet i -> i <> 0 -> i <> 4 -> i <> 5 -> i <> 8 ->
  Forall octet d -> Z.of_nat (length d) < n <= 255 ->
  (forall els', serial els' <> serial els ++ i :: n :: d) /\
  exists u, from_bytes (serial els ++ i :: n :: d) = Ok u /\
    d_get Z.eqb i (h_headers u) = Some d.
Proof.
  intros els i n d He Hi H0 H4 H5 H8 Hd Hn.
  assert (found (serial els ++ i :: n :: d) (els ++ [(i, d)])) as F
    by (apply found_serial, found_cut; lia).
  split.
  - intros els' E.
    pose proof (found_serial els' [] [] found_none) as F'. rewrite !app_nil_r in F'.
    rewrite E in F'. pose proof (found_det _ _ _ F F') as D. subst els'.
    clear - E Hn.
    assert (length (serial (els ++ [(i, d)])) = length (serial els ++ i :: n :: d)) by now rewrite E.
    assert (serial (els ++ [(i, d)]) = serial els ++ i :: Z.of_nat (length d) :: d) as S.
    { clear. induction els as [|[j x] els IH]; cbn [serial app]; [now rewrite app_nil_r|].
      rewrite IH. now rewrite <- app_assoc. }
    rewrite S in E. apply app_inv_head in E. injection E as E. lia.
  - assert (Forall octet (serial els ++ i :: n :: d)) as Ho.
    { apply Forall_app. split; [now apply serial_octets|]. constructor; [exact Hi|].
      constructor; [unfold octet; lia|exact Hd]. }
    destruct (C106_exact _ Ho) as [A B].
    destruct (B _ F) as (u & E).
    { apply Forall_app. split; [now apply element_right|]. constructor; [|constructor].
      unfold right_size. lia. }
    exists u. split; [exact E|].
    destruct (A u E) as (els' & F' & _ & _ & _ & G). rewrite (found_det _ _ _ F' F) in G.
    rewrite G. unfold element_data. rewrite last_such_snoc. cbn [fst]. now rewrite Z.eqb_refl.
Qed.
Print Assumptions C106_cut_refuted.
(** The lone octet of a message indication that was to have two octets. *)
Example C106_cut_case : match from_bytes (serial [(8, [1; 2; 2; 1])] ++ [1; 2; 0x80]) with
  | Ok u => concat_view u = Some (258, 2, 1) /\ d_get Z.eqb 1 (h_headers u) = Some [0x80]
  | Err _ => False end.
Proof. vm_compute. split; reflexivity. Qed.

(** What is true of C106: a header that breaks off behind an identifier is refused, and
    so is one that breaks off in an element about parts or ports. *)
Theorem C106_refused_partial : forall els i n d tail,
  Forall element_ok els -> Forall octet (i :: n :: d) ->
  (tail = [i] \/ tail = i :: n :: d /\ element_ok (i, d ++ repeat 0 (Z.to_nat n - length d)) /\
     Z.of_nat (length d) < n /\ (i = 0 \/ i = 4 \/ i = 5 \/ i = 8)) ->
  exists e, from_bytes (serial els ++ tail) = Err e.
Proof.
  intros els i n d tail He Ho Ht.
  assert (Forall octet (serial els ++ tail)) as Hot.
  { apply Forall_app. split; [now apply serial_octets|].
    destruct Ht as [->|(-> & _)]; [|exact Ho]. constructor; [exact (Forall_inv Ho)|constructor]. }
  destruct (C106_exact _ Hot) as [A _].
  destruct (from_bytes (serial els ++ tail)) as [u|e]; [exfalso|now exists e].
  destruct (A u eq_refl) as (els' & F & R & _).
  assert (exists els2, found tail els2 /\ Forall right_size els2) as (els2 & F2 & R2).
  { clear - F R. revert els' F R. induction els as [|[j x] els IH]; intros els' F R; [now exists els'|].
    cbn [serial app] in F. rewrite <- app_assoc in F.
    inversion F as [|i' d' rest' els1 F1 Ei El|i' n' d' Hl]; subst.
    - match goal with H : _ ++ _ = _ ++ _ |- _ => rename H into E end.
      assert (length d' = length x) as L by lia.
      assert (rest' = serial els ++ tail) as ->.
      { clear - L E. revert x E L. induction d' as [|y d' IHd]; intros [|z x] E L; try discriminate; auto.
        cbn in E. injection E as -> E. eapply IHd; eauto. }
      apply (IH _ F1). now apply Forall_inv_tail in R.
    - rewrite app_length in Hl. lia. }
  destruct Ht as [->|(-> & Hk & Hl & Hi)]; [inversion F2|].
  pose proof (found_det _ _ _ F2 (found_cut i n d Hl)) as ->.
  apply Forall_inv in R2. destruct Hk as (_ & _ & _ & A0 & A8 & A4 & A5).
  rewrite app_length, repeat_length in *. unfold right_size in R2. lia.
Qed.
Print Assumptions C106_refused_partial.
Example C106_refused_case : from_bytes (serial [(0x24, [1])] ++ [0; 3; 7; 2]) = Err ValueError.
Proof. vm_compute. reflexivity. Qed.
