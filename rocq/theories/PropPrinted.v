(** C125: what the printed form of a user data header tells. *)
From Coq Require Import Lia ZifyBool ZifyNat Permutation.
From Verif Require Import Py PyFacts SpecPack SpecDeliver SpecSmil SpecUdh SpecPrinted Message
  MessageFacts Udh UdhFacts PropUdh Printed.
Open Scope Z_scope.

(** * The text *)

Lemma repr_items_commas l : with_commas l (repr_items l).
Proof.
  induction l as [|x [|y r] IH]; [constructor|constructor|].
  change (repr_items (x :: y :: r)) with (x ++ str ", " ++ repr_items (y :: r)). now constructor.
Qed.

Lemma notations l : Forall2 notation l (map py_str l).
Proof. induction l; constructor; auto. apply py_str_notation. Qed.

Lemma repr_data_text a l : octets_text a l (repr_data a l).
Proof.
  exists (map py_str l), (repr_items (map py_str l)). split; [apply notations|].
  split; [apply repr_items_commas|]. unfold repr_data. destruct a; [|reflexivity].
  destruct l as [|x l]; [reflexivity|]. unfold repr_ints.
  change (str "array('B', [") with (str "array('B', " ++ str "[").
  change (str "])") with (str "]" ++ str ")"). now rewrite <- !app_assoc.
Qed.

Lemma repr_dict_text a d : elements_text a d (repr_dict a d).
Proof.
  exists (map (repr_item a) d), (repr_items (map (repr_item a) d)).
  split; [|split; [apply repr_items_commas|reflexivity]].
  induction d as [|e d IH]; cbn [map]; constructor; auto.
  exists (py_str (fst e)), (repr_data a (snd e)). split; [apply py_str_notation|].
  split; [apply repr_data_text|reflexivity].
Qed.

(** The printed form, number by number.  [order] is the order of the dictionary. *)
Theorem C125_text : forall order received u,
  header_text received (order (h_headers u)) (concat_view u) (ports_view u)
    (repr_udh order received u).
Proof.
  intros order a u. unfold header_text.
  exists (repr_dict a (order (h_headers u))), (repr_option repr_concat (h_concat u)),
    (repr_option repr_ports (h_ports u)).
  split; [apply repr_dict_text|]. unfold concat_view, ports_view, concat_text, ports_text.
  split; [|split; [|reflexivity]].
  - destruct (h_concat u) as [c|]; [|reflexivity]. cbn [repr_option option_map].
    exists (py_str (c_ref c)), (py_str (c_cnt c)), (py_str (c_seq c)).
    repeat (split; [apply py_str_notation|]). reflexivity.
  - destruct (h_ports u) as [p|]; [|reflexivity]. cbn [repr_option option_map].
    exists (py_str (p_dest p)), (py_str (p_orig p)).
    repeat (split; [apply py_str_notation|]). reflexivity.
Qed.
Print Assumptions C125_text.

(** * Reading the text *)

(** The text does not go on with a digit. *)
Definition stops (s : list Z) : Prop := match s with c :: _ => ~ 48 <= c <= 57 | [] => True end.

Lemma digits_split a : forall b s t,
  Forall (fun c => 48 <= c <= 57) a -> Forall (fun c => 48 <= c <= 57) b -> stops s -> stops t ->
  a ++ s = b ++ t -> a = b /\ s = t.
Proof.
  induction a as [|x a IH]; intros [|y b] s t Ha Hb Hs Ht E; cbn [app] in E.
  - auto.
  - subst s. apply Forall_inv in Hb. cbn [stops] in Hs. contradiction.
  - subst t. apply Forall_inv in Ha. cbn [stops] in Ht. contradiction.
  - injection E as -> E.
    destruct (IH b s t (Forall_inv_tail Ha) (Forall_inv_tail Hb) Hs Ht E) as (-> & ->). auto.
Qed.

Lemma py_dec_split n m s t : 0 <= n -> 0 <= m -> stops s -> stops t ->
  WspDec.py_dec n ++ s = WspDec.py_dec m ++ t -> n = m /\ s = t.
Proof.
  intros Hn Hm Hs Ht E.
  destruct (py_dec_notation n Hn) as (_ & A & B & _). destruct (py_dec_notation m Hm) as (_ & C & D & _).
  destruct (digits_split _ _ _ _ A C Hs Ht E) as (F & ->). split; [congruence|reflexivity].
Qed.

Lemma py_dec_head n : 0 <= n -> exists c r, WspDec.py_dec n = c :: r /\ 48 <= c <= 57.
Proof.
  intros H. destruct (py_dec_notation n H) as (A & B & _).
  destruct (WspDec.py_dec n) as [|c r]; [contradiction|]. exists c, r. split; [reflexivity|].
  exact (Forall_inv B).
Qed.

Lemma py_str_split n m s t : stops s -> stops t -> py_str n ++ s = py_str m ++ t -> n = m /\ s = t.
Proof.
  intros Hs Ht. unfold py_str. destruct (n <? 0) eqn:A, (m <? 0) eqn:B; intros E.
  - cbn [app] in E. injection E as E. apply py_dec_split in E; auto; try lia.
    destruct E as (E & ->). split; [lia|reflexivity].
  - destruct (py_dec_head m) as (c & r & R & C); [lia|]. rewrite R in E. cbn in E. injection E as E _. lia.
  - destruct (py_dec_head n) as (c & r & R & C); [lia|]. rewrite R in E. cbn in E. injection E as E _. lia.
  - apply py_dec_split in E; auto; lia.
Qed.

Lemma py_str_head n : exists c r, py_str n = c :: r /\ (48 <= c <= 57 \/ c = 45).
Proof.
  unfold py_str. destruct (n <? 0) eqn:A.
  - eexists _, _. split; [reflexivity|]. auto.
  - destruct (py_dec_head n) as (c & r & R & C); [lia|]. rewrite R. eauto.
Qed.

(** Items that can be told apart, none of them starting like the closing bracket [z]. *)
Lemma items_split {A} (f g : A -> list Z) (z : Z) :
  z <> 44 ->
  (forall x y s t, (s = [] -> False) -> (t = [] -> False) ->
     (hd 0 s = 44 \/ hd 0 s = z) -> (hd 0 t = 44 \/ hd 0 t = z) ->
     f x ++ s = g y ++ t -> x = y /\ s = t) ->
  (forall x, exists c r, f x = c :: r /\ c <> z) ->
  (forall x, exists c r, g x = c :: r /\ c <> z) ->
  forall l m s t, repr_items (map f l) ++ z :: s = repr_items (map g m) ++ z :: t ->
    l = m /\ s = t.
Proof.
  intros Hz Hfg Hf Hg.
  assert (Hc : forall (h : A -> list Z) x r, repr_items (map h (x :: r)) =
    h x ++ match r with [] => [] | _ => str ", " ++ repr_items (map h r) end).
  { intros h x [|y r]; cbn [map repr_items]; [now rewrite app_nil_r|reflexivity]. }
  induction l as [|x l IH]; intros [|y m] s t E.
  - cbn in E. injection E as ->. auto.
  - rewrite Hc in E. destruct (Hg y) as (c & r & R & N). rewrite R in E. cbn in E.
    injection E as E _. congruence.
  - rewrite Hc in E. destruct (Hf x) as (c & r & R & N). rewrite R in E. cbn in E.
    injection E as E _. congruence.
  - rewrite !Hc, <- !app_assoc in E.
    apply Hfg in E; [|now destruct l|now destruct m|destruct l; cbn; auto|destruct m; cbn; auto].
    destruct E as (-> & E). destruct l as [|x' l], m as [|y' m].
    + cbn in E. injection E as ->. auto.
    + cbn [app] in E. injection E as E _. congruence.
    + cbn [app] in E. injection E as E _. congruence.
    + rewrite <- !app_assoc in E. apply app_inv_head in E. apply IH in E.
      destruct E as (E & ->). split; [now rewrite E|reflexivity].
Qed.

Lemma py_str_split' x y s t : (s = [] -> False) -> (t = [] -> False) ->
  hd 0 s = 44 \/ hd 0 s = 93 -> hd 0 t = 44 \/ hd 0 t = 93 ->
  py_str x ++ s = py_str y ++ t -> x = y /\ s = t.
Proof.
  intros _ _ A B. apply py_str_split; [destruct s|destruct t]; cbn in *; auto; lia.
Qed.

Lemma py_str_not x c : ~ 48 <= c <= 57 -> c <> 45 -> exists d r, py_str x = d :: r /\ d <> c.
Proof. intros A B. destruct (py_str_head x) as (d & r & R & C). exists d, r. split; [exact R|lia]. Qed.

Lemma repr_ints_split l m s t : repr_ints l ++ s = repr_ints m ++ t -> l = m /\ s = t.
Proof.
  unfold repr_ints. intros E. rewrite <- !app_assoc in E. apply app_inv_head in E.
  change (str "]" ++ s) with (93 :: s) in E. change (str "]" ++ t) with (93 :: t) in E.
  apply (items_split py_str py_str 93) in E; [exact E|lia|exact py_str_split'| |];
    intros x; apply py_str_not; lia.
Qed.

Lemma repr_data_split a b l m s t : repr_data a l ++ s = repr_data b m ++ t -> l = m /\ s = t.
Proof.
  unfold repr_data. destruct a, b; intros E.
  - destruct l as [|x l], m as [|y m].
    + apply app_inv_head in E. auto.
    + discriminate E.
    + discriminate E.
    + rewrite <- !app_assoc in E. apply app_inv_head, repr_ints_split in E. destruct E as (-> & E).
      apply app_inv_head in E. auto.
  - destruct l; discriminate E.
  - destruct m; discriminate E.
  - now apply repr_ints_split in E.
Qed.

Lemma repr_dict_split a b l m s t : repr_dict a l ++ s = repr_dict b m ++ t -> l = m /\ s = t.
Proof.
  unfold repr_dict. intros E. rewrite <- !app_assoc in E. apply app_inv_head in E.
  change (str "}" ++ s) with (125 :: s) in E. change (str "}" ++ t) with (125 :: t) in E.
  apply (items_split (repr_item a) (repr_item b) 125) in E; [exact E|lia| | |].
  - intros [i d] [j e] s' t' _ _ _ _ H. unfold repr_item in H. cbn [fst snd] in H.
    rewrite <- !app_assoc in H. apply py_str_split in H; [|cbn; lia|cbn; lia].
    destruct H as (-> & H). apply app_inv_head, repr_data_split in H. destruct H as (-> & ->). auto.
  - intros x. destruct (py_str_not (fst x) 125) as (d & r & R & N); try lia.
    unfold repr_item. rewrite R. eexists _, _. split; [reflexivity|exact N].
  - intros x. destruct (py_str_not (fst x) 125) as (d & r & R & N); try lia.
    unfold repr_item. rewrite R. eexists _, _. split; [reflexivity|exact N].
Qed.

Definition numbers_of (c : concat_ref) : Z * Z * Z := (c_ref c, c_cnt c, c_seq c).
Definition pair_of (p : ports) : Z * Z := (p_dest p, p_orig p).

Lemma repr_concat_split c d s t : repr_concat c ++ s = repr_concat d ++ t ->
  numbers_of c = numbers_of d /\ s = t.
Proof.
  unfold repr_concat, numbers_of. intros E. rewrite <- !app_assoc in E. apply app_inv_head in E.
  apply py_str_split in E; [|cbn; lia|cbn; lia]. destruct E as (-> & E). apply app_inv_head in E.
  apply py_str_split in E; [|cbn; lia|cbn; lia]. destruct E as (-> & E). apply app_inv_head in E.
  apply py_str_split in E; [|cbn; lia|cbn; lia]. destruct E as (-> & E). apply app_inv_head in E.
  auto.
Qed.

Lemma repr_ports_split c d s t : repr_ports c ++ s = repr_ports d ++ t ->
  pair_of c = pair_of d /\ s = t.
Proof.
  unfold repr_ports, pair_of. intros E. rewrite <- !app_assoc in E. apply app_inv_head in E.
  apply py_str_split in E; [|cbn; lia|cbn; lia]. destruct E as (-> & E). apply app_inv_head in E.
  apply py_str_split in E; [|cbn; lia|cbn; lia]. destruct E as (-> & E). apply app_inv_head in E.
  auto.
Qed.

Lemma repr_udh_split o1 o2 a1 a2 u1 u2 : repr_udh o1 a1 u1 = repr_udh o2 a2 u2 ->
  o1 (h_headers u1) = o2 (h_headers u2) /\
  concat_view u1 = concat_view u2 /\ ports_view u1 = ports_view u2.
Proof.
  unfold repr_udh, concat_view, ports_view. intros E. apply app_inv_head in E.
  apply repr_dict_split in E. destruct E as (E1 & E). split; [exact E1|]. apply app_inv_head in E.
  assert (option_map numbers_of (h_concat u1) = option_map numbers_of (h_concat u2) /\
    str " ports: " ++ repr_option repr_ports (h_ports u1) ++ str ">" =
    str " ports: " ++ repr_option repr_ports (h_ports u2) ++ str ">") as (Ec & E').
  { destruct (h_concat u1) as [c|], (h_concat u2) as [d|]; cbn [repr_option option_map] in *.
    - apply repr_concat_split in E. destruct E as (-> & E). auto.
    - discriminate E.
    - discriminate E.
    - apply app_inv_head in E. auto. }
  split; [exact Ec|]. apply app_inv_head in E'.
  destruct (h_ports u1) as [c|], (h_ports u2) as [d|]; cbn [repr_option option_map] in *.
  - apply repr_ports_split in E'. destruct E' as (R & _). unfold pair_of in R. now rewrite R.
  - discriminate E'.
  - discriminate E'.
  - reflexivity.
Qed.

(** * Headers that were parsed *)

(** What holds of the object whatever was parsed so far. *)
Definition parsed (u : udh) : Prop :=
  NoDup (map fst (h_headers u)) /\
  (forall c, h_concat u = Some c -> In (if c_eight c then 0 else 8) (map fst (h_headers u))) /\
  (forall p, h_ports u = Some p -> p_eight p = false).

Lemma d_set_keys {V} i (v : V) d : forall j,
  In j (map fst (d_set Z.eqb i v d)) <-> i = j \/ In j (map fst d).
Proof.
  induction d as [|[k w] d IH]; intros j; cbn [d_set map fst In]; [tauto|].
  destruct (i =? k) eqn:E; cbn [map fst In].
  - assert (i = k) by lia. subst k. tauto.
  - rewrite IH. tauto.
Qed.

Lemma d_set_nodup {V} i (v : V) d : NoDup (map fst d) -> NoDup (map fst (d_set Z.eqb i v d)).
Proof.
  induction d as [|[k w] d IH]; cbn [d_set map fst]; intros H.
  - constructor; [intros []|constructor].
  - apply NoDup_cons_iff in H. destruct H as (N & H). destruct (i =? k) eqn:E; cbn [map fst].
    + now constructor.
    + constructor; [|now apply IH]. rewrite d_set_keys. intros [->|X]; [lia|contradiction].
Qed.

Lemma element_parsed i d u u' : parsed u -> udh_element i d u = Ok u' -> parsed u'.
Proof.
  intros (A & B & C) E. unfold udh_element in E. cbn zeta in E. cbn [h_concat h_ports h_headers] in E.
  pose proof (d_set_nodup i d _ A) as A'.
  assert (forall c, h_concat u = Some c ->
    In (if c_eight c then 0 else 8) (map fst (d_set Z.eqb i d (h_headers u)))) as B'.
  { intros c Hc. apply d_set_keys. right. now apply B. }
  destruct (i =? 0) eqn:E0.
  - destruct d as [|a [|b [|c [|]]]]; try discriminate E. cbn [bind h_concat h_ports h_headers] in E.
    assert (i = 0) by lia. subst i. cbn [Z.eqb] in E. injection E as <-.
    split; [exact A'|]. cbn [h_concat h_ports h_headers]. split; [|exact C].
    intros c' X. injection X as <-. cbn [c_eight]. apply d_set_keys. now left.
  - cbn [bind] in E. destruct (i =? 8) eqn:E8; [|destruct (i =? 4) eqn:E4; [|destruct (i =? 5) eqn:E5]].
    + cbn [h_concat h_ports h_headers] in E.
      destruct (py_index d 0); [|discriminate E]. destruct (py_index d 1); [|discriminate E].
      destruct (py_index d 2); [|discriminate E]. destruct (py_index d 3); [|discriminate E].
      cbn [bind] in E. injection E as <-. split; [exact A'|]. cbn [h_concat h_ports h_headers].
      split; [|exact C]. intros c' X. injection X as <-. cbn [c_eight]. apply d_set_keys. left. lia.
    + destruct d as [|a [|b [|]]]; try discriminate E. injection E as <-.
      split; [exact A'|]. cbn [h_concat h_ports h_headers]. split; [exact B'|].
      intros p X. injection X as <-. reflexivity.
    + destruct (py_index d 0); [|discriminate E]. destruct (py_index d 1); [|discriminate E].
      destruct (py_index d 2); [|discriminate E]. destruct (py_index d 3); [|discriminate E].
      cbn [bind] in E. injection E as <-. split; [exact A'|]. cbn [h_concat h_ports h_headers].
      split; [exact B'|]. intros p X. injection X as <-. reflexivity.
    + injection E as <-. split; [exact A'|]. split; [exact B'|exact C].
Qed.

Lemma loop_parsed fuel : forall data u u', parsed u -> udh_loop fuel data u = Ok u' -> parsed u'.
Proof.
  induction fuel as [|fuel IH]; intros [|i [|n data]] u u' P E; cbn [udh_loop pop0 bind] in E;
    try discriminate E; try (injection E as <-; exact P).
  destruct (udh_element i (py_to data n) u) as [v|] eqn:Ev; [|discriminate E].
  cbn [bind] in E. exact (IH _ _ _ (element_parsed _ _ _ _ P Ev) E).
Qed.

Lemma from_bytes_parsed data u : from_bytes data = Ok u -> parsed u.
Proof.
  apply loop_parsed. split; [constructor|]. split; discriminate.
Qed.

Lemma d_get_in {V} (d : list (Z * V)) i v : NoDup (map fst d) ->
  (d_get Z.eqb i d = Some v <-> In (i, v) d).
Proof.
  induction d as [|[k w] d IH]; cbn [d_get map fst In]; intros N; [split; [discriminate|intros []]|].
  apply NoDup_cons_iff in N. destruct N as (X & N). destruct (i =? k) eqn:E.
  - assert (i = k) by lia. subst k. split.
    + intros H. injection H as ->. now left.
    + intros [H|H]; [injection H as ->; reflexivity|].
      destruct X. apply in_map_iff. now exists (i, v).
  - rewrite (IH N). split; [auto|]. intros [H|H]; [injection H as -> ->; lia|exact H].
Qed.

Lemma d_get_none {V} (d : list (Z * V)) i : d_get Z.eqb i d = None <-> ~ In i (map fst d).
Proof.
  induction d as [|[k w] d IH]; cbn [d_get map fst In]; [tauto|].
  destruct (i =? k) eqn:E; [split; [discriminate|intros X; destruct X; left; lia]|].
  rewrite IH. split; [intros X [->|Y]; [lia|tauto]|tauto].
Qed.

Lemma d_get_same (d e : list (Z * list Z)) : NoDup (map fst d) -> NoDup (map fst e) ->
  Permutation d e -> forall i, d_get Z.eqb i d = d_get Z.eqb i e.
Proof.
  intros Nd Ne P i. destruct (d_get Z.eqb i d) as [v|] eqn:D.
  - symmetry. apply d_get_in; [exact Ne|]. apply d_get_in in D; [|exact Nd].
    exact (Permutation_in _ P D).
  - symmetry. apply d_get_none. apply d_get_none in D. intros X. apply D.
    exact (Permutation_in _ (Permutation_map fst (Permutation_sym P)) X).
Qed.

(** Headers with the same printed form have the same elements, the same numbers of the
    part and the same ports, whatever the order of the dictionaries. *)
Theorem C125_tells : forall order1 order2 received1 received2 data1 data2 u1 u2,
  (forall d, Permutation (order1 d) d) -> (forall d, Permutation (order2 d) d) ->
  from_bytes data1 = Ok u1 -> from_bytes data2 = Ok u2 ->
  repr_udh order1 received1 u1 = repr_udh order2 received2 u2 ->
  (forall i, d_get Z.eqb i (h_headers u1) = d_get Z.eqb i (h_headers u2)) /\
  concat_view u1 = concat_view u2 /\ h_ports u1 = h_ports u2.
Proof.
  intros o1 o2 a1 a2 d1 d2 u1 u2 P1 P2 E1 E2 R.
  apply from_bytes_parsed in E1, E2. destruct E1 as (N1 & _ & F1), E2 as (N2 & _ & F2).
  apply repr_udh_split in R. destruct R as (A & B & C). split; [|split; [exact B|]].
  - apply d_get_same; auto. apply Permutation_trans with (o1 (h_headers u1)).
    + apply Permutation_sym, P1.
    + rewrite A. apply P2.
  - unfold ports_view in C. destruct (h_ports u1) as [[x y e]|], (h_ports u2) as [[x' y' e']|];
      cbn [option_map p_dest p_orig] in C; try discriminate C; auto.
    injection C as -> ->. specialize (F1 _ eq_refl). specialize (F2 _ eq_refl). cbn in F1, F2.
    now subst.
Qed.
Print Assumptions C125_tells.

(** Unless there are references of both widths, the width of the reference is told too,
    and with it everything the object holds. *)
Theorem C125_width_partial : forall order1 order2 received1 received2 data1 data2 u1 u2,
  (forall d, Permutation (order1 d) d) -> (forall d, Permutation (order2 d) d) ->
  from_bytes data1 = Ok u1 -> from_bytes data2 = Ok u2 ->
  repr_udh order1 received1 u1 = repr_udh order2 received2 u2 ->
  d_get Z.eqb 0 (h_headers u1) = None \/ d_get Z.eqb 8 (h_headers u1) = None ->
  h_concat u1 = h_concat u2.
Proof.
  intros o1 o2 a1 a2 d1 d2 u1 u2 P1 P2 E1 E2 R W.
  destruct (C125_tells _ _ _ _ _ _ _ _ P1 P2 E1 E2 R) as (G & B & _).
  apply from_bytes_parsed in E1, E2. destruct E1 as (_ & F1 & _), E2 as (_ & F2 & _).
  unfold concat_view in B. destruct (h_concat u1) as [[r c s e]|], (h_concat u2) as [[r' c' s' e']|];
    cbn [option_map c_ref c_cnt c_seq] in B; try discriminate B; auto.
  injection B as -> -> ->. specialize (F1 _ eq_refl). specialize (F2 _ eq_refl). cbn [c_eight] in F1, F2.
  assert (e = e') as ->; [|reflexivity].
  destruct W as [W|W]; pose proof W as W'; rewrite G in W'; apply d_get_none in W, W';
    destruct e, e'; tauto.
Qed.
Print Assumptions C125_width_partial.

(** The reference of a status report is told, and that it is one. *)
Theorem C125_report : forall order1 order2 received1 received2 ref,
  (forall d, Permutation (order1 d) d) -> (forall d, Permutation (order2 d) d) ->
  (forall ref', repr_udh order1 received1 (from_status_report_ref ref) =
                repr_udh order2 received2 (from_status_report_ref ref') -> ref = ref') /\
  (forall data u, from_bytes data = Ok u ->
     repr_udh order1 received1 (from_status_report_ref ref) <> repr_udh order2 received2 u).
Proof.
  intros o1 o2 a1 a2 ref P1 P2. split.
  - intros ref' R. apply repr_udh_split in R. destruct R as (_ & R & _). cbn in R. congruence.
  - intros data u E R. apply from_bytes_parsed in E. destruct E as (_ & F & _).
    apply repr_udh_split in R. destruct R as (A & B & _). cbn [from_status_report_ref h_headers] in A.
    pose proof (P1 []) as Q. apply Permutation_sym, Permutation_nil in Q. rewrite Q in A.
    pose proof (P2 (h_headers u)) as Q'. rewrite <- A in Q'. apply Permutation_nil in Q'.
    unfold concat_view in B. cbn in B. destruct (h_concat u) as [c|]; [|discriminate B].
    specialize (F c eq_refl). now rewrite Q' in F.
Qed.
Print Assumptions C125_report.

(** With references of both widths it is not told which of them came last. *)
Theorem C125_width_refuted : exists data1 data2 u1 u2,
  Forall octet data1 /\ Forall octet data2 /\
  from_bytes data1 = Ok u1 /\ from_bytes data2 = Ok u2 /\
  (forall order received, repr_udh order received u1 = repr_udh order received u2) /\
  h_concat u1 <> h_concat u2.
Proof.
  exists [0; 3; 7; 2; 1; 8; 4; 0; 7; 2; 1], [0; 3; 7; 2; 1; 8; 4; 0; 7; 2; 1; 0; 3; 7; 2; 1].
  eexists _, _. split; [repeat constructor; unfold octet; lia|].
  split; [repeat constructor; unfold octet; lia|]. split; [reflexivity|]. split; [reflexivity|].
  split; [|discriminate]. intros order received. reflexivity.
Qed.
Print Assumptions C125_width_refuted.

(** The header of a test of the project as received, and that of a status report. *)
Example C125_case :
  exists u, from_bytes [5; 4; 11; 132; 35; 240; 8; 4; 159; 142; 2; 1] = Ok u /\
    repr_udh (fun d => d) true u = str "<UserDataHeader data: {5: array('B', [11, 132, 35, 240]), 8: array('B', [159, 142, 2, 1])} concat: <ConcatReference ref: 40846 cnt: 2 seq: 1> ports: <PortAddress dest_port: 2948 orig_port: 9200>>" /\
    repr_udh (fun d => d) false (from_status_report_ref 7) =
      str "<UserDataHeader data: {} concat: <ConcatReference ref: 7 cnt: 0 seq: 0> ports: None>" /\
    d_get Z.eqb 0 (h_headers u) = None.
Proof. eexists. split; [reflexivity|]. repeat split. Qed.

(** * When the width is not told *)

(** The two references of a header say the same. *)
Definition both_widths (u : udh) : Prop :=
  exists a b cnt seq rest,
    d_get Z.eqb 0 (h_headers u) = Some [256 * a + b; cnt; seq] /\
    d_get Z.eqb 8 (h_headers u) = Some (a :: b :: cnt :: seq :: rest).

(** The reference is that of the element it is said to come from. *)
Definition sourced (u : udh) : Prop :=
  (h_concat u = None -> d_get Z.eqb 0 (h_headers u) = None) /\
  forall c, h_concat u = Some c ->
    if c_eight c then d_get Z.eqb 0 (h_headers u) = Some [c_ref c; c_cnt c; c_seq c]
    else exists a b rest, c_ref c = 256 * a + b /\
      d_get Z.eqb 8 (h_headers u) = Some (a :: b :: c_cnt c :: c_seq c :: rest).

Lemma element_sourced i d u u' : sourced u -> Forall octet d -> udh_element i d u = Ok u' -> sourced u'.
Proof.
  intros (S0 & S) O E. unfold udh_element in E. cbn zeta in E. cbn [h_concat h_ports h_headers] in E.
  pose proof (d_get_set_same Z.eqb (h_headers u) i d Zeqb_spec) as G.
  assert (i <> 0 -> i <> 8 -> forall c, h_concat u = Some c ->
    if c_eight c then d_get Z.eqb 0 (d_set Z.eqb i d (h_headers u)) = Some [c_ref c; c_cnt c; c_seq c]
    else exists a b rest, c_ref c = 256 * a + b /\
      d_get Z.eqb 8 (d_set Z.eqb i d (h_headers u)) = Some (a :: b :: c_cnt c :: c_seq c :: rest)) as K.
  { intros N0 N8 c Hc. rewrite !d_get_set_other by (auto using Zeqb_spec). exact (S c Hc). }
  assert (i <> 0 -> h_concat u = None -> d_get Z.eqb 0 (d_set Z.eqb i d (h_headers u)) = None) as K0.
  { intros N0 Hc. rewrite d_get_set_other by (auto using Zeqb_spec). exact (S0 Hc). }
  destruct (i =? 0) eqn:E0.
  - destruct d as [|a [|b [|c [|]]]]; try discriminate E. cbn [bind h_concat h_ports h_headers] in E.
    assert (i = 0) by lia. subst i. cbn [Z.eqb] in E. injection E as <-.
    split; [discriminate|]. intros c' X. cbn [h_concat] in X. injection X as <-. exact G.
  - cbn [bind] in E. destruct (i =? 8) eqn:E8; [|destruct (i =? 4) eqn:E4; [|destruct (i =? 5) eqn:E5]].
    + assert (i = 8) by lia. subst i. cbn [h_concat h_ports h_headers] in E.
      destruct d as [|a [|b [|c [|e tl]]]]; try discriminate E.
      change (py_index (a :: b :: c :: e :: tl) 0) with (Ok a) in E.
      change (py_index (a :: b :: c :: e :: tl) 1) with (Ok b) in E.
      change (py_index (a :: b :: c :: e :: tl) 2) with (Ok c) in E.
      change (py_index (a :: b :: c :: e :: tl) 3) with (Ok e) in E. cbn [bind] in E.
      match type of E with Ok ?x = _ => assert (u' = x) as -> by congruence end.
      split; [discriminate|]. intros c' X. cbn [h_concat] in X.
      match type of X with Some ?x = _ => assert (c' = x) as -> by congruence end.
      cbn [c_eight c_ref c_cnt c_seq h_headers].
      pose proof (Forall_inv O) as Oa. pose proof (Forall_inv (Forall_inv_tail O)) as Ob. unfold octet in *.
      exists a, b, tl. split; [rewrite lor_shift8 by lia; lia|exact G].
    + destruct d as [|a [|b [|]]]; try discriminate E. injection E as <-.
      split; [apply K0; lia|]. intros c Hc. apply K; auto; lia.
    + destruct (py_index d 0); [|discriminate E]. destruct (py_index d 1); [|discriminate E].
      destruct (py_index d 2); [|discriminate E]. destruct (py_index d 3); [|discriminate E].
      cbn [bind] in E. injection E as <-. split; [apply K0; lia|]. intros c' Hc. apply K; auto; lia.
    + injection E as <-. split; [apply K0; lia|]. intros c' Hc. apply K; auto; lia.
Qed.

Lemma loop_sourced fuel : forall data u u', sourced u -> Forall octet data ->
  udh_loop fuel data u = Ok u' -> sourced u'.
Proof.
  induction fuel as [|fuel IH]; intros [|i [|n data]] u u' P O E; cbn [udh_loop pop0 bind] in E;
    try discriminate E; try (injection E as <-; exact P).
  destruct (udh_element i (py_to data n) u) as [v|] eqn:Ev; [|discriminate E].
  cbn [bind] in E. pose proof (Forall_inv_tail (Forall_inv_tail O)) as Od.
  rewrite <- (firstn_skipn (Z.to_nat n) data) in Od. apply Forall_app in Od. destruct Od as (Of & Os).
  exact (IH _ _ _ (element_sourced _ _ _ _ P Of Ev) Os E).
Qed.

Lemma from_bytes_sourced data u : Forall octet data -> from_bytes data = Ok u -> sourced u.
Proof. apply loop_sourced. split; [reflexivity|discriminate]. Qed.

(** Parsing, element by element. *)
Fixpoint elements_run (els : list element) (u : udh) : res udh :=
  match els with [] => Ok u | (i, d) :: r => u <- udh_element i d u ;; elements_run r u end.

Lemma elements_run_app a b u : elements_run (a ++ b) u = (u <- elements_run a u ;; elements_run b u).
Proof.
  revert u. induction a as [|[i d] a IH]; intros u; cbn [elements_run app]; [reflexivity|].
  destruct (udh_element i d u); cbn [bind]; [apply IH|reflexivity].
Qed.

Lemma loop_run data els : found data els -> forall fuel u, (length data <= fuel)%nat ->
  udh_loop fuel data u = elements_run els u.
Proof.
  induction 1 as [|i d rest els F IH|i n d Hl]; intros fuel u Hf.
  - destruct fuel; reflexivity.
  - destruct fuel as [|fuel]; [cbn in Hf; lia|]. cbn [udh_loop pop0 bind elements_run].
    rewrite py_to_app, py_from_app by reflexivity.
    destruct (udh_element i d u); cbn [bind]; [|reflexivity]. apply IH.
    cbn [length] in Hf. rewrite app_length in Hf. lia.
  - destruct fuel as [|fuel]; [cbn in Hf; lia|]. cbn [udh_loop pop0 bind elements_run].
    rewrite py_to_all by (unfold zlen; lia). destruct (udh_element i d u); cbn [bind]; [|reflexivity].
    unfold py_from. rewrite skipn_all2 by lia. destruct fuel; reflexivity.
Qed.

Lemma found_octets data els : found data els -> Forall octet data ->
  Forall (fun e => octet (fst e) /\ Forall octet (snd e) /\ octet (Z.of_nat (length (snd e)))) els.
Proof.
  induction 1 as [|i d rest els F IH|i n d Hl]; intros O; [constructor| |].
  - apply Forall_cons_iff in O. destruct O as (Oi & O). apply Forall_cons_iff in O.
    destruct O as (On & O). apply Forall_app in O. destruct O as (Od & Or).
    constructor; [cbn; auto|now apply IH].
  - apply Forall_cons_iff in O. destruct O as (Oi & O). apply Forall_cons_iff in O.
    destruct O as (On & O). constructor; [|constructor]. cbn [fst snd]. unfold octet in *.
    repeat split; auto; lia.
Qed.

Lemma serial_octet els :
  Forall (fun e => octet (fst e) /\ Forall octet (snd e) /\ octet (Z.of_nat (length (snd e)))) els ->
  Forall octet (serial els).
Proof.
  induction 1 as [|[i d] els (A & B & C) _ IH]; cbn [serial]; [constructor|].
  constructor; [exact A|]. constructor; [exact C|]. apply Forall_app. auto.
Qed.

Lemma d_set_same {V} i (v : V) d : d_get Z.eqb i d = Some v -> d_set Z.eqb i v d = d.
Proof.
  induction d as [|[k w] d IH]; cbn [d_get d_set]; [discriminate|].
  destruct (i =? k); intros E; [now injection E as ->|now rewrite (IH E)].
Qed.

Lemma d_get_octets data els u i d : found data els -> Forall octet data ->
  d_get Z.eqb i (h_headers u) = element_data i els ->
  d_get Z.eqb i (h_headers u) = Some d ->
  octet i /\ Forall octet d /\ octet (Z.of_nat (length d)).
Proof.
  intros F O G E. rewrite E in G. unfold element_data, last_such in G.
  destruct (find _ (rev els)) as [[j e]|] eqn:X; [|discriminate G].
  cbn in G. injection G as ->. apply find_some in X. destruct X as (X & J). cbn [fst] in J.
  apply in_rev in X. pose proof (found_octets _ _ F O) as Q. rewrite Forall_forall in Q.
  apply Q in X. cbn [fst snd] in X. assert (i = j) by lia. now subst.
Qed.

(** The printed form leaves the width of the reference open just for headers with two
    references of different width that say the same. *)
Theorem C125_width_exact : forall order received data u,
  (forall d, Permutation (order d) d) -> Forall octet data -> from_bytes data = Ok u ->
  ((exists data' u', Forall octet data' /\ from_bytes data' = Ok u' /\
      repr_udh order received u' = repr_udh order received u /\ h_concat u' <> h_concat u) <->
   both_widths u).
Proof.
  intros order received data u P O E. split.
  - intros (data' & u' & O' & E' & R & N).
    destruct (C125_tells _ _ _ _ _ _ _ _ P P E' E R) as (G & B & _).
    destruct (from_bytes_sourced _ _ O E) as (_ & S). destruct (from_bytes_sourced _ _ O' E') as (_ & S').
    unfold concat_view in B. destruct (h_concat u) as [[r c s e]|] eqn:Hc,
      (h_concat u') as [[r' c' s' e']|] eqn:Hc'; cbn [option_map c_ref c_cnt c_seq] in B;
      try discriminate B; [|contradiction].
    injection B as -> -> ->. specialize (S _ eq_refl). specialize (S' _ eq_refl).
    cbn [c_eight c_ref c_cnt c_seq] in S, S'. rewrite !G in S'.
    destruct e, e'; try contradiction.
    + destruct S' as (a & b & rest & Er & S'). exists a, b, c, s, rest. rewrite <- Er. auto.
    + destruct S as (a & b & rest & Er & S). exists a, b, c, s, rest. rewrite <- Er. auto.
  - intros (a & b & cnt & seq & rest & G0 & G8).
    destruct (C106_exact data O) as (X & _). destruct (X u E) as (els & F & _ & Vc & _ & G). clear X.
    destruct (d_get_octets _ _ _ _ _ F O (G 0) G0) as (_ & Q0 & L0).
    destruct (d_get_octets _ _ _ _ _ F O (G 8) G8) as (_ & Q8 & L8).
    pose proof (found_octets _ _ F O) as Qe.
    pose proof (loop_run _ _ F (length data) udh_empty (le_n _)) as Run. fold (from_bytes data) in Run.
    rewrite E in Run.
    assert (forall e, octet (fst e) -> Forall octet (snd e) -> octet (Z.of_nat (length (snd e))) ->
      Forall octet (serial (els ++ [e])) /\
      from_bytes (serial (els ++ [e])) = udh_element (fst e) (snd e) u) as K.
    { intros [i d] A B C. cbn [fst snd] in *. split.
      - apply serial_octet, Forall_app. split; [exact Qe|]. constructor; [cbn; auto|constructor].
      - pose proof (found_serial (els ++ [(i, d)]) [] [] found_none) as F'. rewrite !app_nil_r in F'.
        unfold from_bytes. rewrite (loop_run _ _ F' _ _ (le_n _)), elements_run_app, <- Run.
        cbn [bind elements_run]. now destruct (udh_element i d u). }
    assert (exists c, h_concat u = Some c /\ c_ref c = 256 * a + b /\ c_cnt c = cnt /\ c_seq c = seq)
      as (c & Hc & Hr & Hn & Hs).
    { destruct (from_bytes_sourced _ _ O E) as (S0 & S). destruct (h_concat u) as [c|] eqn:Hc.
      - exists c. split; [reflexivity|]. specialize (S c eq_refl). destruct (c_eight c).
        + rewrite G0 in S. injection S as A B C. auto.
        + destruct S as (a' & b' & rest' & Er & S). rewrite G8 in S. injection S as -> -> A B C. auto.
      - rewrite (S0 eq_refl) in G0. discriminate G0. }
    destruct c as [r n q w]. cbn [c_ref c_cnt c_seq] in Hr, Hn, Hs. subst r n q.
    assert (repr_same : forall cc, concat_view (Udh (Some cc) (h_ports u) (h_headers u)) = concat_view u ->
      repr_udh order received (Udh (Some cc) (h_ports u) (h_headers u)) = repr_udh order received u).
    { intros cc H. unfold concat_view in H. rewrite Hc in H. cbn [h_concat option_map c_ref c_cnt c_seq] in H.
      unfold repr_udh. rewrite Hc. cbn [h_concat h_ports h_headers repr_option].
      injection H as A B C. unfold repr_concat. rewrite A, B, C. reflexivity. }
    destruct w.
    + destruct (K (8, a :: b :: cnt :: seq :: rest)) as (K1 & K2); [unfold octet; cbn; lia|exact Q8|exact L8|].
      cbn [fst snd] in K2. unfold udh_element in K2.
      cbn [Z.eqb Pos.eqb bind h_concat h_ports h_headers] in K2.
      change (py_index (a :: b :: cnt :: seq :: rest) 0) with (Ok a) in K2.
      change (py_index (a :: b :: cnt :: seq :: rest) 1) with (Ok b) in K2.
      change (py_index (a :: b :: cnt :: seq :: rest) 2) with (Ok cnt) in K2.
      change (py_index (a :: b :: cnt :: seq :: rest) 3) with (Ok seq) in K2. cbn [bind] in K2.
      rewrite (d_set_same _ _ _ G8) in K2.
      pose proof (Forall_inv Q8) as Oa. pose proof (Forall_inv (Forall_inv_tail Q8)) as Ob. unfold octet in Oa, Ob.
      eexists _, _. split; [exact K1|]. split; [exact K2|]. split.
      * apply repr_same. unfold concat_view. rewrite Hc. cbn [h_concat option_map c_ref c_cnt c_seq].
        rewrite lor_shift8 by lia. do 3 f_equal. lia.
      * rewrite Hc. discriminate.
    + destruct (K (0, [256 * a + b; cnt; seq])) as (K1 & K2); [unfold octet; cbn; lia|exact Q0|exact L0|].
      cbn [fst snd] in K2. unfold udh_element in K2.
      cbn [Z.eqb bind h_concat h_ports h_headers] in K2. rewrite (d_set_same _ _ _ G0) in K2.
      eexists _, _. split; [exact K1|]. split; [exact K2|]. split.
      * apply repr_same. unfold concat_view. rewrite Hc. reflexivity.
      * rewrite Hc. discriminate.
Qed.
Print Assumptions C125_width_exact.
Example C125_both_case : exists u, from_bytes [0; 3; 7; 2; 1; 8; 4; 0; 7; 2; 1] = Ok u /\ both_widths u.
Proof.
  eexists. split; [reflexivity|]. exists 0, 7, 2, 1, []. split; reflexivity.
Qed.
