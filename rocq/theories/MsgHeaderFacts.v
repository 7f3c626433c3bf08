(** Facts about the headers of a whole message. *)
From Coq Require Import Lia ZifyBool ZifyNat.
From Verif Require Import Py Iter Tables WspDec WspEnc Message MmsEnc MmsDec
  SpecWsp WspClaims MmsClaims PyFacts IterFacts WspFacts ContentFacts HeaderFacts DeliverFacts.
Open Scope Z_scope.

(** * Dictionaries *)

Lemma h_get_In : forall d k v, is_dict d -> (h_get k d = Some v <-> In (k, v) d).
Proof. intros d k v H. apply d_get_In; [apply leqb_eq|exact H]. Qed.

Lemma h_get_set : forall k k' v d,
  h_get k (d_set leqb k' v d) = if leqb k k' then Some v else h_get k d.
Proof.
  intros k k' v d. unfold h_get. destruct (leqb k k') eqn:E.
  - apply leqb_eq in E. subst. apply d_get_set_same. apply leqb_eq.
  - apply d_get_set_other; [apply leqb_eq|]. intros ->. rewrite leqb_refl in E. discriminate.
Qed.

Lemma d_set_keys : forall k (v : hval) d,
  map fst (d_set leqb k v d) =
  if h_mem k d then map fst d else map fst d ++ [k].
Proof.
  intros k v d. unfold h_mem, h_get. induction d as [|[k' v'] d IH]; [reflexivity|].
  cbn. destruct (leqb k k') eqn:E; [reflexivity|]. cbn. rewrite IH.
  destruct (d_get leqb k d); reflexivity.
Qed.

Lemma h_mem_has : forall k d, h_mem k d = true <-> has k d.
Proof.
  intros k d. unfold h_mem, has. destruct (h_get k d); split; congruence.
Qed.

Lemma is_dict_set : forall k (v : hval) d, is_dict d -> is_dict (d_set leqb k v d).
Proof.
  intros k v d H. unfold is_dict. rewrite d_set_keys.
  destruct (h_mem k d) eqn:E; [exact H|].
  apply Permutation_NoDup with (l := k :: map fst d);
    [apply Permutation_cons_append|]. constructor; [|exact H].
  unfold h_mem in E. destruct (h_get k d) eqn:G; [discriminate|].
  unfold h_get in G. apply d_get_None in G; [exact G|apply leqb_eq].
Qed.

Lemma d_del_sub : forall k (d : list (list Z * hval)) x,
  In x (map fst (d_del leqb k d)) -> In x (map fst d).
Proof.
  intros k d x. induction d as [|[k' v'] d IH]; cbn; [auto|].
  destruct (leqb k k'); cbn; intuition.
Qed.

Lemma is_dict_del : forall k (d : list (list Z * hval)), is_dict d -> is_dict (d_del leqb k d).
Proof.
  intros k d. unfold is_dict. induction d as [|[k' v'] d IH]; cbn; intros H; [exact H|].
  inversion H; subst. destruct (leqb k k'); [assumption|]. cbn. constructor; [|auto].
  intros X. apply d_del_sub in X. contradiction.
Qed.

Lemma h_get_del : forall k k' d, is_dict d ->
  h_get k (d_del leqb k' d) = if leqb k k' then None else h_get k d.
Proof.
  intros k k' d. unfold is_dict, h_get. induction d as [|[a v] d IH]; cbn; intros H.
  - destruct (leqb k k'); reflexivity.
  - inversion H; subst. destruct (leqb k' a) eqn:E.
    + apply leqb_eq in E. subst a. destruct (leqb k k') eqn:E2; [|reflexivity].
      apply leqb_eq in E2. subst k'. apply d_get_None; [apply leqb_eq|assumption].
    + cbn. destruct (leqb k a) eqn:E2.
      * apply leqb_eq in E2. subst a. destruct (leqb k k') eqn:E3; [|reflexivity].
        apply leqb_eq in E3. subst. rewrite leqb_refl in E. discriminate.
      * apply IH. assumption.
Qed.

(** * What is sent *)

Lemma h_get_rename : forall a b d k, is_dict d -> leqb a b = false ->
  h_get k (rename a b d) =
  if leqb k a then None
  else if leqb k b then match h_get a d with Some v => Some v | None => h_get b d end
  else h_get k d.
Proof.
  intros a b d k H Hab. unfold rename. destruct (h_get a d) as [v|] eqn:G.
  - rewrite h_get_del by (apply is_dict_set; exact H). rewrite h_get_set.
    destruct (leqb k a); reflexivity.
  - destruct (leqb k a) eqn:E; [apply leqb_eq in E; subst; exact G|].
    destruct (leqb k b) eqn:E2; [apply leqb_eq in E2; subst; reflexivity|reflexivity].
Qed.

Lemma is_dict_rename : forall a b d, is_dict d -> is_dict (rename a b d).
Proof.
  intros a b d H. unfold rename. destruct (h_get a d); [|exact H].
  apply is_dict_del, is_dict_set, H.
Qed.

Lemma is_dict_renames : forall d, is_dict d -> is_dict (renames d).
Proof. intros d H. unfold renames. repeat apply is_dict_rename. exact H. Qed.

Lemma is_dict_type : forall d, is_dict d -> is_dict (fix_message_type d).
Proof.
  intros d H. unfold fix_message_type.
  assert (G : is_dict (if h_mem (str "Message-Type") d then d
           else d_set leqb (str "Message-Type") (HStr (str "m-retrieve-conf")) d)).
  { destruct (h_mem _ d); [exact H|apply is_dict_set; exact H]. }
  match goal with |- is_dict (if ?c then _ else _) => destruct c end;
    [apply is_dict_set|]; exact G.
Qed.

Lemma is_dict_rest : forall r d, is_dict d -> is_dict (fix_rest r d).
Proof.
  intros r d H. unfold fix_rest.
  assert (G : is_dict (if h_mem (str "Transaction-Id") d then d
           else d_set leqb (str "Transaction-Id") (HStr (py_dec r)) d)).
  { destruct (h_mem _ d); [exact H|apply is_dict_set; exact H]. }
  match goal with |- is_dict (if ?c then _ else _) => destruct c end;
    [|apply is_dict_set]; exact G.
Qed.

Ltac keys :=
  repeat match goal with |- context [leqb (str ?a) (str ?b)] =>
    let v := eval vm_compute in (leqb (str a) (str b)) in
    change (leqb (str a) (str b)) with v end; cbn [orb andb negb].
Ltac key_case :=
  match goal with |- context [leqb ?k (str ?s)] =>
    let K := fresh "K" in destruct (leqb k (str s)) eqn:K;
    [apply leqb_eq in K; subst k|]; keys end.

Lemma renames_spec : forall d k, is_dict d -> h_get k (renames d) =
    if leqb k (str "X-Mms-Message-Type") || leqb k (str "X-Mms-Transaction-Id")
       || leqb k (str "X-Mms-Version") then None
    else if leqb k (str "Message-Type") then
      match h_get (str "X-Mms-Message-Type") d with
      | Some v => Some v | None => h_get (str "Message-Type") d end
    else if leqb k (str "Transaction-Id") then
      match h_get (str "X-Mms-Transaction-Id") d with
      | Some v => Some v | None => h_get (str "Transaction-Id") d end
    else if leqb k (str "MMS-Version") then
      match h_get (str "X-Mms-Version") d with
      | Some v => Some v | None => h_get (str "MMS-Version") d end
    else h_get k d.
Proof.
  intros d k H. unfold renames.
  rewrite h_get_rename by (try (repeat apply is_dict_rename; exact H); vm_compute; reflexivity).
  rewrite !(h_get_rename (str "X-Mms-Transaction-Id"))
    by (try (repeat apply is_dict_rename; exact H); vm_compute; reflexivity).
  rewrite !(h_get_rename (str "X-Mms-Message-Type")) by (exact H || (vm_compute; reflexivity)).
  keys. repeat key_case; reflexivity.
Qed.

Lemma type_spec : forall d k, h_get k (fix_message_type d) =
  if leqb k (str "Message-Type") then
    match h_get (str "Message-Type") d with
    | None => Some (HStr (str "m-retrieve-conf"))
    | Some v =>
        if is_hstr v (str "m-send-req") && negb (h_mem (str "To") d)
           && negb (h_mem (str "Cc") d) && negb (h_mem (str "Bc") d)
        then Some (HStr (str "m-retrieve-conf")) else Some v
    end
  else h_get k d.
Proof.
  intros d k. unfold fix_message_type.
  assert (M : h_mem (str "Message-Type") d =
    match h_get (str "Message-Type") d with Some _ => true | None => false end) by reflexivity.
  rewrite !M. clear M. destruct (h_get (str "Message-Type") d) as [v|] eqn:E.
  - cbv zeta. rewrite E. cbn [existsb]. rewrite orb_false_r, !negb_orb, !andb_assoc.
    destruct (is_hstr v (str "m-send-req") && negb (h_mem (str "To") d)
           && negb (h_mem (str "Cc") d) && negb (h_mem (str "Bc") d)).
    + rewrite h_get_set. reflexivity.
    + key_case; [exact E|reflexivity].
  - rewrite h_get_set. keys. change (is_hstr (HStr (str "m-retrieve-conf")) (str "m-send-req")) with false.
    cbn [andb]. rewrite h_get_set. reflexivity.
Qed.

Lemma rest_spec : forall r d k, h_get k (fix_rest r d) =
  if leqb k (str "Transaction-Id") then
    match h_get (str "Transaction-Id") d with
    | None => Some (HStr (py_dec r)) | Some v => Some v end
  else if leqb k (str "MMS-Version") then
    match h_get (str "MMS-Version") d with
    | None => Some (HStr (str "1.0")) | Some v => Some v end
  else h_get k d.
Proof.
  intros r d k. unfold fix_rest. unfold h_mem.
  destruct (h_get (str "Transaction-Id") d) as [v|] eqn:E.
  - destruct (h_get (str "MMS-Version") d) as [v'|] eqn:E'; rewrite ?h_get_set;
      repeat key_case; congruence.
  - rewrite h_get_set. keys.
    destruct (h_get (str "MMS-Version") d) as [v'|] eqn:E'; rewrite ?h_get_set; keys;
      repeat key_case; congruence.
Qed.

Lemma sent_spec : forall rand d k, is_dict d ->
  h_get k (fix_rest rand (fix_message_type (renames d))) = sent_headers rand d k.
Proof.
  intros rand d k H. rewrite rest_spec, !type_spec. unfold h_mem.
  rewrite !renames_spec by exact H. keys. unfold sent_headers, h_mem.
  repeat key_case; try reflexivity.
Qed.

(** * Encoding *)

Definition entry_run (e : list Z * hval) (b : list Z) : Prop :=
  header_run (fst e) (snd e) b /\ leqb (fst e) (str "Content-Type") = false.

Definition dels (ks : list (list Z)) (d : list (list Z * hval)) : list (list Z * hval) :=
  fold_left (fun d k => d_del leqb k d) ks d.

Lemma is_dict_dels : forall ks d, is_dict d -> is_dict (dels ks d).
Proof.
  induction ks as [|k ks IH]; intros d H; [exact H|]. apply IH, is_dict_del, H.
Qed.

Lemma h_get_dels : forall ks d k, is_dict d ->
  h_get k (dels ks d) = if existsb (leqb k) ks then None else h_get k d.
Proof.
  induction ks as [|a ks IH]; intros d k H; [reflexivity|]. cbn [existsb].
  change (dels (a :: ks) d) with (dels ks (d_del leqb a d)).
  rewrite IH by (apply is_dict_del; exact H). rewrite h_get_del by exact H.
  destruct (leqb k a), (existsb (leqb k) ks); reflexivity.
Qed.

Lemma with_headers_twice : forall a b m, with_headers a (with_headers b m) = with_headers a m.
Proof. reflexivity. Qed.

Lemma encode_entry_run : forall k v b d, h_get k d = Some v -> header_run k v b ->
  encode_entry k d = Ok b.
Proof.
  intros k v b d E (H & Ho & _). unfold encode_entry. rewrite E, H. cbn [bind].
  apply array_of_ints. exact Ho.
Qed.

Lemma encode_first_run : forall ks m, is_dict (m_headers m) -> NoDup ks ->
  Forall (fun k => exists v b, h_get k (m_headers m) = Some v /\ entry_run (k, v) b) ks ->
  exists L bss, map fst L = ks /\ Forall2 entry_run L bss /\
    Forall (fun e => h_get (fst e) (m_headers m) = Some (snd e)) L /\
    encode_first ks m = (Ok (concat bss), with_headers (dels ks (m_headers m)) m).
Proof.
  induction ks as [|k ks IH]; intros m Hd Hn H.
  - exists [], []. repeat split; try constructor. destruct m; reflexivity.
  - destruct (Forall_inv H) as (v & b & E & Hr). apply Forall_inv_tail in H.
    pose (m1 := with_headers (d_del leqb k (m_headers m)) m).
    assert (Hk : ~ In k ks /\ NoDup ks) by (inversion Hn; auto). destruct Hk as (Hk & Hn').
    assert (G : forall k', In k' ks -> h_get k' (m_headers m1) = h_get k' (m_headers m)).
    { intros k' Hin. unfold m1. cbn [m_headers with_headers]. rewrite h_get_del by exact Hd.
      destruct (leqb k' k) eqn:E'; [|reflexivity]. apply leqb_eq in E'. subst. contradiction. }
    destruct (IH m1) as (L & bss & EL & HF & HL & EE).
    + apply is_dict_del. exact Hd.
    + exact Hn'.
    + apply Forall_forall. intros k' Hin. rewrite Forall_forall in H.
      destruct (H k' Hin) as (v' & b' & E' & Hr'). exists v', b'. rewrite G by exact Hin. auto.
    + exists ((k, v) :: L), (b :: bss). repeat split.
      * cbn. rewrite EL. reflexivity.
      * constructor; assumption.
      * constructor; [exact E|]. apply Forall_forall. intros e He. rewrite Forall_forall in HL.
        rewrite <- G by (rewrite <- EL; apply in_map; exact He). exact (HL e He).
      * cbn [encode_first]. unfold st_bind, st_get, st_lift, st_upd, st_ret.
        rewrite (encode_entry_run k v b _ E (proj1 Hr)). fold m1. rewrite EE. reflexivity.
Qed.

Lemma encode_others_run : forall w d,
  Forall (fun e => leqb (fst e) (str "Content-Type") = true \/ exists b, entry_run e b)
         (w_order w d) ->
  exists bss, Forall2 entry_run
      (filter (fun e => negb (leqb (fst e) (str "Content-Type"))) (w_order w d)) bss /\
    encode_others w d = Ok (concat bss).
Proof.
  intros w d. unfold encode_others. generalize (w_order w d) as l. clear d.
  induction l as [|e l IH]; intros H.
  - exists []. split; [constructor|reflexivity].
  - destruct (IH (Forall_inv_tail H)) as (bss & HF & E). cbn [mapM filter].
    destruct (mapM _ l) as [ls|] eqn:EM; [|discriminate]. cbn [bind] in E.
    assert (Ec : concat ls = concat bss) by congruence.
    destruct (Forall_inv H) as [C|(b & (Hr & C))]; rewrite C; cbn [negb bind].
    + exists bss. split; [exact HF|]. cbn [concat app]. rewrite Ec. reflexivity.
    + destruct Hr as (E1 & E2 & E3 & E4). rewrite E1. cbn [bind].
      rewrite array_of_ints by exact E2. cbn [bind]. exists (b :: bss). split.
      * constructor; [|exact HF]. split; [|exact C]. repeat split; assumption.
      * cbn [concat]. rewrite Ec. reflexivity.
Qed.

Lemma flatten_list_ints : forall l, flatten_list (ints l) = ints l.
Proof. intros l. apply flatten_ints. Qed.

Lemma encode_last_run : forall d media, h_get (str "Content-Type") d = Some (HType media []) ->
  plain_media media ->
  exists cb, cb <> [] /\ Forall is_octet cb /\ encode_last d = Ok cb /\
    forall rest, wp decode_header (cb ++ rest) 0
                    (becomes (str "Content-Type", HType media []) rest).
Proof.
  intros d media E H. destruct (content_type_value_run media H) as (l & bytes & E1 & -> & Ho & Hr).
  exists (132 :: bytes). split; [discriminate|]. split; [|split].
  - constructor; [unfold is_octet; lia|exact Ho].
  - unfold encode_last. rewrite E. cbn [unpack_type bind].
    replace (encode_mms_field_name (str "Content-Type")) with (Ok [132]) by (vm_compute; reflexivity).
    cbn [bind]. rewrite E1. cbn [bind]. rewrite flatten_list_ints, array_of_ints by exact Ho.
    reflexivity.
  - intros rest. cbn [app]. change 132 with (128 + 4).
    eapply mms_header_run; [lia|vm_compute; reflexivity|].
    cbn [decode_mms_value]. eapply wp_seq; [apply Hr|]. wsteps. apply becomes_intro.
Qed.

(** * Decoding *)

Definition sets (L d : list (list Z * hval)) : list (list Z * hval) :=
  fold_left (fun d e => d_set leqb (fst e) (snd e) d) L d.

Lemma header_loop_run : forall L bss v cb, Forall2 entry_run L bss ->
  (forall rest, wp decode_header (cb ++ rest) 0 (becomes (str "Content-Type", v) rest)) ->
  forall fuel d rest, (length L < fuel)%nat ->
  wp (header_loop fuel d) (concat bss ++ cb ++ rest) 0
     (becomes (d_set leqb (str "Content-Type") v (sets L d)) rest).
Proof.
  intros L bss v cb H Hc. induction H as [|e b L bss He _ IH]; intros fuel d rest Hf;
    (destruct fuel as [|f]; [cbn in Hf; lia|]).
  - cbn [concat app header_loop].
    eapply wp_then with (m := decode_header)
      (j := fun r => match r with
                     | Ok (h, v) => if leqb h (str "Content-Type") then st_ret (d_set leqb h v d)
                                    else header_loop f (d_set leqb h v d)
                     | Err StopIteration => st_ret d
                     | Err e => st_err e
                     end).
    + intros it. destruct (decode_header it) as [[[h x]|e] it']; [|destruct e; reflexivity].
      cbn [fst snd]. destruct (leqb h (str "Content-Type")); reflexivity.
    + eapply wp_mono; [apply Hc|]. intros r l' p' (-> & -> & ->). keys. wsteps. apply becomes_intro.
  - cbn [concat header_loop]. rewrite <- app_assoc.
    eapply wp_then with (m := decode_header)
      (j := fun r => match r with
                     | Ok (h, v) => if leqb h (str "Content-Type") then st_ret (d_set leqb h v d)
                                    else header_loop f (d_set leqb h v d)
                     | Err StopIteration => st_ret d
                     | Err e => st_err e
                     end).
    + intros it. destruct (decode_header it) as [[[h x]|x] it']; [|destruct x; reflexivity].
      cbn [fst snd]. destruct (leqb h (str "Content-Type")); reflexivity.
    + destruct He as ((_ & _ & _ & Hw) & C). eapply wp_mono; [apply Hw|].
      intros r l' p' (-> & -> & ->). rewrite C. destruct e as [k x]. cbn [fst snd].
      apply IH. cbn in Hf. lia.
Qed.

Lemma sets_spec : forall (D : list Z -> option hval) L d0,
  (forall e, In e L -> D (fst e) = Some (snd e)) ->
  (forall k v, D k = Some v -> In (k, v) L) ->
  (forall k, D k = None -> h_get k d0 = None) ->
  forall k, h_get k (sets L d0) = D k.
Proof.
  intros D L d0 H1 H2 H3 k.
  assert (G : forall L d0, (forall e, In e L -> D (fst e) = Some (snd e)) ->
     (exists v, In (k, v) L) \/ h_get k d0 = D k -> h_get k (sets L d0) = D k).
  { clear. induction L as [|e L IH]; intros d0 H1 H.
    - destruct H as [(v & [])|H]. exact H.
    - change (sets (e :: L) d0) with (sets L (d_set leqb (fst e) (snd e) d0)).
      apply IH; [intros e' He; apply H1; right; exact He|].
      rewrite h_get_set. destruct (leqb k (fst e)) eqn:E.
      + right. apply leqb_eq in E. subst. symmetry. apply H1. left. reflexivity.
      + destruct H as [(v & [->|Hin])|H]; [cbn in E; rewrite leqb_refl in E; discriminate| |].
        * left. exists v. exact Hin.
        * right. exact H. }
  apply G; [exact H1|]. destruct (D k) as [v|] eqn:E.
  - left. exists v. apply H2. exact E.
  - right. apply H3. exact E.
Qed.

Lemma filter_In_perm : forall (f : list Z * hval -> bool) l l' e, Permutation l' l ->
  (In e (filter f l') <-> In e l /\ f e = true).
Proof.
  intros f l l' e H. rewrite filter_In. split; intros (A & B); split; auto.
  - eapply Permutation_in; [exact H|exact A].
  - eapply Permutation_in; [apply Permutation_sym; exact H|exact A].
Qed.

Lemma Forall2_runs : forall L bss, Forall2 entry_run L bss ->
  (length L <= length (concat bss))%nat /\ Forall is_octet (concat bss).
Proof.
  intros L bss H. induction H as [|e b L bss ((_ & Ho & Hb & _) & _) _ (IH & IHo)].
  - split; [cbn; lia|constructor].
  - cbn [concat length]. rewrite app_length. split.
    + destruct b; [congruence|cbn; lia].
    + apply Forall_app. auto.
Qed.

Definition sent_first : list (list Z) := [str "Message-Type"; str "Transaction-Id"; str "MMS-Version"].

(** The headers of a message, encoded and decoded. *)
Lemma message_headers_run : forall w rand m,
  is_dict (m_headers m) -> any_order w -> sendable rand (m_headers m) ->
  exists bytes d',
    encode_message_header w rand m =
      (Ok bytes, with_headers (dels sent_first
         (fix_rest rand (fix_message_type (renames (m_headers m))))) m) /\
    Forall is_octet bytes /\
    (forall rest, wp decode_message_header (bytes ++ rest) 0 (becomes d' rest)) /\
    forall k, h_get k d' = sent_headers rand (m_headers m) k.
Proof.
  intros w rand m Hd Hw (Hct & Hs).
  pose (D := fix_rest rand (fix_message_type (renames (m_headers m)))).
  assert (HD : is_dict D) by (apply is_dict_rest, is_dict_type, is_dict_renames, Hd).
  assert (ED : forall k, h_get k D = sent_headers rand (m_headers m) k)
    by (intros k; apply sent_spec; exact Hd).
  assert (Hent : forall k v, h_get k D = Some v -> leqb k (str "Content-Type") = false ->
                 exists b, entry_run (k, v) b).
  { intros k v E C. rewrite ED in E. specialize (Hs k v E). rewrite C in Hs.
    destruct (supported_run k v Hs) as (b & Hb). exists b. split; [exact Hb|exact C]. }
  assert (HC : exists media, h_get (str "Content-Type") D = Some (HType media []) /\ plain_media media).
  { rewrite ED. destruct (sent_headers rand (m_headers m) (str "Content-Type")) as [v|] eqn:E.
    - specialize (Hs _ v E). rewrite leqb_refl in Hs. destruct Hs as (media & -> & Hm).
      exists media. auto.
    - exfalso. apply Hct. revert E. unfold sent_headers. keys. auto. }
  destruct HC as (media & EC & Hmedia).
  assert (HF : forall k, In k sent_first -> exists v, h_get k D = Some v).
  { intros k Hk. rewrite ED. unfold sent_headers.
    destruct Hk as [<-|[<-|[<-|[]]]]; keys;
      repeat match goal with |- exists v, match ?x with _ => _ end = _ => destruct x end; eauto. }
  pose (m1 := with_headers D m).
  destruct (encode_first_run sent_first m1) as (L1 & bs1 & EL1 & R1 & G1 & E1).
  { exact HD. }
  { repeat constructor; cbn [In]; intros X;
      repeat destruct X as [X|X]; try discriminate X; try contradiction. }
  { apply Forall_forall. intros k Hk. destruct (HF k Hk) as (v & Ev).
    destruct (Hent k v Ev) as (b & Hb);
      [destruct Hk as [<-|[<-|[<-|[]]]]; vm_compute; reflexivity|].
    exists v, b. split; [exact Ev|exact Hb]. }
  pose (D3 := dels sent_first D).
  assert (HD3 : is_dict D3) by (apply is_dict_dels; exact HD).
  assert (E3 : forall k, h_get k D3 = if existsb (leqb k) sent_first then None else h_get k D)
    by (intros k; apply h_get_dels; exact HD).
  destruct (encode_others_run w D3) as (bs2 & R2 & E2).
  { apply Forall_forall. intros [k v] He.
    apply (Permutation_in _ (Hw D3)) in He. apply (h_get_In D3 k v HD3) in He.
    rewrite E3 in He. destruct (existsb (leqb k) sent_first); [discriminate|].
    destruct (leqb k (str "Content-Type")) eqn:C; [left; exact C|right].
    exact (Hent k v He C). }
  destruct (encode_last_run D3 media) as (cb & Hcb & Ho & E4 & Hlast).
  { rewrite E3. exact EC. }
  { exact Hmedia. }
  set (L2 := filter (fun e => negb (leqb (fst e) (str "Content-Type"))) (w_order w D3)) in *.
  assert (R12 : Forall2 entry_run (L1 ++ L2) (bs1 ++ bs2)) by (apply Forall2_app; assumption).
  destruct (Forall2_runs _ _ R12) as (Hlen & Hoct).
  exists (concat (bs1 ++ bs2) ++ cb), (d_set leqb (str "Content-Type") (HType media [])
                                   (sets (L1 ++ L2) default_headers)).
  split; [|split; [|split]].
  - unfold encode_message_header. unfold st_bind at 1 2 3, st_upd at 1 2 3.
    cbn [with_headers m_headers]. fold D. rewrite !with_headers_twice. fold m1.
    unfold st_bind at 1. fold sent_first. rewrite E1. cbn [m_headers with_headers].
    change (m_headers m1) with D. fold D3. unfold st_bind, st_get, st_lift, st_ret.
    cbn [m_headers with_headers]. rewrite E2, E4, concat_app, <- app_assoc. reflexivity.
  - apply Forall_app. auto.
  - intros rest. unfold decode_message_header. apply wp_fuelled. rewrite <- app_assoc.
    apply header_loop_run; [exact R12|exact Hlast|].
    rewrite (app_length (concat _)). lia.
  - intros k. rewrite <- ED.
    pose (L := (L1 ++ L2) ++ [(str "Content-Type", HType media [])]).
    assert (EL : d_set leqb (str "Content-Type") (HType media []) (sets (L1 ++ L2) default_headers)
                 = sets L default_headers)
      by (unfold L, sets; rewrite (fold_left_app _ (L1 ++ L2)); reflexivity).
    rewrite EL. apply (sets_spec (fun k => h_get k D)); clear k.
    + intros e He. unfold L in He. rewrite !in_app_iff in He.
      destruct He as [[He|He]|[<-|[]]].
      * rewrite Forall_forall in G1. exact (G1 e He).
      * apply (filter_In_perm _ D3) in He; [|apply Hw]. destruct He as (He & _).
        destruct e as [k v]. apply (h_get_In D3 k v HD3) in He. rewrite E3 in He.
        cbn [fst snd]. destruct (existsb (leqb k) sent_first); [discriminate|exact He].
      * exact EC.
    + intros k v E. unfold L. rewrite !in_app_iff.
      destruct (leqb k (str "Content-Type")) eqn:C.
      { apply leqb_eq in C. subst. right. left. congruence. }
      left. destruct (existsb (leqb k) sent_first) eqn:X.
      * left. apply existsb_exists in X. destruct X as (k' & Hin & Ek). apply leqb_eq in Ek. subst k'.
        rewrite <- EL1 in Hin. apply in_map_iff in Hin. destruct Hin as ([k' v'] & <- & Hin).
        rewrite Forall_forall in G1. specialize (G1 _ Hin). cbn [fst snd] in *.
        change (m_headers m1) with D in G1. congruence.
      * right. apply (filter_In_perm _ D3); [apply Hw|]. split.
        -- apply (h_get_In D3 k v HD3). rewrite E3, X. exact E.
        -- cbn [fst]. rewrite C. reflexivity.
    + intros k E. destruct (h_get k default_headers) as [v|] eqn:X; [|reflexivity].
      exfalso. apply h_get_In in X; [|repeat constructor; cbn [In fst map]; intros Y;
        repeat destruct Y as [Y|Y]; try discriminate Y; try contradiction].
      cbn [default_headers In] in X.
      destruct X as [X|[X|[X|[X|[]]]]]; apply pair_equal_spec in X; destruct X as (<- & _).
      * destruct (HF _ (or_introl eq_refl)) as (v' & E'). rewrite E' in E; discriminate E.
      * destruct (HF _ (or_intror (or_introl eq_refl))) as (v' & E').
        rewrite E' in E; discriminate E.
      * destruct (HF _ (or_intror (or_intror (or_introl eq_refl)))) as (v' & E').
        rewrite E' in E; discriminate E.
      * rewrite EC in E; discriminate E.
Qed.

(** * What any successful encoding looks like *)

Lemma encode_first_inv : forall ks m bytes m', encode_first ks m = (Ok bytes, m') ->
  m' = with_headers (dels ks (m_headers m)) m.
Proof.
  induction ks as [|k ks IH]; intros m bytes m' E.
  - cbn in E. destruct m. inversion E. reflexivity.
  - cbn [encode_first] in E. unfold st_bind, st_get, st_lift, st_upd, st_ret in E.
    destruct (encode_entry k (m_headers m)); [|discriminate].
    destruct (encode_first ks _) as [[bs|] m1] eqn:E1; [|discriminate].
    inversion E. subst. apply IH in E1. rewrite E1. reflexivity.
Qed.

Lemma message_header_inv : forall w rand m bytes m', is_dict (m_headers m) ->
  encode_message_header w rand m = (Ok bytes, m') ->
  m' = with_headers (dels sent_first
         (fix_rest rand (fix_message_type (renames (m_headers m))))) m /\
  exists v b more, sent_headers rand (m_headers m) (str "Message-Type") = Some v /\
    encode_message_type_value v = Ok [b] /\ bytes = 140 :: b :: more.
Proof.
  intros w rand m bytes m' Hd E.
  pose (D := fix_rest rand (fix_message_type (renames (m_headers m)))).
  pose proof (sent_spec rand (m_headers m) (str "Message-Type") Hd) as ES. fold D in ES.
  unfold encode_message_header in E. unfold st_bind at 1 2 3, st_upd at 1 2 3 in E.
  cbn [with_headers m_headers] in E. fold D in E. rewrite !with_headers_twice in E.
  unfold st_bind at 1 in E. fold sent_first in E.
  destruct (encode_first sent_first (with_headers D m)) as [[a|e] m1] eqn:E1; [|discriminate].
  pose proof (encode_first_inv _ _ _ _ E1) as Em. cbn [m_headers with_headers] in Em.
  rewrite with_headers_twice in Em.
  unfold st_bind, st_get, st_lift, st_ret in E.
  destruct (encode_others w (m_headers m1)) as [b|]; [|discriminate].
  destruct (encode_last (m_headers m1)) as [c|]; [|discriminate].
  assert (Eb : a ++ b ++ c = bytes /\ m1 = m') by (inversion E; auto).
  destruct Eb as (Eb & <-). split; [exact Em|].
  cbn [encode_first sent_first] in E1. unfold st_bind at 1 2 in E1.
  unfold st_get at 1, st_lift at 1 in E1. cbn [m_headers with_headers] in E1.
  unfold encode_entry at 1 in E1. fold (encode_first [str "Transaction-Id"; str "MMS-Version"]) in E1.
  destruct (h_get (str "Message-Type") D) as [v|] eqn:EV; [|discriminate].
  exists v. unfold mms_encode_header in E1.
  replace (find_field (str "Message-Type")) with (Some (12, (str "Message-Type", MMessageType)))
    in E1 by (vm_compute; reflexivity).
  rewrite encode_short_integer_ok in E1 by lia. cbn [bind encode_mms_value] in E1.
  assert (S : forall x l, encode_message_type_value x = Ok l -> exists n, l = [n]).
  { intros x l. unfold encode_message_type_value. destruct x as [[]| | | |];
      intros X; inversion X; eauto. }
  destruct (encode_message_type_value v) as [l|] eqn:El; [|discriminate].
  destruct (S v l El) as (n & ->). cbn [bind] in E1.
  destruct (array_of (ints [128 + 12] ++ ints [n])) as [b0|] eqn:Ea; [|discriminate].
  assert (Ha : b0 = [140; n]).
  { revert Ea. cbn [ints map app]. unfold array_of. cbn [mapM array_item].
    change ((0 <=? 128 + 12) && (128 + 12 <? 256)) with true. cbn [bind].
    destruct ((0 <=? n) && (n <? 256)); [|discriminate]. cbn [bind]. intros X.
    injection X as <-. reflexivity. }
  unfold st_bind at 1, st_upd at 1 in E1.
  unfold st_bind at 1 in E1.
  destruct (encode_first [str "Transaction-Id"; str "MMS-Version"] _) as [[bs|] m2] eqn:E2;
    [|discriminate].
  exists n. eexists. split; [symmetry; exact ES|]. split; [reflexivity|].
  assert (Ea' : b0 ++ bs = a) by (unfold st_ret in E1; congruence).
  subst a b0 bytes. cbn [app]. reflexivity.
Qed.

Lemma message_body_headers : forall render w m r m',
  encode_message_body render w m = (r, m') -> m_headers m' = m_headers m.
Proof.
  intros render w m r m' E. unfold encode_message_body, st_bind, st_get, st_lift in E.
  destruct (smil render w m) as [text|]; [|inversion E; reflexivity].
  destruct (fst (encode_part w (smil_part text))); [|inversion E; reflexivity].
  destruct (encode_pages w (m_pages m)) as [[b|] gs]; inversion E; reflexivity.
Qed.

Lemma encode_inv : forall render w rand m bytes m',
  encode render w rand m = (Ok bytes, m') ->
  exists h b m1, encode_message_header w rand m = (Ok h, m1) /\
    encode_message_body render w m1 = (Ok b, m') /\ bytes = h ++ b /\
    m_headers m' = m_headers m1.
Proof.
  intros render w rand m bytes m' E. unfold encode, st_bind, st_ret in E.
  destruct (encode_message_header w rand m) as [[h|] m1] eqn:E1; [|discriminate].
  destruct (encode_message_body render w m1) as [[b|] m2] eqn:E2; [|discriminate].
  exists h, b, m1. inversion E. subst. repeat split; auto.
  eapply message_body_headers; eauto.
Qed.

Lemma sent_first_gone : forall rand d k, is_dict d -> In k sent_first ->
  h_get k (dels sent_first (fix_rest rand (fix_message_type (renames d)))) = None.
Proof.
  intros rand d k Hd Hk.
  rewrite h_get_dels by (apply is_dict_rest, is_dict_type, is_dict_renames, Hd).
  destruct (existsb (leqb k) sent_first) eqn:E; [reflexivity|].
  assert (X : existsb (leqb k) sent_first = true)
    by (apply existsb_exists; exists k; split; [exact Hk|apply leqb_refl]).
  congruence.
Qed.

Lemma is_dict_sent : forall rand d, is_dict d ->
  is_dict (dels sent_first (fix_rest rand (fix_message_type (renames d)))).
Proof.
  intros rand d H. apply is_dict_dels, is_dict_rest, is_dict_type, is_dict_renames, H.
Qed.

Lemma sent_unchanged : forall rand d,
  (forall k, In k [str "Message-Type"; str "Transaction-Id"; str "MMS-Version";
                   str "Content-Type"] -> has k d) ->
  (forall k, In k [str "X-Mms-Message-Type"; str "X-Mms-Transaction-Id";
                   str "X-Mms-Version"] -> ~ has k d) ->
  (h_get (str "Message-Type") d <> Some (HStr (str "m-send-req")) \/
   has (str "To") d \/ has (str "Cc") d) ->
  forall k, sent_headers rand d k = h_get k d.
Proof.
  intros rand d H4 Hx Hr k.
  assert (X : forall k, In k [str "X-Mms-Message-Type"; str "X-Mms-Transaction-Id";
                   str "X-Mms-Version"] -> h_get k d = None).
  { intros k' Hk. specialize (Hx k' Hk). unfold has in Hx. destruct (h_get k' d); [|reflexivity].
    destruct Hx. discriminate. }
  assert (P : forall k, In k [str "Message-Type"; str "Transaction-Id"; str "MMS-Version";
                   str "Content-Type"] -> exists v, h_get k d = Some v).
  { intros k' Hk. specialize (H4 k' Hk). unfold has in H4. destruct (h_get k' d); [eauto|congruence]. }
  unfold sent_headers.
  rewrite !X by (cbn [In]; tauto).
  destruct (P (str "Message-Type")) as (v1 & E1); [cbn [In]; tauto|].
  destruct (P (str "Transaction-Id")) as (v2 & E2); [cbn [In]; tauto|].
  destruct (P (str "MMS-Version")) as (v3 & E3); [cbn [In]; tauto|].
  rewrite E1, E2, E3.
  repeat key_case; rewrite ?X by (cbn [In]; tauto); try congruence.
  rewrite E1. match goal with |- (if ?c then _ else _) = _ => destruct c eqn:E end; [|reflexivity].
  exfalso. rewrite !andb_true_iff, !negb_true_iff in E. destruct E as (((A & B) & C) & _).
  destruct Hr as [Hr|[Hr|Hr]]; [|apply h_mem_has in Hr; congruence..].
  apply Hr. rewrite E1. destruct v1 as [[s| | |]| | | |]; try discriminate A.
  cbn [is_hstr] in A. apply leqb_eq in A. subst. reflexivity.
Qed.

Lemma not_has : forall k d, ~ has k d -> h_get k d = None.
Proof. intros k d H. unfold has in H. destruct (h_get k d); [|reflexivity]. destruct H. discriminate. Qed.

Lemma sent_type : forall rand d, ~ has (str "X-Mms-Message-Type") d ->
  sent_headers rand d (str "Message-Type") =
  match h_get (str "Message-Type") d with
  | None => Some (HStr (str "m-retrieve-conf"))
  | Some v =>
      if is_hstr v (str "m-send-req") && negb (h_mem (str "To") d)
         && negb (h_mem (str "Cc") d) && negb (h_mem (str "Bc") d)
      then Some (HStr (str "m-retrieve-conf")) else Some v
  end.
Proof.
  intros rand d H. unfold sent_headers. keys. rewrite (not_has _ _ H). reflexivity.
Qed.

Lemma sent_type_recipient : forall rand d, ~ has (str "X-Mms-Message-Type") d ->
  h_get (str "Message-Type") d = Some (HStr (str "m-send-req")) ->
  has (str "To") d \/ has (str "Cc") d ->
  sent_headers rand d (str "Message-Type") = Some (HStr (str "m-send-req")).
Proof.
  intros rand d H E Hr. rewrite sent_type, E by exact H.
  destruct Hr as [Hr|Hr]; apply h_mem_has in Hr; rewrite Hr; rewrite ?andb_false_r; reflexivity.
Qed.

Lemma sent_type_missing : forall rand d, ~ has (str "X-Mms-Message-Type") d ->
  ~ has (str "Message-Type") d ->
  sent_headers rand d (str "Message-Type") = Some (HStr (str "m-retrieve-conf")).
Proof. intros rand d H E. rewrite sent_type, (not_has _ _ E) by exact H. reflexivity. Qed.

Lemma sent_type_nobody : forall rand d, ~ has (str "X-Mms-Message-Type") d ->
  h_get (str "Message-Type") d = Some (HStr (str "m-send-req")) ->
  ~ has (str "To") d -> ~ has (str "Cc") d -> ~ has (str "Bc") d ->
  sent_headers rand d (str "Message-Type") = Some (HStr (str "m-retrieve-conf")).
Proof.
  intros rand d H E H1 H2 H3. rewrite sent_type, E by exact H. unfold h_mem.
  rewrite (not_has _ _ H1), (not_has _ _ H2), (not_has _ _ H3). reflexivity.
Qed.
