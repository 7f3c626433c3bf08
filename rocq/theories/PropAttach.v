(** Theorems about files made into parts, about slides and the content type of a
    message, and about what the versions of WSP assign: C91, C92, C64. *)
From Coq Require Import Lia ZifyBool ZifyNat.
From Verif Require Import Py Iter Tables WspDec WspEnc Message MmsEnc MmsDec
  SpecWsp SpecAttach WspClaims MmsClaims PyFacts IterFacts WspFacts MmsTotal ContentFacts
  HeaderFacts MsgHeaderFacts BodyFacts PropContent.
Open Scope Z_scope.

(** * C91 *)

(** The part [p] presents the file [path]: it names and types it, has no other
    header, and its data and its length are those of the file. *)
Record presents (w : world) (path : list Z) (p : part) : Prop := {
  pr_name : exists base, last_component path base /\
    h_get (str "Content-Location") (dp_headers p) = Some (HStr base);
  pr_type : exists media, file_type (w_mime w path) media /\
    h_get (str "Content-Type") (dp_headers p) = Some (HType media []);
  pr_only : forall k v, h_get k (dp_headers p) = Some v ->
    k = str "Content-Location" \/ k = str "Content-Type";
  pr_data : exists data, w_file w path = Some data /\
    data_of w p = Ok data /\ len_of w p = Ok (zlen data) }.

Lemma basename_acc_spec : forall s acc, ~ In 47 acc ->
  ~ In 47 (basename_acc acc s) /\
  (rev acc ++ s = basename_acc acc s \/ exists dir, s = dir ++ [47] ++ basename_acc acc s).
Proof.
  induction s as [|c s IH]; intros acc H; cbn [basename_acc].
  - rewrite app_nil_r. split; [rewrite <- in_rev; exact H|auto].
  - destruct (c =? 47) eqn:E.
    + assert (c = 47) by lia. subst c. destruct (IH [] ltac:(easy)) as (A & B). split; [exact A|].
      right. destruct B as [B|(dir & B)].
      * exists []. cbn [rev app] in *. congruence.
      * exists (47 :: dir). cbn [app]. f_equal. exact B.
    + destruct (IH (c :: acc)) as (A & B); [cbn [In]; intros [X|X]; [lia|contradiction]|].
      split; [exact A|]. destruct B as [B|(dir & B)].
      * left. cbn [rev] in B. rewrite <- app_assoc in B. exact B.
      * right. exists (c :: dir). cbn [app] in *. congruence.
Qed.
Lemma basename_spec s : last_component s (basename s).
Proof. destruct (basename_acc_spec s []) as (A & B); [easy|]. split; [exact A|exact B]. Qed.

Lemma from_file_presents w path p0 : w_file w path <> None ->
  exists p, from_file w path p0 = (Ok tt, p) /\ presents w path p.
Proof.
  intros H. unfold from_file. destruct (w_file w path) as [data|] eqn:E; [|congruence].
  eexists. split; [reflexivity|]. split; cbn [dp_headers].
  - exists (basename path). split; [apply basename_spec|reflexivity].
  - eexists. split; [|reflexivity]. unfold file_type.
    destruct (w_mime w path) as [[|c m]|]; reflexivity.
  - intros k v X. unfold h_get in X. cbn [d_get] in X.
    destruct (leqb k (str "Content-Location")) eqn:C; [left; apply leqb_eq; exact C|].
    destruct (leqb k (str "Content-Type")) eqn:C1; [right; apply leqb_eq; exact C1|discriminate].
  - exists data. split; [exact E|]. unfold data_of, len_of, part_len, get_data, st_bind, st_get.
    cbn [dp_data dp_filename]. rewrite E. split; reflexivity.
Qed.

(** C91: loading a file replaces everything the part had before; a path that is no
    file is refused and changes nothing. *)
Theorem C91_file : forall w path p0,
  (w_file w path <> None -> exists p, from_file w path p0 = (Ok tt, p) /\ presents w path p) /\
  (w_file w path = None -> from_file w path p0 = (Err OSError, p0)).
Proof.
  intros w path p0. split; [apply from_file_presents|]. intros E. unfold from_file. rewrite E. reflexivity.
Qed.
Print Assumptions C91_file.

(** C91: a part created with the name of a file. *)
Theorem C91_new : forall w path p, part_from_file w path = Ok p -> presents w path p.
Proof.
  intros w path p H. unfold part_from_file in H.
  assert (N : w_file w path <> None).
  { intros X. unfold from_file in H. rewrite X in H. discriminate H. }
  destruct (from_file_presents w path new_part N) as (q & E & Hq). rewrite E in H.
  assert (p = q) by congruence. subst. exact Hq.
Qed.
Print Assumptions C91_new.

(** C91: the image and the sound of a slide. *)
Theorem C91_slide : forall w path tb te g g',
  (add_image w path tb te g = (Ok tt, g') ->
   exists p, pg_image g' = Some (p, tb, te) /\ presents w path p /\
     pg_audio g' = pg_audio g /\ pg_text g' = pg_text g /\ pg_duration g' = pg_duration g) /\
  (add_audio w path tb te g = (Ok tt, g') ->
   exists p, pg_audio g' = Some (p, tb, te) /\ presents w path p /\
     pg_image g' = pg_image g /\ pg_text g' = pg_text g /\ pg_duration g' = pg_duration g).
Proof.
  assert (X : forall w path tb te g r (put : part -> page -> page) g',
    (_ <~ check_times (isfile w path) tb te ;;
     p <~ st_lift (part_from_file w path) ;; st_upd (put p)) g = (r, g') -> r = Ok tt ->
    exists p, presents w path p /\ g' = put p g).
  { intros w path tb te g r put g' E Er. unfold st_bind, st_lift, st_upd in E.
    assert (C : snd (check_times (isfile w path) tb te g) = g).
    { unfold check_times. destruct (negb (is_int tb) || negb (is_int te)); [reflexivity|].
      destruct (negb (isfile w path)); [reflexivity|].
      destruct ((0 <? te) && (te <? tb)); reflexivity. }
    destruct (check_times (isfile w path) tb te g) as [[[]|e] g1]; [|subst r; discriminate E].
    cbn [snd] in C. subst g1.
    destruct (part_from_file w path) as [p|e] eqn:P; [|subst r; discriminate E].
    exists p. split; [apply C91_new; exact P|congruence]. }
  intros w path tb te g g'. split; intros E.
  - unfold add_image in E. destruct (X _ _ _ _ _ _ _ _ E eq_refl) as (p & H & ->). exists p. auto 10.
  - unfold add_audio in E. destruct (X _ _ _ _ _ _ _ _ E eq_refl) as (p & H & ->). exists p. auto 10.
Qed.
Print Assumptions C91_slide.
Example C91_case :
  let w := World (fun f => if leqb f (str "/tmp/a/cat.jpg") then Some [1; 2; 3] else None)
                 (fun f => None) (fun d => d) in
  last_component (str "/tmp/a/cat.jpg") (str "cat.jpg") /\
  file_type (w_mime w (str "/tmp/a/cat.jpg")) (str "application/octet-stream") /\
  match add_image w (str "/tmp/a/cat.jpg") 0 0 new_page with
  | (Ok _, g) =>
      match pg_image g with
      | Some (p, _, _) =>
          h_get (str "Content-Location") (dp_headers p) = Some (HStr (str "cat.jpg")) /\
          h_get (str "Content-Type") (dp_headers p) = Some (HType (str "application/octet-stream") [])
      | None => False
      end
  | _ => False
  end.
Proof.
  split; [|split; [reflexivity|vm_compute; auto]].
  split; [vm_compute; intuition discriminate|right]. exists (str "/tmp/a"). reflexivity.
Qed.

(** * C92 *)

(** What is added to a message. *)
Inductive addition := Slide (g : page) | Attachment (p : part).
Definition adds (a : addition) : ST message unit :=
  match a with
  | Slide g => add_page g
  | Attachment p => st_upd (add_data_part p)
  end.
Fixpoint adds_all (l : list addition) : ST message unit :=
  match l with
  | [] => st_ret tt
  | a :: r => _ <~ adds a ;; adds_all r
  end.
Definition slides (l : list addition) : list page :=
  flat_map (fun a => match a with Slide g => [g] | Attachment _ => [] end) l.
Definition attachments (l : list addition) : list part :=
  flat_map (fun a => match a with Slide _ => [] | Attachment p => [p] end) l.

(** C92: whatever is added to a message with a content type, in whatever order: the
    slides and the attached parts are those added, in order; with a slide among
    them, the content type is multipart/related, with the parameters it had if it
    was that before; without one it is what it was.  No other header changes. *)
Theorem C92_content_type : forall l m media params,
  h_get (str "Content-Type") (m_headers m) = Some (HType media params) ->
  exists m', adds_all l m = (Ok tt, m') /\
    m_pages m' = m_pages m ++ slides l /\ m_parts m' = m_parts m ++ attachments l /\
    (forall k, k <> str "Content-Type" -> h_get k (m_headers m') = h_get k (m_headers m)) /\
    h_get (str "Content-Type") (m_headers m') =
      Some (if (length (slides l) =? 0)%nat
               || leqb media (str "application/vnd.wap.multipart.related")
            then HType media params
            else HType (str "application/vnd.wap.multipart.related") []).
Proof.
  induction l as [|[g|p] l IH]; intros m media params H.
  - exists m. cbn [adds_all slides attachments flat_map length]. rewrite !app_nil_r. auto.
  - set (rel := str "application/vnd.wap.multipart.related").
    set (h := if leqb media rel then m_headers m
              else d_set leqb (str "Content-Type") (HType rel []) (m_headers m)).
    set (m1 := Message h (m_pages m ++ [g]) (m_parts m) (m_width m) (m_height m)).
    assert (E : add_page g m = (Ok tt, m1)).
    { unfold add_page, st_bind, st_get, st_lift, content_type. unfold h_get in H. rewrite H.
      cbn [first_of]. fold rel. unfold m1, h. destruct (leqb media rel); reflexivity. }
    assert (H1 : h_get (str "Content-Type") (m_headers m1) =
      Some (if leqb media rel then HType media params else HType rel [])).
    { unfold m1, h. cbn [m_headers]. destruct (leqb media rel); [exact H|]. rewrite h_get_set. reflexivity. }
    assert (H2 : forall k, k <> str "Content-Type" -> h_get k (m_headers m1) = h_get k (m_headers m)).
    { intros k Hk. unfold m1, h. cbn [m_headers]. destruct (leqb media rel); [reflexivity|].
      rewrite h_get_set. destruct (leqb k (str "Content-Type")) eqn:Ck; [|reflexivity].
      apply leqb_eq in Ck. contradiction. }
    destruct (leqb media rel) eqn:C.
    + destruct (IH m1 _ _ H1) as (m' & Ea & Hp & Hq & Ho & Hc).
      exists m'. cbn [adds_all adds]. unfold st_bind. rewrite E, Ea. split; [reflexivity|].
      rewrite Hp, Hq. unfold m1. cbn [m_pages m_parts slides attachments flat_map].
      split; [rewrite <- app_assoc; reflexivity|]. split; [reflexivity|].
      split; [intros k Hk; rewrite Ho, H2 by exact Hk; reflexivity|].
      rewrite Hc. fold rel. try rewrite C; rewrite ?Bool.orb_true_r. reflexivity.
    + destruct (IH m1 _ _ H1) as (m' & Ea & Hp & Hq & Ho & Hc).
      exists m'. cbn [adds_all adds]. unfold st_bind. rewrite E, Ea. split; [reflexivity|].
      rewrite Hp, Hq. unfold m1. cbn [m_pages m_parts slides attachments flat_map].
      split; [rewrite <- app_assoc; reflexivity|]. split; [reflexivity|].
      split; [intros k Hk; rewrite Ho, H2 by exact Hk; reflexivity|].
      rewrite Hc. fold rel. change (leqb rel rel) with true. try rewrite C; rewrite ?Bool.orb_true_r. reflexivity.
  - destruct (IH (add_data_part p m) media params H) as (m' & Ea & Hp & Hq & Ho & Hc).
    exists m'. cbn [adds_all adds]. unfold st_bind, st_upd. rewrite Ea. split; [reflexivity|].
    rewrite Hp, Hq. unfold add_data_part. cbn [m_pages m_parts slides attachments flat_map].
    rewrite <- app_assoc. repeat split; auto.
Qed.
Print Assumptions C92_content_type.
Example C92_case :
  fst (adds_all [Slide new_page; Attachment new_part; Slide new_page] new_message) = Ok tt /\
  content_type (snd (adds_all [Slide new_page; Attachment new_part; Slide new_page] new_message))
    = Ok (str "application/vnd.wap.multipart.related") /\
  content_type (snd (adds_all [Attachment new_part] new_message))
    = Ok (str "application/vnd.wap.multipart.mixed").
Proof. vm_compute. auto. Qed.

(** C92 for messages whose content type is not a pair of media type and parameters: a
    slide is refused, and nothing changed, when there is no content type, an empty text
    or something that has no first element; after any other text the slide is added, the
    content type being judged by the first character. *)
Theorem C92_other : forall g m,
  let refused e := add_page g m = (Err e, m) in
  match h_get (str "Content-Type") (m_headers m) with
  | None => refused KeyError
  | Some (HP (PStr [])) => refused IndexError
  | Some (HP (PInt _)) | Some (HP (PRatio _ _)) | Some (HP (PDate _)) | Some (HBool _) =>
      refused TypeError
  | Some (HP (PStr (_ :: _))) =>
      exists m', add_page g m = (Ok tt, m') /\
        m_pages m' = m_pages m ++ [g] /\ m_parts m' = m_parts m /\
        m_width m' = m_width m /\ m_height m' = m_height m /\
        forall k, h_get k (m_headers m') =
          if leqb k (str "Content-Type")
          then Some (HType (str "application/vnd.wap.multipart.related") [])
          else h_get k (m_headers m)
  | Some _ => True
  end.
Proof.
  intros g m. cbv zeta. unfold add_page, st_bind, st_get, st_lift, content_type, h_get at 1.
  destruct (d_get leqb (str "Content-Type") (m_headers m)) as [v|]; [|reflexivity].
  destruct v as [p| | | |]; try exact I; try reflexivity.
  destruct p as [[|c s]| | |]; try reflexivity. cbn [first_of].
  change (leqb [c] (str "application/vnd.wap.multipart.related")) with
    ((c =? 97) && false). rewrite Bool.andb_false_r.
  eexists. split; [reflexivity|]. cbn [m_pages m_parts m_width m_height m_headers with_headers].
  do 4 (split; [reflexivity|]). intros k. rewrite h_get_set. reflexivity.
Qed.
Print Assumptions C92_other.
Example C92_other_case :
  let typed v := with_headers (d_set leqb (str "Content-Type") v (m_headers new_message))
                              new_message in
  fst (add_page new_page (typed (HStr []))) = Err IndexError /\
  fst (add_page new_page (typed (HInt 3))) = Err TypeError /\
  content_type (snd (add_page new_page (typed (HStr (str "text/plain"))))) =
    Ok (str "application/vnd.wap.multipart.related").
Proof. vm_compute. auto. Qed.

(** A slide cannot be added to a message without a content type. *)
Theorem C92_no_type : forall g m, h_get (str "Content-Type") (m_headers m) = None ->
  add_page g m = (Err KeyError, m).
Proof.
  intros g m H. unfold add_page, st_bind, st_get, st_lift, content_type.
  unfold h_get in H. rewrite H. reflexivity.
Qed.
Print Assumptions C92_no_type.
Example C92_no_type_case :
  h_get (str "Content-Type") (m_headers (with_headers [] new_message)) = None.
Proof. reflexivity. Qed.

(** * C64 *)

(** C64: in every version exactly those parameter numbers are known that the
    standard assigned with it or before, under the names of the standard. *)
Theorem C64_parameters_exact : forall k, 1 <= k <= 4 ->
  exists d, get_well_known_parameters (wsp_version k) = Ok d /\
    forall n name, (exists t, d_get Z.eqb n d = Some (name, t)) <->
                   (exists j, 1 <= j <= k /\ In (n, name) (parameters_since j)).
Proof.
  assert (G : forall (d : list (Z * (list Z * vtype))) n name, NoDup (map fst d) ->
    (exists t, d_get Z.eqb n d = Some (name, t)) <->
    In (n, name) (map (fun e => (fst e, fst (snd e))) d)).
  { induction d as [|[k [s t]] d IH]; intros n name H.
    - cbn. split; [intros (t & X); discriminate|contradiction].
    - cbn [map fst snd] in *. inversion H as [|? ? H1 H2]; subst. cbn [d_get In].
      destruct (n =? k) eqn:E.
      + assert (n = k) by lia. subst k. split.
        * intros (t' & X). left. congruence.
        * intros [X|X]; [exists t; congruence|]. exfalso. apply H1.
          apply in_map_iff in X. destruct X as (e & Ee & He).
          apply in_map_iff. exists e. split; [congruence|exact He].
      + rewrite IH by exact H2. split; [auto|]. intros [X|X]; [|exact X].
        exfalso. assert (k = n) by congruence. lia. }
  assert (S : forall (d : list (Z * (list Z * vtype))) k,
    map (fun e => (fst e, fst (snd e))) d =
      flat_map (fun i => parameters_since (Z.of_nat i)) (seq 1 (Z.to_nat k)) ->
    NoDup (map fst d) -> 1 <= k ->
    forall n name, (exists t, d_get Z.eqb n d = Some (name, t)) <->
                   (exists j, 1 <= j <= k /\ In (n, name) (parameters_since j))).
  { intros d k E N Hk n name. rewrite G by exact N. rewrite E, in_flat_map. split.
    - intros (i & Hi & X). apply in_seq in Hi. exists (Z.of_nat i). split; [lia|exact X].
    - intros (j & Hj & X). exists (Z.to_nat j). rewrite in_seq, Z2Nat.id by lia. split; [lia|exact X]. }
  intros k Hk. destruct (four k Hk) as [->|[->|[->| ->]]];
    (eexists; split; [vm_compute; reflexivity|]; apply S;
     [vm_compute; reflexivity| |lia];
     match goal with |- NoDup ?l => let l' := eval vm_compute in l in change (NoDup l') end;
     repeat constructor; cbn [In]; intuition discriminate).
Qed.
Print Assumptions C64_parameters_exact.

(** C64: likewise for the numbers of header fields. *)
Theorem C64_fields_exact : forall k, 1 <= k <= 4 ->
  exists names, get_header_field_names (wsp_version k) = Ok names /\
    forall n name, 0 <= n -> (nth_error names (Z.to_nat n) = Some name <->
      exists j, 1 <= j <= k /\ field_since j n name).
Proof.
  (* the names of 1.k are those of 1.1, 1.2, ... one after the other *)
  assert (S : forall k : nat, (k <= 4)%nat -> forall n name, 0 <= n ->
    nth_error (flat_map (fun i => snd (fields_since (Z.of_nat i))) (seq 1 k)) (Z.to_nat n) = Some name <->
    exists j, 1 <= j <= Z.of_nat k /\ field_since j n name).
  { assert (L : forall k : nat, (k <= 4)%nat ->
      Z.of_nat (length (flat_map (fun i => snd (fields_since (Z.of_nat i))) (seq 1 k)))
      = fst (fields_since (Z.of_nat (k + 1)))).
    { intros k Hk. do 5 (destruct k as [|k]; [vm_compute; reflexivity|]). lia. }
    induction k as [|k IH]; intros Hk n name Hn.
    - cbn [seq flat_map]. split; [destruct (Z.to_nat n); discriminate|intros (j & Hj & _); lia].
    - rewrite seq_S, flat_map_app. cbn [flat_map]. rewrite app_nil_r.
      specialize (L k ltac:(lia)). specialize (IH ltac:(lia) n name Hn).
      replace (1 + k)%nat with (k + 1)%nat by lia.
      set (a := flat_map _ _) in *. destruct (Z_lt_dec n (Z.of_nat (length a))) as [Hlt|Hge].
      + rewrite nth_error_app1 by lia. rewrite IH. split.
        * intros (j & Hj & X). exists j. split; [lia|exact X].
        * intros (j & Hj & X). exists j. split; [|exact X].
          destruct (Z.eq_dec j (Z.of_nat (k + 1))) as [->|Hne]; [|lia].
          destruct X as (X & _). lia.
      + rewrite nth_error_app2 by lia. split.
        * intros X. exists (Z.of_nat (k + 1)). split; [lia|]. split; [lia|].
          rewrite <- L. replace (Z.to_nat (n - Z.of_nat (length a))) with (Z.to_nat n - length a)%nat by lia.
          exact X.
        * intros (j & Hj & X). destruct (Z.eq_dec j (Z.of_nat (k + 1))) as [->|Hne].
          -- destruct X as (X1 & X2). rewrite <- L in X2.
             replace (Z.to_nat (n - Z.of_nat (length a))) with (Z.to_nat n - length a)%nat in X2 by lia.
             exact X2.
          -- exfalso. assert (Y : exists j, 1 <= j <= Z.of_nat k /\ field_since j n name)
               by (exists j; split; [lia|exact X]).
             apply IH in Y. assert (nth_error a (Z.to_nat n) <> None) by congruence.
             apply nth_error_Some in H. lia. }
  intros k Hk. exists (flat_map (fun i => snd (fields_since (Z.of_nat i))) (seq 1 (Z.to_nat k))).
  split; [destruct (four k Hk) as [->|[->|[->| ->]]]; vm_compute; reflexivity|].
  intros n name Hn. pose proof (S (Z.to_nat k) ltac:(lia) n name Hn) as X.
  rewrite Z2Nat.id in X by lia. exact X.
Qed.
Print Assumptions C64_fields_exact.
Example C64_exact_case : In (12, str "Comment") (parameters_since 3) /\
  field_since 2 47 (str "X-Wap-Application-Id") /\ field_since 4 70 (str "X-WAP-Security").
Proof. repeat split; try (cbn; lia); vm_compute; auto. Qed.
