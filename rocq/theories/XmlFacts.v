(** Facts about the serialisation of XML trees. *)
From Coq Require Import Lia ZifyBool Permutation.
From Verif Require Import Py Message Xml SpecXml PyFacts.
Open Scope Z_scope.

(** Induction over trees. *)
Lemma xml_nest_ind (P : xml -> Prop) :
  (forall tag l k, Forall P k -> P (Elem tag l k)) -> forall x, P x.
Proof.
  intros H. fix IH 1. intros [tag l k]. apply H. induction k as [|x k IHk]; constructor; [apply IH|exact IHk].
Qed.

(** Two texts that go on with a character of another kind at the same place. *)
Lemma span_eq (P : Z -> Prop) : forall a b x y r r', Forall P a -> Forall P b -> ~ P x -> ~ P y ->
  a ++ x :: r = b ++ y :: r' -> a = b /\ x = y /\ r = r'.
Proof.
  induction a as [|c a IH]; intros [|d b] x y r r' Ha Hb Hx Hy E; cbn [app] in E.
  - split; [reflexivity|]. split; congruence.
  - exfalso. assert (x = d) by congruence. subst. inversion Hb. auto.
  - exfalso. assert (c = y) by congruence. subst. inversion Ha. auto.
  - assert (c = d) by congruence. subst. inversion Ha; inversion Hb; subst.
    destruct (IH b x y r r') as (-> & -> & ->); auto. congruence.
Qed.

(** * Escapes *)

Definition esc (c : Z) : list Z :=
  if c =? 38 then str "&amp;" else if c =? 60 then str "&lt;"
  else if c =? 34 then str "&quot;" else if c =? 62 then str "&gt;" else [c].

Lemma replace_app c t a b : py_replace c t (a ++ b) = py_replace c t a ++ py_replace c t b.
Proof. unfold py_replace. apply flat_map_app. Qed.

Lemma escape_cons c s : escape (c :: s) = esc c ++ escape s.
Proof.
  unfold escape. change (c :: s) with ([c] ++ s). rewrite !replace_app. f_equal. unfold esc.
  destruct (c =? 38) eqn:E1; [assert (c = 38) by lia; subst; reflexivity|].
  destruct (c =? 60) eqn:E2; [assert (c = 60) by lia; subst; reflexivity|].
  destruct (c =? 34) eqn:E3; [assert (c = 34) by lia; subst; reflexivity|].
  destruct (c =? 62) eqn:E4; [assert (c = 62) by lia; subst; reflexivity|].
  unfold py_replace. cbn [flat_map app]. rewrite E1. cbn [flat_map app]. rewrite E2. cbn [flat_map app].
  rewrite E3. cbn [flat_map app]. rewrite E4. reflexivity.
Qed.

Lemma escape_plain c s : c <> 38 -> c <> 60 -> c <> 34 -> c <> 62 -> escape (c :: s) = c :: escape s.
Proof. intros. rewrite escape_cons. unfold esc. repeat match goal with |- context [?a =? ?b] =>
  replace (a =? b) with false by lia end. reflexivity. Qed.

Lemma utf8_high u : utf8_char u -> Forall (fun c => 128 <= c <= 244) u /\ u <> [].
Proof. unfold tail. intros []; (split; [repeat constructor; unfold tail in *; lia|discriminate]). Qed.

Lemma escape_high u s : Forall (fun c => 128 <= c <= 244) u -> escape (u ++ s) = u ++ escape s.
Proof. induction 1; [reflexivity|]. cbn [app]. rewrite escape_plain by lia. now rewrite IHForall. Qed.

Ltac no_quote := repeat constructor; (let E := fresh in intros E; vm_compute in E; discriminate E).
Lemma value_no_quote raw v : att_value raw v -> Forall (fun c => c <> 34) raw.
Proof.
  induction 1.
  - constructor.
  - constructor; [lia|assumption].
  - apply Forall_app. split; [|assumption]. destruct (utf8_high _ H) as (F & _).
    eapply Forall_impl; [|exact F]. cbn. lia.
  - constructor; [lia|assumption].
  - constructor; [lia|assumption].
  - constructor; [lia|]. constructor; [lia|assumption].
  - apply Forall_app. split; [no_quote|assumption].
  - apply Forall_app. split; [no_quote|assumption].
  - apply Forall_app. split; [no_quote|assumption].
  - apply Forall_app. split; [no_quote|assumption].
  - apply Forall_app. split; [no_quote|assumption].
Qed.
Lemma escape_no_quote s : Forall (fun c => c <> 34) (escape s).
Proof.
  induction s as [|c s IH]; [constructor|]. rewrite escape_cons. apply Forall_app. split; [|exact IH].
  unfold esc. destruct (c =? 38); [no_quote|]. destruct (c =? 60); [no_quote|].
  destruct (c =? 34) eqn:E; [no_quote|]. destruct (c =? 62); [no_quote|]. constructor; [lia|constructor].
Qed.

Lemma value_plain raw v : att_value raw v -> plain_text v.
Proof. induction 1; try (constructor; [lia|assumption]); try (constructor; assumption). Qed.

Lemma plain_value s : plain_text s -> att_value (escape s) s.
Proof.
  induction 1.
  - constructor.
  - rewrite escape_cons. unfold esc. destruct (c =? 38) eqn:E1; [assert (c = 38) by lia; subst; now apply av_amp|].
    destruct (c =? 60) eqn:E2; [assert (c = 60) by lia; subst; now apply av_lt|].
    destruct (c =? 34) eqn:E3; [assert (c = 34) by lia; subst; now apply av_quot|].
    destruct (c =? 62) eqn:E4; [assert (c = 62) by lia; subst; now apply av_gt|].
    apply av_char; try lia. assumption.
  - destruct (utf8_high _ H) as (F & _). rewrite escape_high by exact F. now apply av_utf8.
Qed.

(** The first character of an escaped text. *)
Lemma esc_shape c : (esc c = [c] /\ c <> 38 /\ c <> 60 /\ c <> 34 /\ c <> 62) \/
  (c = 38 /\ esc c = str "&amp;") \/ (c = 60 /\ esc c = str "&lt;") \/
  (c = 34 /\ esc c = str "&quot;") \/ (c = 62 /\ esc c = str "&gt;").
Proof.
  unfold esc. destruct (c =? 38) eqn:E1; [right; left; split; [lia|reflexivity]|].
  destruct (c =? 60) eqn:E2; [right; right; left; split; [lia|reflexivity]|].
  destruct (c =? 34) eqn:E3; [do 3 right; left; split; [lia|reflexivity]|].
  destruct (c =? 62) eqn:E4; [do 4 right; split; [lia|reflexivity]|]. left. repeat split; lia.
Qed.
Lemma escape_head s a r : escape s = a :: r -> a <> 38 -> exists t, s = a :: t /\ escape t = r.
Proof.
  destruct s as [|c s]; [discriminate|]. rewrite escape_cons.
  destruct (esc_shape c) as [(-> & _)|[(-> & ->)|[(-> & ->)|[(-> & ->)|(-> & ->)]]]]; cbn [app str map list_ascii_of_string];
    intros E N; [|exfalso; apply N; assert (38 = a) by (apply (f_equal (hd 0)) in E; exact E); lia..].
  exists s. split; congruence.
Qed.
Lemma escape_high_inv u : Forall (fun c => 128 <= c <= 244) u -> forall s r, escape s = u ++ r ->
  exists t, s = u ++ t /\ escape t = r.
Proof.
  induction 1 as [|c u Hc _ IH]; intros s r E; [exists s; auto|]. cbn [app] in E.
  destruct (escape_head _ _ _ E) as (t & -> & E'); [lia|]. destruct (IH _ _ E') as (t' & -> & E2). exists t'. auto.
Qed.

(** An escape sequence comes from its character. *)
Lemma escape_ref s r : escape s = 38 :: r -> exists c t, s = c :: t /\ esc c ++ escape t = 38 :: r /\
  (c = 38 \/ c = 60 \/ c = 34 \/ c = 62).
Proof.
  destruct s as [|c s]; [discriminate|]. rewrite escape_cons. intros E. exists c, s. split; [reflexivity|].
  split; [exact E|]. destruct (esc_shape c) as [(X & N & _)|[(-> & _)|[(-> & _)|[(-> & _)|(-> & _)]]]]; auto.
  rewrite X in E. cbn [app] in E. congruence.
Qed.

Lemma value_legal raw v : att_value raw v -> forall s, raw = escape s -> legal_text s.
Proof.
  assert (R : forall raw' v', (forall s, raw' = escape s -> legal_text s) ->
    forall t s, t ++ raw' = escape s -> (t = str "&amp;" \/ t = str "&lt;" \/ t = str "&quot;" \/ t = str "&gt;" \/ t = str "&apos;") ->
    att_value raw' v' -> legal_text s).
  { intros raw' v' IH t s E T _.
    assert (E0 : exists q, escape s = 38 :: q).
    { rewrite <- E. destruct T as [->|[->|[->|[->| ->]]]]; eexists; reflexivity. }
    destruct E0 as (q & E0). destruct (escape_ref _ _ E0) as (c & u & -> & Ec & Hc). rewrite <- E0 in Ec.
    rewrite <- E in Ec. clear E E0. assert (L : legal_text u); [|apply legal_char; [lia|exact L]].
    apply IH. destruct Hc as [->|[->|[->| ->]]]; vm_compute esc in Ec;
      destruct T as [->|[->|[->|[->| ->]]]]; cbn [str list_ascii_of_string map app] in Ec;
      first [discriminate Ec | injection Ec as Ec; congruence]. }
  induction 1; intros s E.
  - destruct s; [constructor|]. rewrite escape_cons in E. destruct (esc_shape z) as [(X & _)|[(_ & X)|[(_ & X)|[(_ & X)|(_ & X)]]]];
      rewrite X in E; discriminate E.
  - symmetry in E. destruct (escape_head _ _ _ E) as (t & -> & E'); [lia|]. apply legal_char; [lia|]. apply IHatt_value. auto.
  - symmetry in E. destruct (utf8_high _ H) as (F & _). destruct (escape_high_inv _ F _ _ E) as (t & -> & E').
    apply legal_utf8; [exact H|]. apply IHatt_value. auto.
  - symmetry in E. destruct (escape_head _ _ _ E) as (t & -> & E'); [lia|]. apply legal_blank; [unfold xml_blank; lia|].
    apply IHatt_value. auto.
  - symmetry in E. destruct (escape_head _ _ _ E) as (t & -> & E'); [lia|]. apply legal_blank; [unfold xml_blank; lia|].
    apply IHatt_value. auto.
  - symmetry in E. destruct (escape_head _ _ _ E) as (t & -> & E'); [lia|]. destruct (escape_head _ _ _ E') as (t' & -> & E2); [lia|].
    apply legal_blank; [unfold xml_blank; lia|]. apply legal_blank; [unfold xml_blank; lia|]. apply IHatt_value. auto.
  - eapply R; eauto.
  - eapply R; eauto.
  - eapply R; eauto 6.
  - eapply R; eauto.
  - eapply R; eauto 6.
Qed.

Lemma legal_value s : legal_text s -> exists v, att_value (escape s) v.
Proof.
  induction 1 as [|c s Hc _ (v & IH)|c s Hc _ (v & IH)|u s Hu _ (v & IH)].
  - exists []. constructor.
  - exists (c :: v). rewrite escape_cons. unfold esc.
    destruct (c =? 38) eqn:E1; [assert (c = 38) by lia; subst; now apply av_amp|].
    destruct (c =? 60) eqn:E2; [assert (c = 60) by lia; subst; now apply av_lt|].
    destruct (c =? 34) eqn:E3; [assert (c = 34) by lia; subst; now apply av_quot|].
    destruct (c =? 62) eqn:E4; [assert (c = 62) by lia; subst; now apply av_gt|].
    apply av_char; try lia. assumption.
  - rewrite escape_plain by (unfold xml_blank in Hc; lia). destruct Hc as [->|[->|[->| ->]]].
    + exists (32 :: v). apply av_char; try lia. exact IH.
    + exists (32 :: v). apply av_break; [lia|exact IH].
    + exists (32 :: v). apply av_break; [lia|exact IH].
    + destruct (Z.eq_dec (hd 0 (escape s)) 10) as [E|E]; [|exists (32 :: v); apply av_cr; assumption].
      inversion IH as [R|c raw w Hc ? ? ? Hv R|u raw w Hu Hv R|c raw w Hc Hv R|raw w Hn Hv R|raw w Hv R|raw w Hv R|raw w Hv R|raw w Hv R|raw w Hv R|raw w Hv R];
        rewrite <- R in E; cbn [hd] in E; try (discriminate E).
      * lia.
      * destruct (utf8_high _ Hu) as (F & N). destruct u as [|a u]; [congruence|]. cbn [app hd] in E. inversion F. lia.
      * subst c. exists (32 :: w). apply av_crlf. exact Hv.
  - destruct (utf8_high _ Hu) as (F & _). exists (u ++ v). rewrite escape_high by exact F. now apply av_utf8.
Qed.

(** * Trees *)

Lemma insert_perm a l : Permutation (a :: l) (attr_insert a l).
Proof.
  induction l as [|b l IH]; [reflexivity|]. cbn [attr_insert]. destruct (str_leb (fst a) (fst b)); [reflexivity|].
  rewrite perm_swap. now constructor.
Qed.
Lemma sort_perm l : Permutation l (attr_sort l).
Proof. induction l as [|a l IH]; [reflexivity|]. cbn [attr_sort]. rewrite <- insert_perm. now constructor. Qed.

(** Tags and attributes have names, attributes different ones. *)
Inductive named : xml -> Prop :=
| named_elem tag l k : name tag -> Forall (fun a => name (fst a)) l -> NoDup (map fst l) ->
    Forall named k -> named (Elem tag l k).

Definition attr_reads (a b : list Z * list Z) : Prop := fst a = fst b /\ att_value (escape (snd a)) (snd b).

(** What is read from the text of a tree. *)
Inductive reads : xml -> xml -> Prop :=
| reads_elem tag l l' k k' : Forall2 attr_reads (attr_sort l) l' -> Forall2 reads k k' ->
    reads (Elem tag l k) (Elem tag l' k').

(** An element without its indentation and line end. *)
Definition core (indent : list Z) (x : xml) : list Z :=
  match x with
  | Elem tag attrs kids =>
      str "<" ++ tag ++ flat_map write_attr (attr_sort attrs) ++
      match kids with
      | [] => str "/>"
      | _ => str ">" ++ [10] ++ flat_map (writexml (indent ++ [9])) kids ++
             indent ++ str "</" ++ tag ++ str ">"
      end
  end.
Lemma write_core indent x : writexml indent x = indent ++ core indent x ++ [10].
Proof.
  destruct x as [tag l [|k ks]]; cbn [writexml core]; rewrite <- !app_assoc; reflexivity.
Qed.

Lemma name_start tag : name tag -> exists c r, tag = c :: r /\ ~ xml_blank c /\ c <> 47 /\ c <> 62 /\ c <> 61.
Proof.
  destruct tag as [|c r]; [intros []|]. intros (H & _). exists c, r. unfold letter, xml_blank in *.
  repeat split; lia.
Qed.
Lemma name_chars tag : name tag -> Forall name_char tag.
Proof.
  destruct tag as [|c r]; [intros []|]. intros (H & H'). constructor; [|exact H'].
  unfold name_char. unfold letter in *. lia.
Qed.
Lemma blank_no_name c : xml_blank c -> ~ name_char c.
Proof. unfold xml_blank, name_char, letter. lia. Qed.

(** After a tag come a blank or the end of the tag. *)
Lemma tag_ends s l b c r : attributes s l -> blanks b -> c = 47 \/ c = 62 ->
  exists d q, s ++ b ++ c :: r = d :: q /\ ~ name_char d.
Proof.
  intros A B C. destruct A as [|b1 n raw v s l N B1 _ _ _].
  - cbn [app]. destruct B as [|d b D B]; [exists c, r|exists d, (b ++ c :: r)]; (split; [reflexivity|]).
    + unfold name_char, letter. lia.
    + now apply blank_no_name.
  - destruct B1 as [|d b1 D B1]; [congruence|]. cbn [app]. do 2 eexists. split; [reflexivity|]. now apply blank_no_name.
Qed.

Lemma write_attributes l : Forall (fun a => name (fst a)) l -> forall l', Forall2 attr_reads l l' ->
  attributes (flat_map write_attr l) l'.
Proof.
  induction 1 as [|(n, v) l Hn _ IH]; intros l' F; inversion F as [|? (n', v') ? l2 (E & V) F']; subst; [constructor|].
  cbn [fst snd] in *. subst n'. cbn [flat_map]. unfold write_attr. cbn [fst snd]. rewrite <- !app_assoc.
  apply (at_more (str " ") n (escape v) v'); auto; [discriminate|]. constructor; [left; reflexivity|constructor].
Qed.

Lemma attributes_inv : forall L, Forall (fun a => name (fst a)) L -> forall s l b c r c' r',
  attributes s l -> blanks b -> c = 47 \/ c = 62 -> c' = 47 \/ c' = 62 ->
  s ++ b ++ c :: r = flat_map write_attr L ++ c' :: r' ->
  Forall2 attr_reads L l /\ s = flat_map write_attr L /\ b = [] /\ c = c' /\ r = r'.
Proof.
  induction 1 as [|(n, v) L Hn _ IH]; intros s l b c r c' r' A B C C' E.
  - cbn [flat_map app] in E. inversion A as [|b1 n1 raw1 v1 s1 l1 N1 B1 H1 V1 A1]; subst.
    + cbn [app] in E. destruct b as [|d b].
      * cbn [app] in E. repeat split; try constructor; congruence.
      * exfalso. inversion B; subst. cbn [app] in E. assert (d = c') by congruence. subst. unfold xml_blank in *. lia.
    + exfalso. destruct b1 as [|d b1]; [congruence|]. inversion B1; subst. cbn [app] in E.
      assert (d = c') by congruence. subst. unfold xml_blank in *. lia.
  - cbn [flat_map] in E. unfold write_attr in E at 1. cbn [fst snd] in E, Hn. rewrite <- !app_assoc in E.
    destruct (name_start n Hn) as (x & q & En & X1 & X2 & X3 & X4).
    inversion A as [|b1 n1 raw1 v1 s1 l1 N1 B1 H1 V1 A1]; subst s l.
    + exfalso. cbn [app] in E. rewrite En in E. change (str " ") with [32] in E. cbn [app] in E.
      change (32 :: x :: q ++ 61 :: 34 :: escape v ++ 34 :: flat_map write_attr L ++ c' :: r')
        with ([32] ++ x :: (q ++ 61 :: 34 :: escape v ++ 34 :: flat_map write_attr L ++ c' :: r')) in E.
      apply (span_eq xml_blank) in E.
      * destruct E as (_ & E & _). lia.
      * exact B.
      * constructor; [left; reflexivity|constructor].
      * unfold xml_blank. lia.
      * exact X1.
    + destruct (name_start n1 H1) as (x1 & q1 & En1 & Y1 & _). rewrite <- !app_assoc in E.
      assert (E1 : b1 = [32] /\ n1 ++ [61; 34] ++ raw1 ++ [34] ++ s1 ++ b ++ c :: r =
        n ++ [61; 34] ++ escape v ++ [34] ++ flat_map write_attr L ++ c' :: r').
      { rewrite En, En1 in E |- *. change (str " ") with [32] in E. cbn [app] in E |- *.
        change (32 :: x :: q ++ 61 :: 34 :: escape v ++ 34 :: flat_map write_attr L ++ c' :: r')
          with ([32] ++ x :: (q ++ 61 :: 34 :: escape v ++ 34 :: flat_map write_attr L ++ c' :: r')) in E.
        apply (span_eq xml_blank) in E; auto.
        - destruct E as (-> & -> & ->). auto.
        - constructor; [left; reflexivity|constructor]. }
      destruct E1 as (-> & E1). clear E. cbn [app] in E1.
      apply (span_eq name_char) in E1; try (apply name_chars; assumption); try (unfold name_char, letter; lia).
      destruct E1 as (-> & _ & E1). assert (E2 : raw1 ++ 34 :: s1 ++ b ++ c :: r =
        escape v ++ 34 :: flat_map write_attr L ++ c' :: r') by congruence. clear E1.
      apply (span_eq (fun c => c <> 34)) in E2; try lia; [|apply value_no_quote in V1; exact V1|apply escape_no_quote].
      destruct E2 as (-> & _ & E2).
      destruct (IH s1 l1 b c r c' r' A1 B C C' E2) as (F & -> & -> & -> & ->).
      split; [constructor; [split; [reflexivity|exact V1]|exact F]|].
      split; [|auto]. cbn [flat_map]. unfold write_attr at 2. cbn [fst snd]. rewrite <- !app_assoc. reflexivity.
Qed.

Lemma sorted_named l : Forall (fun a : list Z * list Z => name (fst a)) l -> Forall (fun a => name (fst a)) (attr_sort l).
Proof. intros H. eapply Permutation_Forall; [apply sort_perm|exact H]. Qed.
Lemma reads_names l l' : Forall2 attr_reads l l' -> map fst l' = map fst l.
Proof. induction 1 as [|a b l l' (E & _) _ IH]; [reflexivity|]. cbn [map]. congruence. Qed.
Lemma sorted_nodup l l' : NoDup (map fst l) -> Forall2 attr_reads (attr_sort l) l' -> NoDup (map fst l').
Proof.
  intros N F. rewrite (reads_names _ _ F). eapply Permutation_NoDup; [|exact N].
  apply Permutation_map, sort_perm.
Qed.

(** The text of a tree can be read. *)
Lemma element_write : forall x, named x -> forall y ind, blanks ind -> reads x y -> element (core ind x) y.
Proof.
  intros x. induction x as [tag L ks IH] using xml_nest_ind. intros N y ind B R.
  inversion N as [? ? ? N1 N2 N3 N4]; subst. inversion R as [? ? l ? k F Fk]; subst.
  assert (A := write_attributes _ (sorted_named _ N2) _ F). assert (D := sorted_nodup _ _ N3 F).
  destruct ks as [|k0 ks].
  - inversion Fk; subst. cbn [core].
    change (str "/>") with ([] ++ str "/>"). now apply el_empty; [..|constructor].
  - cbn [core]. set (body := [10] ++ flat_map (writexml (ind ++ [9])) (k0 :: ks) ++ ind).
    replace (str "<" ++ tag ++ flat_map write_attr (attr_sort L) ++ str ">" ++ [10] ++
        flat_map (writexml (ind ++ [9])) (k0 :: ks) ++ ind ++ str "</" ++ tag ++ str ">")
      with (str "<" ++ tag ++ flat_map write_attr (attr_sort L) ++ [] ++ str ">" ++ body ++ str "</" ++ tag ++ [] ++ str ">")
      by (unfold body; rewrite <- !app_assoc; reflexivity).
    apply el_full; auto; try constructor.
    assert (G : forall ks k, Forall (fun x => named x -> forall y ind, blanks ind -> reads x y -> element (core ind x) y) ks ->
      Forall named ks -> Forall2 reads ks k -> forall pre, blanks pre ->
      content (pre ++ flat_map (writexml (ind ++ [9])) ks ++ ind) k).
    { clear - B. induction ks as [|x ks IHk]; intros k H N Fk pre P; inversion Fk; subst.
      - cbn [flat_map app]. constructor. apply Forall_app. auto.
      - inversion H; inversion N; subst. cbn [flat_map]. rewrite write_core.
        match goal with |- content ?t _ => replace t with ((pre ++ ind ++ [9]) ++ core (ind ++ [9]) x ++
          ([10] ++ flat_map (writexml (ind ++ [9])) ks ++ ind)) by (rewrite <- !app_assoc; reflexivity) end.
        apply co_more.
        + apply Forall_app. split; [exact P|]. apply Forall_app. split; [exact B|]. constructor; [right; left; reflexivity|constructor].
        + match goal with H3 : named x -> _ |- _ => apply H3; auto end. apply Forall_app. split; [exact B|]. constructor; [right; left; reflexivity|constructor].
        + apply (IHk l') with (pre := [10]); auto. constructor; [right; right; left; reflexivity|constructor]. }
    apply (G (k0 :: ks) k IH N4 Fk [10]). constructor; [right; right; left; reflexivity|constructor].
Qed.

(** An element starts with a tag. *)
Lemma element_start s y : element s y -> exists c r, s = 60 :: c :: r /\ c <> 47.
Proof.
  intros []; destruct (name_start _ H) as (c & q & -> & _ & X & _); cbn [app]; change (str "<") with [60]; cbn [app];
    do 2 eexists; (split; [reflexivity|exact X]).
Qed.
Lemma core_start ind x : named x -> exists c r, core ind x = 60 :: c :: r /\ c <> 47.
Proof.
  intros []. destruct (name_start _ H) as (c & q & -> & _ & X & _). cbn [core]. change (str "<") with [60]. cbn [app].
  do 2 eexists; (split; [reflexivity|exact X]).
Qed.

(** Nothing else can be read from it. *)
Lemma element_inv : forall x, named x -> forall ind s y r r', blanks ind -> element s y ->
  s ++ r = core ind x ++ r' -> s = core ind x /\ r = r' /\ reads x y.
Proof.
  assert (NB : ~ xml_blank 60) by (unfold xml_blank; lia).
  intros x. induction x as [tag L ks IH] using xml_nest_ind. intros N ind s y r r' B H E.
  inversion N as [? ? ? N1 N2 N3 N4]; subst.
  assert (T : forall tag' s1 l b c q c' q', name tag' -> attributes s1 l -> blanks b -> c = 47 \/ c = 62 -> c' = 47 \/ c' = 62 ->
    str "<" ++ tag' ++ s1 ++ b ++ c :: q = str "<" ++ tag ++ flat_map write_attr (attr_sort L) ++ c' :: q' ->
    tag' = tag /\ Forall2 attr_reads (attr_sort L) l /\ s1 = flat_map write_attr (attr_sort L) /\ b = [] /\ c = c' /\ q = q').
  { intros tag' s1 l b c q c' q' H1 A Bb C C' X. change (str "<") with [60] in X. cbn [app] in X.
    assert (X1 : tag' ++ s1 ++ b ++ c :: q = tag ++ flat_map write_attr (attr_sort L) ++ c' :: q') by congruence. clear X.
    destruct (tag_ends s1 l b c q A Bb C) as (d & t & Ed & Nd).
    assert (Z2 : exists d t, flat_map write_attr (attr_sort L) ++ c' :: q' = d :: t /\ ~ name_char d).
    { destruct (attr_sort L) as [|(n, v) L'].
      - exists c', q'. split; [reflexivity|]. unfold name_char, letter. lia.
      - cbn [flat_map]. unfold write_attr at 1. rewrite <- !app_assoc. change (str " ") with [32]. cbn [app].
        do 2 eexists. split; [reflexivity|]. unfold name_char, letter. lia. }
    destruct Z2 as (d2 & t2 & Ed2 & Nd2). rewrite Ed, Ed2 in X1.
    apply (span_eq name_char) in X1; auto using name_chars. destruct X1 as (-> & -> & ->).
    rewrite <- Ed2 in Ed. split; [reflexivity|].
    apply (attributes_inv (attr_sort L) (sorted_named _ N2) s1 l b c q c' q'); assumption. }
  assert (K : forall pre body k r r', content body k -> blanks pre ->
    body ++ 60 :: 47 :: r = pre ++ flat_map (writexml (ind ++ [9])) ks ++ ind ++ 60 :: 47 :: r' ->
    Forall2 reads ks k /\ body = pre ++ flat_map (writexml (ind ++ [9])) ks ++ ind /\ r = r').
  { clear T E N H s y r r' N1 N2 N3. induction ks as [|x ks IHk]; intros pre body k r r' C P E.
    - cbn [flat_map app] in E |- *. rewrite app_assoc in E. inversion C as [b Hb|b e x s kids Hb He Hs]; subst.
      + apply (span_eq xml_blank) in E; auto; [|apply Forall_app; auto]. destruct E as (-> & _ & E).
        split; [constructor|]. split; [reflexivity|congruence].
      + exfalso. destruct (element_start _ _ He) as (c & q & -> & Nc). rewrite <- app_assoc in E. cbn [app] in E.
        apply (span_eq xml_blank) in E; auto; [|apply Forall_app; auto]. destruct E as (_ & _ & E). congruence.
    - inversion IH as [|? ? IH1 IH2]; subst. inversion N4 as [|? ? Nx Nk]; subst.
      cbn [flat_map] in E |- *. rewrite write_core in E |- *. rewrite <- !app_assoc in E |- *.
      assert (B9 : blanks (ind ++ [9])).
      { apply Forall_app. split; [exact B|]. constructor; [right; left; reflexivity|constructor]. }
      assert (BP : blanks (pre ++ ind ++ [9])) by (apply Forall_app; auto).
      destruct (core_start (ind ++ [9]) x Nx) as (c0 & q0 & E0 & Nc0).
      inversion C as [b Hb|b e y s kids Hb He Hs]; subst.
      + exfalso. rewrite E0 in E. rewrite !(app_assoc pre), !(app_assoc (pre ++ ind)) in E. cbn [app] in E.
        rewrite <- (app_assoc pre) in E.
        apply (span_eq xml_blank) in E; auto. destruct E as (_ & _ & E). congruence.
      + destruct (element_start _ _ He) as (c & q & Ee & Nc).
        assert (E1 : b = pre ++ ind ++ [9] /\ e ++ s ++ 60 :: 47 :: r =
          core (ind ++ [9]) x ++ [10] ++ flat_map (writexml (ind ++ [9])) ks ++ ind ++ 60 :: 47 :: r').
        { rewrite <- !app_assoc in E. rewrite E0, Ee in E |- *. rewrite !(app_assoc pre), !(app_assoc (pre ++ ind)) in E.
          cbn [app] in E |- *. rewrite <- (app_assoc pre) in E.
          apply (span_eq xml_blank) in E; auto. destruct E as (-> & _ & ->). auto. }
        destruct E1 as (-> & E1).
        destruct (IH1 Nx _ _ _ _ _ B9 He E1) as (-> & E2 & R).
        destruct (IHk IH2 Nk [10] s kids r r' Hs) as (R2 & -> & ->).
        { constructor; [right; right; left; reflexivity|constructor]. }
        { exact E2. }
        split; [constructor; assumption|]. split; [|reflexivity]. rewrite <- !app_assoc. reflexivity. }
  destruct ks as [|k0 ks].
  - cbn [core] in E |- *. rewrite <- !app_assoc in E. change (str "/>" ++ r') with (47 :: 62 :: r') in E.
    inversion H as [tag' s1 l b H1 A D Bb|tag' s1 l b body kids b' H1 A D Bb Hc Bb']; subst.
    + rewrite <- !app_assoc in E. change (str "/>" ++ r) with (47 :: 62 :: r) in E.
      destruct (T _ _ _ _ _ _ _ _ H1 A Bb (or_introl eq_refl) (or_introl eq_refl) E) as (-> & F & -> & -> & _ & E2).
      split; [reflexivity|]. split; [congruence|]. constructor; [exact F|constructor].
    + exfalso. rewrite <- !app_assoc in E. change (str ">" ++ ?z) with (62 :: z) in E.
      assert (X : 62 = 47); [|discriminate X].
      eapply (T _ _ _ _ 62 _ 47 _ H1 A Bb); [now right|now left|]. change (62 :: ?z) with (str ">" ++ z). exact E.
  - cbn [core] in E |- *. rewrite <- !app_assoc in E.
    inversion H as [tag' s1 l b H1 A D Bb|tag' s1 l b body kids b' H1 A D Bb Hc Bb']; subst.
    + exfalso. rewrite <- !app_assoc in E. assert (X : 47 = 62); [|discriminate X].
      eapply (T _ _ _ _ 47 _ 62 _ H1 A Bb); [now left|now right|]. exact E.
    + rewrite <- !app_assoc in E.
      destruct (T _ _ _ _ 62 _ 62 _ H1 A Bb (or_intror eq_refl) (or_intror eq_refl) E) as (-> & F & -> & -> & _ & E2).
      clear E. change (str "" ++ ?z) with z in E2. change (str "</" ++ ?z) with (60 :: 47 :: z) in E2.
      match type of E2 with _ = ?R => change R with ([10] ++ flat_map (writexml (ind ++ [9])) (k0 :: ks) ++ ind ++ 60 :: 47 :: tag ++ str ">" ++ r') in E2 end.
      match type of E2 with ?R = _ => change R with (body ++ 60 :: 47 :: tag ++ b' ++ str ">" ++ r) in E2 end.
      destruct (K _ _ _ _ _ Hc ltac:(constructor; [right; right; left; reflexivity|constructor]) E2) as (R & -> & E3).
      apply app_inv_head in E3. change (str ">" ++ ?z) with (62 :: z) in E3.
      destruct Bb' as [|d b' Hd Bb'].
      * split; [rewrite <- !app_assoc; reflexivity|]. split; [cbn in E3; congruence|]. constructor; assumption.
      * exfalso. cbn [app] in E3. assert (d = 62) by (cbn in E3; congruence). subst. unfold xml_blank in Hd. lia.
Qed.

Lemma document_reads x y : named x -> (document (toprettyxml x) y <-> reads x y).
Proof.
  intros N. assert (NB : ~ xml_blank 60) by (unfold xml_blank; lia).
  unfold toprettyxml. rewrite write_core. cbn [app]. split.
  - intros (b & e & b' & B & B' & H & E).
    destruct (element_start _ _ H) as (c & q & Ee & _). destruct (core_start [] x N) as (c0 & q0 & E0 & _).
    assert (b = []).
    { rewrite E0, Ee in E. destruct B as [|d b D B]; [reflexivity|]. cbn [app] in E.
      assert (d = 60) by congruence. subst. contradiction. }
    subst b. cbn [app] in E. symmetry in E.
    destruct (element_inv x N [] e y b' [10] (Forall_nil _) H E) as (_ & _ & R). exact R.
  - intros R. exists [], (core [] x), [10]. split; [constructor|]. split; [constructor; [right; right; left; reflexivity|constructor]|].
    split; [apply element_write; auto; constructor|reflexivity].
Qed.
