(** C74: exactly which parameters and media types are read as they are meant. *)
From Coq Require Import Lia ZifyBool ZifyNat.
From Verif Require Import Py Iter Tables WspDec WspEnc Message MmsEnc MmsDec
  SpecWsp WspClaims SpecMms GrammarClaims PyFacts IterFacts WspFacts ContentFacts
  HeaderFacts GrammarFacts.
Open Scope Z_scope.

Lemma decodes_all : forall A (m : ST piter A) l v Q,
  Decodes m l v -> wp m l 0 Q -> exists p', Q (Ok v) [] p'.
Proof.
  intros A m l v Q HD HW. destruct (HW (new_iter l)) as (r & it' & l' & p' & E & HR & HQ).
  - apply R_new.
  - destruct (HD [] (new_iter l)) as (it2 & E2 & E3 & _); [rewrite app_nil_r; reflexivity|reflexivity|].
    rewrite E in E2. injection E2; intros -> ->. destruct HR as [HR _].
    assert (l' = []) as -> by (unfold remaining in E3; congruence). eauto.
Qed.

(** A token is read up to the first octet that cannot be part of it, and that
    octet is skipped. *)
Definition takes {A} (f : A -> list Z) (l : list Z) : res A -> list Z -> nat -> Prop :=
  fun r l' _ => match r with
                | Ok x => exists c, f x ++ c :: l' = l
                | Err e => exn_eqb DecodeError e = false
                end.

Lemma token_loop_takes : forall fuel o os p,
  wp (token_loop fuel o) os p (takes (fun x => x) (o :: os)).
Proof.
  induction fuel as [|f IH]; intros o os p; cbn [token_loop]; destruct (token_char o).
  - wsteps. reflexivity.
  - wsteps. exists o. reflexivity.
  - destruct os as [|o1 os]; [wsteps; reflexivity|]. wsteps.
    eapply wp_mono; [apply IH|]. intros r l' p' H. destruct r as [x|e]; wsteps; [|exact H].
    destruct H as (c & Ec). exists c. cbn. now rewrite Ec.
  - wsteps. exists o. reflexivity.
Qed.

Definition pval_text (p : pval) : list Z := match p with PStr s => s | _ => [] end.

Lemma quoted_takes : forall os, wp decode_untyped_value (34 :: os) 0 (takes pval_text (34 :: os)).
Proof.
  intros os. unfold decode_untyped_value. apply wp_refused_catch.
  - apply wp_bind. eapply wp_mono; [apply integer_value_refuses; lia|].
    intros x l' p (-> & -> & ->). repeat split.
  - apply wp_bind. unfold decode_text_value. apply wp_catch. unfold decode_token_text. wsteps.
    change (token_char 34) with true. cbn [negb]. wsteps.
    eapply wp_mono; [apply token_loop_takes|]. intros r l' p H.
    destruct r as [x|e]; cbn beta iota.
    + wsteps. exact H.
    + unfold takes in H. destruct e; try discriminate H; exact H.
Qed.

Lemma integer_last_ne : forall n l, Integer_value n l -> l <> [].
Proof. intros n l H E. destruct (integer_value_head n l H) as (b & r & E2 & _). congruence. Qed.

Lemma app_last_inj : forall (a b : list Z) x y, a ++ [x] = b ++ [y] -> x = y.
Proof. intros a b x y E. apply app_inj_tail in E. tauto. Qed.

Lemma text_string_last : forall s l, Text_string s l -> exists q, l = q ++ [0].
Proof. intros s l H. destruct H as [s _ _|s _ _]; [eauto|exists (127 :: s); reflexivity]. Qed.

Lemma param_misread : forall name v l p, Param name v l -> misread_param name v l ->
  shows_param v p -> ~ Decodes decode_parameter l (name, p).
Proof.
  intros name v l p HP HM Hs HD. destruct HM as [name v i Hi|name v i M HM Hi|name v t s Ht].
  - (* any-charset *)
    assert (W : wp decode_parameter ((i ++ [128]) ++ []) 0 (becomes (str "Charset", PStr (str "0")) [])).
    { eapply typed_read with (k := 1) (t := TCharset); [reflexivity|exact Hi|].
      cbn [decode_by_type]. apply wp_map_becomes. cbn [app].
      unfold decode_well_known_charset. wsteps. cbn [Z.eqb Pos.eqb].
      eapply wp_seq; [apply (integer_value_read 0 [128] []); apply iv_short, (short_integer 0); lia|].
      wsteps. apply becomes_intro. }
    rewrite app_nil_r in W. destruct (decodes_all _ _ _ _ _ HD W) as (p' & X & _).
    assert (name = str "Charset") as -> by congruence. assert (p = PStr (str "0")) as -> by congruence.
    clear W X HD. destruct v as [x| |]; try contradiction. cbn [shows_param] in Hs. subst x.
    remember (str "Charset") as nm eqn:En. remember (Ptext (str "0")) as v eqn:Ev.
    remember (i ++ [128]) as l eqn:El.
    destruct HP as [j q l n Hj Hq Hn Hl|j s l Hj Hs|j s l Hj Hs|j n l Hj Hn|name k j s l Hk Hj Hs
                |j n l Hj Hn|j n l Hj Hn|j s l Hj Hs|name t n l Ht Hn|name t s l Ht Hs|name t s l Ht Hs];
      try discriminate En; try discriminate Ev.
    + injection Ev as ->. clear - Hs. remember (str "0") as s eqn:Es. destruct Hs as [|n s l Hin _]; [discriminate|].
      subst s. cbn in Hin. intuition discriminate.
    + subst name. cbn in Hk. intuition discriminate.
    + destruct Hs as [s Hs]. rewrite app_assoc in El. apply app_last_inj in El. discriminate.
    + destruct Hs as [s Hs]. change (34 :: s ++ [0]) with ((34 :: s) ++ [0]) in El.
      rewrite app_assoc in El. apply app_last_inj in El. discriminate.
  - (* a major version alone *)
    assert (W : wp decode_parameter ((i ++ [128 + M * 16 + 15]) ++ []) 0
                  (becomes (str "Level", PStr (small_dec M ++ [46] ++ small_dec 15)) [])).
    { eapply typed_read with (k := 2) (t := TVersion); [reflexivity|exact Hi|].
      cbn [decode_by_type]. apply wp_map_becomes. apply (version_octet M 15); lia. }
    rewrite app_nil_r in W. destruct (decodes_all _ _ _ _ _ HD W) as (p' & X & _).
    assert (name = str "Level") as -> by congruence.
    assert (p = PStr (small_dec M ++ [46] ++ small_dec 15)) as -> by congruence.
    clear W X HD. destruct v as [x| |]; try contradiction. cbn [shows_param] in Hs. subst x.
    remember (str "Level") as nm eqn:En. remember (Ptext (small_dec M ++ [46] ++ small_dec 15)) as v eqn:Ev.
    remember (i ++ [128 + M * 16 + 15]) as l eqn:El.
    destruct HP as [j q l n Hj Hq Hn Hl|j s l Hj Hs|j s l Hj Hs|j n l Hj Hn|name k j s l Hk Hj Hs
                |j n l Hj Hn|j n l Hj Hn|j s l Hj Hs|name t n l Ht Hn|name t s l Ht Hs|name t s l Ht Hs];
      try discriminate En; try discriminate Ev.
    + assert (s = small_dec M ++ [46] ++ small_dec 15) as E by congruence. clear Ev.
      destruct Hs as [M' m HM' Hm|M' HM'|s l Hs].
      * apply app_inj_tail in El as [_ El]. assert (m = 15 + 16 * (M - M')) by lia.
        lia.
      * unfold small_dec in E. replace (M' <? 10) with true in E by lia.
        replace (M <? 10) with true in E by lia. discriminate.
      * destruct (text_string_last _ _ Hs) as (q & ->). rewrite app_assoc in El.
        apply app_last_inj in El. lia.
    + subst name. cbn in Hk. intuition discriminate.
    + destruct Hs as [s Hs]. rewrite app_assoc in El. apply app_last_inj in El. lia.
    + destruct Hs as [s Hs]. change (34 :: s ++ [0]) with ((34 :: s) ++ [0]) in El.
      rewrite app_assoc in El. apply app_last_inj in El. lia.
  - (* a quoted string *)
    remember (t ++ 34 :: s) as l eqn:El.
    assert (Hin : forall k j r, Integer_value k j -> j ++ r = t ++ 34 :: s -> False).
    { intros k j r Hj E. destruct (integer_value_head _ _ Hj) as (b & r1 & -> & Hb).
      destruct (token_text_head _ _ Ht) as (c & c' & r2 & -> & Hc & _).
      apply (f_equal (hd 0)) in E. cbn [hd app] in E. lia. }
    destruct HP as [j q l n Hj Hq Hn Hl|j x l Hj Hx|j x l Hj Hx|j n l Hj Hn|name k j x l Hk Hj Hx
                |j n l Hj Hn|j n l Hj Hn|j x l Hj Hx|name t' n l Ht' Hn|name t' x l Ht' Hx|name t' x l Ht' Hx];
      try (exfalso; eapply Hin; [exact Hj|exact El]).
    + destruct Ht as [name Ht]. remember name as name' eqn:E'. destruct Ht' as [name1 Ht']. subst name1.
      apply app_inv_head in El. destruct (integer_value_head _ _ Hn) as (b & r1 & -> & Hb).
      apply (f_equal (hd 0)) in El. cbn [hd] in El. lia.
    + destruct Ht as [name Ht]. remember name as name' eqn:E'. destruct Ht' as [name1 Ht']. subst name1.
      apply app_inv_head in El. destruct Hx as [x [Hx1 Hx2]]. destruct x as [|c x]; [congruence|].
      apply (f_equal (hd 0)) in El. cbn [hd app] in El. subst c. apply Forall_inv in Hx2.
      destruct Hx2 as [_ Hx2]. apply Hx2. cbn. tauto.
    + destruct Hx as [x Hx]. destruct p as [y| | |]; cbn in Hs; try contradiction. subst y.
      assert (W : wp decode_parameter (t' ++ 34 :: x ++ [0]) 0 (fun r l' _ => forall n q, r = Ok (n, q) ->
                  exists c, pval_text q ++ c :: l' = 34 :: x ++ [0])).
      { unfold decode_parameter.
        destruct (token_text_head _ _ Ht') as (c & c' & r & E & Hc & _).
        apply wp_refused_catch.
        - rewrite E. cbn [app]. unfold decode_typed_parameter, decode_well_known_parameter, decode_well_known_parameter_in.
          apply wp_bind. apply wp_bind. eapply wp_mono; [apply integer_value_refuses; lia|].
          intros z l' p (-> & -> & ->). repeat split.
        - unfold decode_untyped_parameter. eapply wp_seq; [apply token_text_read; exact Ht'|].
          apply wp_bind. eapply wp_mono; [apply quoted_takes|]. intros r0 l' p H.
          destruct r0 as [q|e]; wsteps; [|congruence]. intros n q' E2.
          assert (q' = q) as -> by congruence. exact H. }
      destruct (decodes_all _ _ _ _ _ HD W) as (p' & X). destruct (X _ _ eq_refl) as (c & Ec).
      cbn [pval_text] in Ec. change (34 :: x ++ [0]) with ((34 :: x) ++ [0]) in Ec.
      apply app_inj_tail in Ec as [Ec _]. apply (f_equal (@length Z)) in Ec. cbn in Ec. lia.
Qed.

(** A parameter of the grammar is decoded to what it means exactly when it is none
    of the misread ones: any-charset, a version without minor number, a quoted
    string. *)
Theorem C74_parameter_exact : forall name v l, Param name v l ->
  ((exists p, shows_param v p /\ Decodes decode_parameter l (name, p)) <-> ~ misread_param name v l).
Proof.
  intros name v l H. split.
  - intros (p & Hs & HD) HM. exact (param_misread name v l p H HM Hs HD).
  - intros N. destruct (param_read name v l (conj H N)) as (p & Hs & Hw).
    exists p. split; [exact Hs|]. apply WspFacts.decodes_wp. exact Hw.
Qed.
Print Assumptions C74_parameter_exact.

(** A media type is decoded to its name exactly when it is not the assigned number
    of multipart/byteranges. *)
Definition byteranges_number (l : list Z) : Prop := Integer_value 14 l.

Theorem C74_media_exact : forall media l, Media media l ->
  (Decodes decode_media_type l media <-> ~ byteranges_number l).
Proof.
  intros media l H. split.
  - intros HD HB. assert (W : wp decode_media_type (l ++ []) 0 (becomes (str "multipart/byterantes") [])).
    { unfold decode_media_type. apply wp_becomes_catch. unfold decode_well_known_media.
      eapply wp_seq; [apply integer_value_read; exact HB|]. unfold content_type_at.
      change (14 <? zlen well_known_content_types) with true. wsteps. apply becomes_intro. }
    rewrite app_nil_r in W. destruct (decodes_all _ _ _ _ _ HD W) as (p' & X & _).
    assert (media = str "multipart/byterantes") as -> by congruence. clear HD X.
    remember (str "multipart/byterantes") as media eqn:Em. destruct H as [n media l [Hn H] Hi|media l H].
    + subst media. apply nth_error_In in H. revert H.
      assert (existsb (leqb (str "multipart/byterantes")) assigned_media = false) as G by (vm_compute; reflexivity).
      intros H. assert (existsb (leqb (str "multipart/byterantes")) assigned_media = true); [|congruence].
      apply existsb_exists. exists (str "multipart/byterantes"). split; [exact H|]. now apply leqb_eq.
    + destruct (extension_media_head _ _ H) as (b & r & -> & Hb).
      destruct (integer_value_head _ _ HB) as (b' & r' & E & Hb').
      apply (f_equal (hd 0)) in E. cbn [hd] in E. lia.
  - intros N. apply WspFacts.decodes_wp. intros rest.
    destruct H as [n media l Hn H|media l H].
    + apply media_read; [eapply m_number; eassumption|]. intros ->. apply N.
      destruct Hn as [Hn E]. unfold byteranges_number. replace 14 with n; [exact H|].
      assert (G : forallb (fun k => (k =? 14)%nat || negb (leqb (nth k assigned_media []) (str "multipart/byteranges")))
                (seq 0 (length assigned_media)) = true) by (vm_compute; reflexivity).
      rewrite forallb_forall in G. specialize (G (Z.to_nat n)).
      assert (Hk : (Z.to_nat n < length assigned_media)%nat) by (apply nth_error_Some; congruence).
      rewrite (nth_error_nth _ _ [] E) in G.
      assert (X : ((Z.to_nat n =? 14)%nat || negb (leqb (str "multipart/byteranges") (str "multipart/byteranges")))%bool = true)
        by (apply G, in_seq; lia).
      assert (R : leqb (str "multipart/byteranges") (str "multipart/byteranges") = true) by now apply leqb_eq.
      rewrite R in X. cbn [negb] in X. lia.
    + unfold decode_media_type.
      destruct (extension_media_head _ _ H) as (b & r & E & Hb).
      apply wp_refused_catch; [|apply extension_media_read; exact H].
      rewrite E. cbn [app]. unfold decode_well_known_media. apply wp_bind.
      eapply wp_mono; [apply integer_value_refuses; lia|].
      intros x l' p (-> & -> & ->). repeat split.
Qed.
Print Assumptions C74_media_exact.
Example C74_media_case : Media (str "multipart/byteranges") [142] /\
  Media (str "multipart/byteranges") (str "multipart/byteranges" ++ [0]).
Proof.
  split.
  - eapply m_number with (n := 14); [split; [lia|reflexivity]|]. apply iv_short, (short_integer 14). lia.
  - apply m_text. constructor; [|cbn; lia]. vm_compute. repeat constructor; intuition discriminate.
Qed.
