(** C82 and C89 for texts with the unit 27: exactly when the messages are as few as
    possible, and when they hold whole characters. *)
From Coq Require Import Lia ZifyBool ZifyNat.
From Verif Require Import Py PyFacts SpecGsm SpecPack SpecAddress SpecTime SpecSubmit SpecParts
  SpecSurrogate SpecCuts Gsm GsmFacts Utils PackFacts ValidityFacts Submit SubmitClaims NumberFacts
  SplitFacts SubmitFacts ToPduFacts PropSubmit PropParts PropSurrogate.
Open Scope Z_scope.

Lemma cuts_nonempty w t ps : (2 <= w)%nat -> Cuts w t ps -> t <> [] /\ ps <> [].
Proof.
  intros Hw H. destruct H as [t H _ _|p r ps Hp _ _|p r ps _ _].
  - split; [exact H|discriminate].
  - split; [|discriminate]. destruct p; [cbn in Hp; lia|discriminate].
  - split; [|discriminate]. destruct p; discriminate.
Qed.

Lemma cut_cuts w : (2 <= w)%nat -> forall fuel t, (length t <= fuel)%nat -> t <> [] ->
  Cuts w t (cut fuel w t).
Proof.
  intros Hw. induction fuel as [|f IH]; intros t Hf Hne.
  - destruct t; [congruence|cbn in Hf; lia].
  - rewrite cut_cons by exact Hne. cbv zeta.
    destruct (last (firstn w t) 0 =? 27) eqn:E27.
    + apply Z.eqb_eq in E27. destruct (Nat.lt_ge_cases (length t) w) as [L|L].
      * rewrite firstn_all2, skipn_all2 by lia. destruct f; cbn [cut]; apply cuts_last; auto; lia.
      * assert (X : exists r, skipn (w - 1) t = 27 :: r).
        { assert (Y : firstn w t = firstn (w - 1) t ++ firstn 1 (skipn (w - 1) t)).
          { replace w with ((w - 1) + 1)%nat at 1 by lia. rewrite <- (firstn_skipn (w - 1) t) at 1.
            rewrite firstn_app, firstn_firstn, firstn_length. replace (Nat.min (w - 1 + 1) (w - 1)) with (w - 1)%nat by lia.
            f_equal. f_equal. lia. }
          destruct (skipn (w - 1) t) as [|c r] eqn:Es.
          { apply (f_equal (@length Z)) in Es. rewrite skipn_length in Es. cbn in Es. lia. }
          rewrite Y in E27. cbn [firstn] in E27. rewrite last_last in E27. subst c. eauto. }
        destruct X as (r & Er).
        replace (Cuts w t) with (Cuts w (firstn (w - 1) t ++ 27 :: r)) by (rewrite <- Er, firstn_skipn; reflexivity).
        rewrite Er. apply cuts_short.
        -- rewrite firstn_length. lia.
        -- apply IH; [|discriminate]. rewrite <- Er, skipn_length. lia.
    + apply Z.eqb_neq in E27. destruct (Nat.le_gt_cases (length t) w) as [L|L].
      * rewrite firstn_all2, skipn_all2 in * by lia. destruct f; cbn [cut]; apply cuts_last; auto.
      * replace (Cuts w t) with (Cuts w (firstn w t ++ skipn w t)) by (rewrite firstn_skipn; reflexivity).
        apply cuts_full.
        -- rewrite firstn_length. lia.
        -- exact E27.
        -- apply IH; [rewrite skipn_length; lia|]. intros C. apply (f_equal (@length Z)) in C.
           rewrite skipn_length in C. cbn in C. lia.
Qed.

Lemma cuts_cut w : (2 <= w)%nat -> forall t ps, Cuts w t ps -> forall fuel, (length t <= fuel)%nat ->
  ps = cut fuel w t.
Proof.
  intros Hw t ps H. induction H as [t Hne Hl H27|p r ps Hp H27 H IH|p r ps Hp H IH]; intros fuel Hf.
  - destruct fuel as [|f]; [destruct t; [congruence|cbn in Hf; lia]|]. rewrite cut_cons by exact Hne. cbv zeta.
    rewrite (firstn_all2 t Hl).
    destruct (last t 0 =? 27) eqn:E.
    + assert (length t <> w) by (intros C; apply H27 in C; lia).
      rewrite firstn_all2, skipn_all2 by lia. destruct f; reflexivity.
    + rewrite firstn_all2, skipn_all2 by lia. destruct f; reflexivity.
  - destruct (cuts_nonempty w r ps Hw H) as [Hr _]. rewrite app_length in Hf.
    destruct fuel as [|f]; [lia|].
    rewrite cut_cons by (destruct p; [cbn in Hp; lia|discriminate]). cbv zeta.
    assert (E : firstn w (p ++ r) = p) by (rewrite <- Hp, firstn_app, firstn_all, Nat.sub_diag; apply app_nil_r).
    assert (E' : skipn w (p ++ r) = r) by (rewrite <- Hp, skipn_app, skipn_all, Nat.sub_diag; reflexivity).
    rewrite E. replace (last p 0 =? 27) with false by lia. rewrite E, E'. f_equal. apply IH. lia.
  - rewrite app_length in Hf. destruct fuel as [|f]; [cbn [length] in Hf; lia|].
    rewrite cut_cons by (destruct p; discriminate). cbv zeta.
    assert (E : firstn w (p ++ 27 :: r) = p ++ [27]).
    { rewrite <- Hp, firstn_app, firstn_all2 by lia. replace (S (length p) - length p)%nat with 1%nat by lia. reflexivity. }
    rewrite E, last_last. change (27 =? 27) with true. cbv iota.
    replace (w - 1)%nat with (length p) by lia.
    rewrite firstn_app, firstn_all, Nat.sub_diag, skipn_app, skipn_all, Nat.sub_diag. cbn [firstn skipn app].
    rewrite app_nil_r. f_equal. apply IH. cbn [length] in *. lia.
Qed.

(** * C82 *)

Lemma cuts_length w t ps : (2 <= w)%nat -> Cuts w t ps ->
  (length t + cut_short w ps = w * (length ps - 1) + length (last ps []))%nat /\ (length (last ps []) <= w)%nat.
Proof.
  intros Hw H. induction H as [t Hne Hl H27|p r ps Hp H27 H IH|p r ps Hp H IH].
  - cbn. unfold cut_short. cbn. lia.
  - destruct (cuts_nonempty w r ps Hw H) as [_ Hps]. destruct ps as [|q ps]; [congruence|].
    assert (El : last (p :: q :: ps) [] = last (q :: ps) []) by reflexivity. rewrite El. destruct IH as [IH1 IH2]. split; [|exact IH2].
    unfold cut_short in *.
    assert (Er : removelast (p :: q :: ps) = p :: removelast (q :: ps)) by reflexivity. rewrite Er.
    cbn [filter]. replace (Nat.eqb (S (length p)) w) with false by lia.
    rewrite app_length. cbn [length] in *. nia.
  - destruct (cuts_nonempty w _ ps Hw H) as [_ Hps]. destruct ps as [|q ps]; [congruence|].
    assert (El : last (p :: q :: ps) [] = last (q :: ps) []) by reflexivity. rewrite El. destruct IH as [IH1 IH2]. split; [|exact IH2].
    unfold cut_short in *.
    assert (Er : removelast (p :: q :: ps) = p :: removelast (q :: ps)) by reflexivity. rewrite Er.
    cbn [filter]. replace (Nat.eqb (S (length p)) w) with true by lia.
    rewrite app_length. cbn [length] in *. nia.
Qed.

(** A text in [n] pieces of [w] units. *)
Fixpoint pieces (w n : nat) (t : list Z) : list (list Z) :=
  match n with O => [] | S n => firstn w t :: pieces w n (skipn w t) end.
Lemma pieces_ok w : forall n t, (length t <= w * n)%nat ->
  concat (pieces w n t) = t /\ length (pieces w n t) = n /\ Forall (fun p => (length p <= w)%nat) (pieces w n t).
Proof.
  induction n as [|n IH]; intros t H.
  - destruct t; [repeat split; constructor|cbn in H; lia].
  - cbn [pieces]. destruct (IH (skipn w t)) as (A & B & C); [rewrite skipn_length; nia|].
    cbn [concat length]. rewrite A, B, firstn_skipn. repeat split. constructor; [rewrite firstn_length; lia|exact C].
Qed.

(** C82, exactly, for 8-bit and UCS-2 texts: the messages are as few as possible just
    when the last part is longer than the number of parts cut short. *)
Theorem C82_exact : forall s pdus s', let w := Z.to_nat (part_capacity (coding_of s)) in
  reachable s -> validity_ok (s_validity s) -> coding_of s = 4 \/ coding_of s = 8 ->
  (coding_of s = 4 -> Forall octet (chars (s_text s))) ->
  to_pdu s = (Ok pdus, s') -> length pdus <> 1%nat ->
  exists parts, Cuts w (chars (s_text s)) parts /\ length pdus = length parts /\
  ((forall ps, message_split (coding_of s) (chars (s_text s)) ps -> (length pdus <= length ps)%nat) <->
   (cut_short w parts < length (last parts []))%nat).
Proof.
  intros s pdus s' w Hr Hv Hc H4 E N1.
  assert (Hwf : wf_submit s) by (now apply reachable_wf).
  destruct (to_pdu_split s pdus s' Hwf Hv H4 E N1) as (_ & g & ps & Hg & Es & El).
  replace (coding_of s =? 0) with false in Hg by lia. subst g.
  assert (Hw : 2 <= part_capacity (coding_of s)).
  { unfold part_capacity. destruct (coding_of s =? 0), (coding_of s =? 4); lia. }
  rewrite split_text_cut in Es by exact Hw. fold w in Es.
  assert (Hw' : (2 <= w)%nat) by (unfold w; lia).
  assert (Hne : chars (s_text s) <> []).
  { intros C. rewrite C in Es. cbn [length cut] in Es. assert (ps = []) by congruence. subst ps.
    assert (Hn : message_size (coding_of s) (chars (s_text s)) 0).
    { unfold message_size. replace (coding_of s =? 0) with false by lia. rewrite C. reflexivity. }
    destruct (C15_threshold s pdus s' _ Hr Hv H4 Hn E) as [T1 _]. unfold zlen in T1. rewrite El in T1.
    assert (Z.of_nat 0 = 1); [apply T1|lia]. unfold capacity. destruct (coding_of s =? 0), (coding_of s =? 4); lia. }
  pose proof (cut_cuts w Hw' (S (length (chars (s_text s)))) (chars (s_text s)) ltac:(lia) Hne) as HC.
  exists ps. assert (Eps : cut (S (length (chars (s_text s)))) w (chars (s_text s)) = ps) by congruence.
  rewrite Eps in HC. clear Es Eps Hne. rename ps into parts.
  split; [exact HC|]. split; [exact El|].
  destruct (cuts_length w _ _ Hw' HC) as [L1 L2].
  assert (Hn : message_size (coding_of s) (chars (s_text s)) (zlen (chars (s_text s)))).
  { unfold message_size, zlen. replace (coding_of s =? 0) with false by lia. reflexivity. }
  destruct (C15_threshold s pdus s' _ Hr Hv H4 Hn E) as [T1 _].
  assert (Hbig : capacity (coding_of s) < zlen (chars (s_text s))).
  { destruct (Z_lt_le_dec (capacity (coding_of s)) (zlen (chars (s_text s)))) as [X|X]; [exact X|].
    specialize (T1 X). unfold zlen in T1. lia. }
  assert (Hcw : (w <= Z.to_nat (capacity (coding_of s)))%nat).
  { unfold w, part_capacity, capacity. destruct (coding_of s =? 0), (coding_of s =? 4); lia. }
  assert (Hcap : 0 <= capacity (coding_of s)) by (unfold capacity; destruct (coding_of s =? 0), (coding_of s =? 4); lia).
  set (t := chars (s_text s)) in *. unfold zlen in Hbig.
  assert (Hparts : forall ps, message_split (coding_of s) t ps -> (length t <= w * length ps)%nat).
  { intros ps [Hp Hfit]. unfold parts_of in Hp. replace (coding_of s =? 0) with false in Hp by lia.
    destruct ps as [|p [|q ps]].
    - contradiction.
    - exfalso. cbn [concat] in Hp. rewrite app_nil_r in Hp. subst p. lia.
    - rewrite <- Hp at 1. remember (p :: q :: ps) as l eqn:Eq. clear - Hfit Hw.
      induction Hfit as [|x l Hx _ IH]; [cbn; lia|]. cbn [concat length]. rewrite app_length. unfold w in *. lia. }
  split.
  - intros H. destruct (Nat.lt_ge_cases (cut_short w parts) (length (last parts []))) as [X|X]; [exact X|exfalso].
    assert (Ht : (length t <= w * (length parts - 1))%nat) by nia.
    destruct (pieces_ok w _ _ Ht) as (A & B & C).
    assert (H2 : (2 <= length parts - 1)%nat).
    { destruct (length parts - 1)%nat as [|[|k]]; nia. }
    specialize (H (pieces w (length parts - 1) t)). rewrite B in H. enough (length pdus <= length parts - 1)%nat by lia.
    apply H. split.
    + unfold parts_of. replace (coding_of s =? 0) with false by lia. exact A.
    + destruct (pieces w (length parts - 1) t) as [|p [|q l]]; [cbn in B; lia|cbn in B; lia|].
      eapply Forall_impl; [|exact C]. cbv beta. intros x Hx. unfold w in Hx. lia.
  - intros H ps Hs. apply Hparts in Hs. destruct (cuts_nonempty w _ _ Hw' HC) as [_ Hne].
    destruct parts as [|p0 parts0]; [congruence|]. cbn [length] in *. rewrite El.
    destruct (Nat.le_gt_cases (S (length parts0)) (length ps)) as [Y|Y]; [exact Y|exfalso]. nia.
Qed.
Print Assumptions C82_exact.
(** Two parts of 66 units and a last one: of 3 units, and of 2, where two messages
    would do. *)
Example C82_exact_case : forall n, (n = 2%nat \/ n = 3%nat) ->
  let t := repeat 1071 66 ++ 27 :: repeat 1071 65 ++ 27 :: repeat 1071 (n - 1) in
  let s := sample (PyStr true t) in
  coding_of s = 8 /\ Cuts 67 t [repeat 1071 66; 27 :: repeat 1071 65; 27 :: repeat 1071 (n - 1)] /\
  cut_short 67 [repeat 1071 66; 27 :: repeat 1071 65; 27 :: repeat 1071 (n - 1)] = 2%nat /\
  (match to_pdu s with (Ok l, _) => length l | _ => 0%nat end) = 3%nat.
Proof.
  intros n [->| ->]; cbv zeta; (split; [vm_compute; reflexivity|]; split; [|split; vm_compute; reflexivity]).
  - apply (cuts_short 67 (repeat 1071 66)); [reflexivity|].
    apply (cuts_short 67 (27 :: repeat 1071 65) [1071]); [reflexivity|].
    apply cuts_last; cbn; [discriminate|lia|lia].
  - apply (cuts_short 67 (repeat 1071 66)); [reflexivity|].
    apply (cuts_short 67 (27 :: repeat 1071 65) [1071; 1071]); [reflexivity|].
    apply cuts_last; cbn; [discriminate|lia|lia].
Qed.

(** * C89 *)

Lemma utf16_parts : forall parts, Forall (fun p : list Z => p <> []) parts -> Utf16 (concat parts) ->
  (Forall Utf16 parts <-> forall i, ends parts i -> ~ pair_at (concat parts) i).
Proof.
  intros parts Hne Hu. split.
  - intros HF i (a & b & -> & Hi) (x & y & Hx & Hy & Hh & Hl).
    apply Forall_app in HF. destruct HF as [Ha _].
    assert (Hua : Utf16 (concat a)).
    { clear - Ha. induction Ha as [|p l Hp _ IH]; [constructor|]. cbn [concat].
      clear - Hp IH. induction Hp; [exact IH|cbn; constructor; assumption|cbn; constructor; assumption]. }
    rewrite concat_app in Hx. rewrite nth_error_app1 in Hx by lia.
    destruct (exists_last (l := concat a)) as (q & z & Eq); [intros C; rewrite C in Hi; discriminate|].
    assert (z = x) as ->.
    { rewrite Eq, app_length in Hi. cbn [length] in Hi. rewrite Eq, nth_error_app2 in Hx by lia.
      replace (i - length q)%nat with 0%nat in Hx by lia. cbn in Hx. congruence. }
    exact (utf16_last _ Hua q x Eq Hh).
  - intros H. revert Hu H. induction Hne as [|p parts Hp Hne IH]; intros Hu H; [constructor|].
    cbn [concat] in *. destruct (utf16_split p (concat parts) Hu) as [H1 H2].
    { intros q a b z E1 E2 Ha Hb. apply (H (length q)).
      - exists [p], parts. split; [reflexivity|]. cbn [concat]. rewrite app_nil_r, E1, app_length. cbn. lia.
      - exists a, b. rewrite E1, E2, <- app_assoc. cbn [app]. split; [|split; [|auto]].
        + rewrite nth_error_app2, Nat.sub_diag by lia. reflexivity.
        + rewrite nth_error_app2 by lia. replace (S (length q) - length q)%nat with 1%nat by lia. reflexivity. }
    constructor; [exact H1|]. apply IH; [exact H2|]. intros i (a & b & -> & Hi) (x & y & Hx & Hy & Hh & Hl).
    apply (H (length p + i)%nat).
    + exists (p :: a), b. split; [reflexivity|]. cbn [concat]. rewrite app_length. lia.
    + exists x, y. split; [|split; [|auto]].
      * rewrite nth_error_app2 by lia. replace (length p + i - length p)%nat with i by lia. exact Hx.
      * rewrite nth_error_app2 by lia. replace (S (length p + i) - length p)%nat with (S i) by lia. exact Hy.
Qed.

(** C89, exactly, for every text: the PDUs carry the parts of the text that [Cuts]
    says, and these are texts of their own just when no character of two units lies
    across the end of one. *)
Theorem C89_cuts_exact : forall s pdus s', reachable s -> validity_ok (s_validity s) -> coding_of s = 8 ->
  Utf16 (chars (s_text s)) -> to_pdu s = (Ok pdus, s') -> length pdus <> 1%nat ->
  exists parts, Cuts 67 (chars (s_text s)) parts /\ length parts = length pdus /\
  (exists ref, forall k p m, nth_error pdus k = Some p -> nth_error parts k = Some m -> exists udl ud,
     carries s 8 (message_ref s) true udl ud p /\
     part_ud 8 ref (zlen pdus) (1 + Z.of_nat k) m udl ud) /\
  (Forall Utf16 parts <-> forall i, ends parts i -> ~ pair_at (chars (s_text s)) i).
Proof.
  intros s pdus s' Hr Hv Hc Hu E Hne.
  destruct (to_pdu_ucs2 s pdus s' (reachable_wf _ Hr) Hv Hc E Hne) as (ref & parts & Ho & Es & El & Hbig & H).
  assert (HC : Cuts 67 (chars (s_text s)) parts).
  { rewrite split_text_cut in Es by lia. change (Z.to_nat 67) with 67%nat in Es.
    assert (parts = cut (S (length (chars (s_text s)))) 67 (chars (s_text s))) as -> by congruence.
    apply cut_cuts; [lia|lia|]. intros C. rewrite C in Hbig. cbn in Hbig. lia. }
  exists parts. split; [exact HC|]. split; [exact El|]. split; [exists ref; exact H|].
  destruct (split_text_spec (chars (s_text s)) 67 ltac:(lia)) as (ps & E1 & E2 & E3).
  assert (ps = parts) by congruence. subst ps. rewrite <- E2 in Hu |- *. apply utf16_parts; [|exact Hu].
  eapply Forall_impl; [|exact E3]. cbv beta. intros p Hp ->. cbn in Hp. lia.
Qed.
Print Assumptions C89_cuts_exact.
(** U+1F600 where the unit 27 makes the cut fall into it. *)
Example C89_cuts_case :
  let t := repeat 1071 66 ++ [27] ++ repeat 1071 65 ++ [55357; 56832] in
  let parts := [repeat 1071 66; 27 :: repeat 1071 65 ++ [55357]; [56832]] in
  Utf16 t /\ Cuts 67 t parts /\ ends parts 132 /\ pair_at t 132 /\ coding_of (sample (PyStr true t)) = 8 /\
  (match to_pdu (sample (PyStr true t)) with (Ok l, _) => length l | _ => 0%nat end) = 3%nat.
Proof.
  cbv zeta.
  assert (U : forall n l, Utf16 l -> Utf16 (repeat 1071 n ++ l)).
  { induction n; intros l H; [exact H|]. cbn. constructor; auto; unfold high, low; lia. }
  split. { apply U. cbn [app]. constructor; unfold high, low; try lia. apply U.
           apply utf16_two; unfold high, low; try lia. constructor. }
  split. { apply (cuts_short 67 (repeat 1071 66)); [reflexivity|].
           apply (cuts_full 67 (27 :: repeat 1071 65 ++ [55357]) [56832]); [reflexivity|vm_compute; discriminate|].
           apply cuts_last; cbn; [discriminate|lia|lia]. }
  split. { exists [repeat 1071 66; 27 :: repeat 1071 65 ++ [55357]], [[56832]]. split; reflexivity. }
  split. { exists 55357, 56832. repeat split; unfold high, low; try lia; reflexivity. }
  split; vm_compute; reflexivity.
Qed.
