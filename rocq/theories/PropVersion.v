(** Exactly what becomes of a version string, C47. *)
From Coq Require Import Lia ZifyBool ZifyNat.
From Verif Require Import Py Iter WspDec WspEnc SpecWsp SpecVersion WspClaims PyFacts IterFacts WspFacts.
Open Scope Z_scope.

(** * Numbers *)

Lemma space_blank c : is_space c = true <-> blank c.
Proof. unfold is_space, blank. lia. Qed.

Lemma drop_space_app : forall l r, Forall blank l -> drop_space (l ++ r) = drop_space r.
Proof.
  induction 1 as [|c l Hc _ IH]; [reflexivity|]. cbn [app drop_space].
  rewrite (proj2 (space_blank c) Hc). exact IH.
Qed.

Lemma drop_space_split : forall l, exists pre, Forall blank pre /\ l = pre ++ drop_space l.
Proof.
  induction l as [|c l (pre & H & E)]; [exists []; split; [constructor|reflexivity]|].
  cbn [drop_space]. destruct (is_space c) eqn:S.
  - exists (c :: pre). split; [constructor; [apply space_blank; exact S|exact H]|].
    cbn [app]. f_equal. exact E.
  - exists []. split; [constructor|reflexivity].
Qed.

Lemma digit_ten c : match digit_val c with Some d => d <? 10 | None => false end = true <-> digit c.
Proof.
  unfold digit_val, digit. destruct ((48 <=? c) && (c <=? 57)) eqn:E1; [lia|].
  destruct ((97 <=? c) && (c <=? 122)) eqn:E2; [lia|].
  destruct ((65 <=? c) && (c <=? 90)) eqn:E3; lia.
Qed.

Lemma digit_value c : digit c -> digit_val c = Some (c - 48).
Proof. unfold digit, digit_val. intros H. replace ((48 <=? c) && (c <=? 57)) with true by lia. reflexivity. Qed.

Lemma parse_run : forall ds r acc, Forall digit ds -> ~ starts_with digit r ->
  parse_digits 10 acc (ds ++ r) = (fold_left (fun n c => n * 10 + (c - 48)) ds acc, r).
Proof.
  induction ds as [|c ds IH]; intros r acc H Hr; cbn [app fold_left].
  - destruct r as [|c r]; [reflexivity|]. cbn [parse_digits]. cbn [starts_with] in Hr.
    pose proof (digit_ten c) as X. destruct (digit_val c) as [d|]; [|reflexivity].
    destruct (d <? 10) eqn:D; [|reflexivity]. destruct Hr. apply X. reflexivity.
  - pose proof (Forall_inv H) as Hc. cbn [parse_digits]. rewrite (digit_value c Hc).
    unfold digit in Hc. replace (c - 48 <? 10) with true by lia. apply IH; [exact (Forall_inv_tail H)|exact Hr].
Qed.

Lemma parse_split : forall l acc v r, parse_digits 10 acc l = (v, r) ->
  exists ds, l = ds ++ r /\ Forall digit ds /\ v = fold_left (fun n c => n * 10 + (c - 48)) ds acc /\
    (starts_digit 10 l = true -> ds <> []).
Proof.
  induction l as [|c l IH]; intros acc v r E; cbn [parse_digits] in E.
  - assert (v = acc /\ r = []) as (-> & ->) by (split; congruence). exists []. repeat split; [constructor|].
    intros X; discriminate X.
  - pose proof (digit_ten c) as X. cbn [starts_digit].
    destruct (digit_val c) as [d|] eqn:D; [destruct (d <? 10) eqn:L|].
    + destruct (IH _ _ _ E) as (ds & -> & H & -> & _). exists (c :: ds).
      assert (Hc : digit c) by (apply X; reflexivity). rewrite (digit_value c Hc) in D.
      assert (d = c - 48) by congruence. subst d.
      repeat split; [constructor; assumption|discriminate].
    + assert (v = acc /\ r = c :: l) as (-> & ->) by (split; congruence).
      exists []. repeat split; [constructor|]. intros Y; discriminate Y.
    + assert (v = acc /\ r = c :: l) as (-> & ->) by (split; congruence).
      exists []. repeat split; [constructor|]. intros Y; discriminate Y.
Qed.

(** [int(s)] without the steps that do nothing in base 10. *)
Definition int10 (s : list Z) : res Z :=
  let s1 := drop_space s in
  let '(sg, s2) :=
    match s1 with
    | c :: r => if c =? 43 then (1, r) else if c =? 45 then (-1, r) else (1, s1)
    | [] => (1, [])
    end in
  let s3 := drop_space s2 in
  if starts_digit 10 s3 then
    let '(v, r) := parse_digits 10 0 s3 in
    match drop_space r with [] => Ok (sg * v) | _ => Err ValueError end
  else Err ValueError.

Lemma py_int10 s : py_int 10 s = int10 s.
Proof.
  unfold py_int, int10. destruct (match drop_space s with [] => _ | _ => _ end) as [sg s2].
  destruct (drop_space s2) as [|z [|x r]]; reflexivity.
Qed.

Lemma int_number s n : py_int 10 s = Ok n <-> Number n s.
Proof.
  rewrite py_int10. split.
  - unfold int10. destruct (drop_space_split s) as (pre & Hpre & Es).
    destruct (match drop_space s with [] => _ | _ => _ end) as [sg s2] eqn:E2.
    assert (G : exists sign, In (sign, sg) [([], 1); ([43], 1); ([45], -1)] /\ drop_space s = sign ++ s2).
    { destruct (drop_space s) as [|c r].
      - assert (sg = 1 /\ s2 = []) as (-> & ->) by (split; congruence). exists []. split; [now left|reflexivity].
      - destruct (c =? 43) eqn:P; [|destruct (c =? 45) eqn:Q].
        + assert (sg = 1 /\ s2 = r) as (-> & ->) by (split; congruence). exists [43].
          split; [right; now left|]. cbn. f_equal. lia.
        + assert (sg = -1 /\ s2 = r) as (-> & ->) by (split; congruence). exists [45].
          split; [right; right; now left|]. cbn. f_equal. lia.
        + assert (sg = 1 /\ s2 = c :: r) as (-> & ->) by (split; congruence). exists [].
          split; [now left|reflexivity]. }
    destruct G as (sign & Hs & Ed). destruct (drop_space_split s2) as (mid & Hmid & Em).
    destruct (starts_digit 10 (drop_space s2)) eqn:Hd; [|discriminate].
    destruct (parse_digits 10 0 (drop_space s2)) as [v r] eqn:P.
    destruct (parse_split _ _ _ _ P) as (ds & E3 & Hds & -> & Hne).
    destruct (drop_space_split r) as (post & Hpost & Er).
    destruct (drop_space r) as [|? ?]; [|discriminate]. rewrite app_nil_r in Er. subst r.
    intros E. assert (n = sg * decimal ds) as -> by (unfold decimal; congruence).
    rewrite Es, Ed, Em, E3. apply number; auto.
  - intros [sign k pre mid ds post Hs Hpre Hmid Hpost Hne Hds]. unfold int10.
    destruct ds as [|d ds]; [congruence|]. pose proof (Forall_inv Hds) as Hd.
    assert (Hb : forall c, digit c -> is_space c = false).
    { intros c Hc. apply Bool.not_true_iff_false. rewrite space_blank. unfold digit, blank in *. lia. }
    assert (D1 : forall r, drop_space (mid ++ (d :: ds) ++ r) = (d :: ds) ++ r).
    { intros r. rewrite drop_space_app by exact Hmid. cbn [app drop_space]. rewrite (Hb d Hd). reflexivity. }
    assert (T : drop_space post = []).
    { rewrite <- (app_nil_r post). rewrite drop_space_app by exact Hpost. reflexivity. }
    assert (Np : ~ starts_with digit post).
    { destruct Hpost as [|c post Hc _]; cbn; [tauto|]. unfold blank, digit in *. lia. }
    assert (K : forall sg, (let s3 := drop_space (mid ++ (d :: ds) ++ post) in
       if starts_digit 10 s3 then let '(v, r) := parse_digits 10 0 s3 in
         match drop_space r with [] => Ok (sg * v) | _ => Err ValueError end
       else Err ValueError) = Ok (sg * decimal (d :: ds))).
    { intros sg. cbv zeta. rewrite D1. rewrite (parse_run (d :: ds) post 0 Hds Np). rewrite T.
      replace (starts_digit 10 ((d :: ds) ++ post)) with true; [reflexivity|].
      symmetry. apply (proj2 (digit_ten d)). exact Hd. }
    rewrite drop_space_app by exact Hpre.
    cbn [In] in Hs. destruct Hs as [Hs|[Hs|[Hs|[]]]].
    + assert (sign = [] /\ k = 1) as (-> & ->) by (split; congruence).
      change ([] ++ mid ++ (d :: ds) ++ post) with (mid ++ (d :: ds) ++ post). rewrite D1.
      cbn [app]. replace (d =? 43) with false by (unfold digit in Hd; lia).
      replace (d =? 45) with false by (unfold digit in Hd; lia).
      specialize (K 1). cbv zeta in K. rewrite D1 in K. cbn [drop_space]. rewrite (Hb d Hd). exact K.
    + assert (sign = [43] /\ k = 1) as (-> & ->) by (split; congruence).
      change ([43] ++ mid ++ (d :: ds) ++ post) with (43 :: mid ++ (d :: ds) ++ post).
      change (drop_space (43 :: ?x)) with (43 :: x). cbv iota. change (43 =? 43) with true. cbv iota. exact (K 1).
    + assert (sign = [45] /\ k = -1) as (-> & ->) by (split; congruence).
      change ([45] ++ mid ++ (d :: ds) ++ post) with (45 :: mid ++ (d :: ds) ++ post).
      change (drop_space (45 :: ?x)) with (45 :: x). cbv iota. change (45 =? 43) with false.
      change (45 =? 45) with true. cbv iota. exact (K (-1)).
Qed.

(** * Dots *)

Lemma dot_count_dots s : dot_count s = dots s.
Proof.
  unfold dot_count, dots. induction s as [|c s IH]; [reflexivity|]. cbn [count_occ filter].
  destruct (Z.eq_dec c 46) as [->|N]; [cbn; rewrite IH; reflexivity|].
  replace (46 =? c) with false by lia. exact IH.
Qed.

Lemma split_none s : dot_count s = 0%nat -> split_dot s = [s].
Proof.
  unfold dot_count. induction s as [|c s IH]; [reflexivity|]. cbn [count_occ split_dot].
  destruct (Z.eq_dec c 46) as [->|N]; [discriminate|]. intros H.
  replace (c =? 46) with false by lia. rewrite IH by exact H. reflexivity.
Qed.

Lemma dot_count_app a b : dot_count (a ++ b) = (dot_count a + dot_count b)%nat.
Proof. apply count_occ_app. Qed.

Lemma split_one : forall a b, dot_count a = 0%nat -> dot_count b = 0%nat -> split_dot (a ++ 46 :: b) = [a; b].
Proof.
  induction a as [|c a IH]; intros b Ha Hb; cbn [app split_dot].
  - change (46 =? 46) with true. cbv iota. rewrite split_none by exact Hb. reflexivity.
  - unfold dot_count in Ha. cbn [count_occ] in Ha. destruct (Z.eq_dec c 46); [discriminate|].
    replace (c =? 46) with false by lia. rewrite IH by assumption. reflexivity.
Qed.

Lemma split_at_dot : forall s, dot_count s = 1%nat ->
  exists a b, s = a ++ 46 :: b /\ dot_count a = 0%nat /\ dot_count b = 0%nat.
Proof.
  unfold dot_count. induction s as [|c s IH]; cbn [count_occ]; [discriminate|].
  destruct (Z.eq_dec c 46) as [->|N]; intros H.
  - exists [], s. repeat split. cbn. lia.
  - destruct (IH H) as (a & b & -> & Ha & Hb). exists (c :: a), b. repeat split; [|exact Hb].
    cbn [count_occ]. destruct (Z.eq_dec c 46); [congruence|exact Ha].
Qed.

Lemma lor_small M m : 1 <= M <= 7 -> 0 <= m <= 15 -> Z.lor (Z.shiftl M 4) m = 16 * M + m.
Proof.
  intros H1 H2. rewrite Z.shiftl_mul_pow2 by lia. change (2 ^ 4) with 16.
  assert (Y : forallb (fun x => forallb (fun y => Z.lor (Z.of_nat x * 16) (Z.of_nat y) =? Z.of_nat x * 16 + Z.of_nat y)
                 (seq 0 16)) (seq 0 8) = true) by (vm_compute; reflexivity).
  rewrite forallb_forall in Y. specialize (Y (Z.to_nat M)). rewrite in_seq in Y.
  specialize (Y ltac:(lia)). rewrite forallb_forall in Y. specialize (Y (Z.to_nat m)).
  rewrite in_seq in Y. specialize (Y ltac:(lia)). rewrite !Z2Nat.id in Y by lia. lia.
Qed.

(** What the code computes, in the words of the specification. *)
Lemma version_sent s : Sent s (encode_version_value s).
Proof.
  unfold encode_version_value, version_short.
  assert (two : dot_count s = 0%nat \/ dot_count s = 1%nat \/ (2 <= dot_count s)%nat) by lia.
  destruct two as [H|[H|H]].
  - rewrite split_none by exact H.
    assert (O : (forall M, ~ Major M s) -> Sent s (encode_text_string s)).
    { intros N. apply sent_text. split; [lia|]. split; [|exact N].
      intros M m (a & b & -> & H1 & _). lia. }
    destruct (py_int 10 s) as [M|] eqn:E; cbn [bind].
    + pose proof (proj1 (int_number s M) E) as HN.
      destruct ((M <? 1) || (7 <? M)) eqn:R.
      * apply O. intros M' (_ & N & B). apply int_number in N. assert (M = M') by congruence. lia.
      * rewrite lor_small, encode_short_integer_ok by lia.
        replace (128 + (16 * M + 15)) with (128 + 16 * M + 15) by lia. apply sent_major. repeat split; auto; lia.
    + apply O. intros M' (_ & N & B). apply int_number in N. congruence.
  - destruct (split_at_dot s H) as (a & b & -> & Ha & Hb). rewrite split_one by assumption.
    assert (U : forall M m a' b', a ++ 46 :: b = a' ++ [46] ++ b' -> Number M a' -> Number m b' ->
      py_int 10 a = Ok M /\ py_int 10 b = Ok m).
    { intros M m a' b' E Na Nb. cbn [app] in E. rewrite E in H. rewrite dot_count_app in H.
      assert (Z : dot_count (46 :: b') = S (dot_count b')) by reflexivity.
      assert (X : split_dot (a ++ 46 :: b) = split_dot (a' ++ 46 :: b')) by congruence.
      rewrite split_one in X by assumption. rewrite split_one in X by lia.
      assert (a = a' /\ b = b') as (-> & ->) by (split; congruence).
      split; apply int_number; assumption. }
    assert (O : (forall M m, ~ Major_minor M m (a ++ 46 :: b)) ->
                Sent (a ++ 46 :: b) (encode_text_string (a ++ 46 :: b))).
    { intros N. apply sent_text. split; [lia|]. split; [exact N|]. intros M (X & _). lia. }
    destruct (py_int 10 a) as [M|] eqn:E; cbn [bind].
    + destruct ((M <? 1) || (7 <? M)) eqn:R.
      * apply O. intros M' m' (a' & b' & E' & _ & Na & Nb & B1 & B2).
        destruct (U M' m' a' b' E' Na Nb) as (X & _). assert (M = M') by congruence. lia.
      * destruct (py_int 10 b) as [m|] eqn:F; cbn [bind].
        { destruct ((m <? 0) || (14 <? m)) eqn:R'.
          - apply O. intros M' m' (a' & b' & E' & _ & Na & Nb & B1 & B2).
            destruct (U M' m' a' b' E' Na Nb) as (_ & X). assert (m = m') by congruence. lia.
          - rewrite lor_small, encode_short_integer_ok by lia.
            replace (128 + (16 * M + m)) with (128 + 16 * M + m) by lia. apply sent_both.
            exists a, b. repeat split; auto; try (apply int_number; assumption); lia. }
        { apply O. intros M' m' (a' & b' & E' & _ & Na & Nb & B1 & B2).
          destruct (U M' m' a' b' E' Na Nb) as (_ & X). congruence. }
    + apply O. intros M' m' (a' & b' & E' & _ & Na & Nb & B1 & B2).
      destruct (U M' m' a' b' E' Na Nb) as (X & _). congruence.
  - pose proof (split_dot_length s) as L. rewrite <- dot_count_dots in L.
    destruct (split_dot s) as [|x [|y [|z r]]]; cbn [length] in L; try lia. apply sent_nothing. exact H.
Qed.

Lemma number_unique s n m : Number n s -> Number m s -> n = m.
Proof. intros A B. apply int_number in A. apply int_number in B. congruence. Qed.

Lemma sent_unique s l l' : Sent s l -> Sent s l' -> l = l'.
Proof.
  intros A B. destruct A as [M m s H|M s H|s H|s H]; inversion B as [M' m' s' H' E1|M' s' H' E1|s' H' E1|s' H' E1]; subst; try reflexivity.
  - destruct H as (a & b & -> & D & Na & Nb & _), H' as (a' & b' & E & _ & Na' & Nb' & _).
    pose proof D as D'. rewrite E in D'. rewrite dot_count_app in D, D'.
    assert (Z : forall b, dot_count ([46] ++ b) = S (dot_count b)) by reflexivity. rewrite Z in D, D'.
    cbn [app] in E. assert (X : split_dot (a ++ 46 :: b) = split_dot (a' ++ 46 :: b')) by congruence.
    rewrite !split_one in X by lia. assert (a = a' /\ b = b') as (-> & ->) by (split; congruence).
    rewrite (number_unique _ _ _ Na Na'), (number_unique _ _ _ Nb Nb'). reflexivity.
  - destruct H as (a & b & E & D & _), H' as (D' & _). lia.
  - destruct H as (a & b & E & D & _). lia.
  - destruct H' as (_ & N & _). destruct (N _ _ H).
  - destruct H' as (a & b & E & D & _), H as (D' & _). lia.
  - destruct H as (_ & N & _), H' as (_ & N' & _). rewrite (number_unique _ _ _ N N'). reflexivity.
  - destruct H as (D & _). lia.
  - destruct H' as (_ & _ & N). destruct (N _ H).
  - destruct H' as (a & b & E & D & _). lia.
  - destruct H' as (D & _). lia.
  - destruct H' as (D & _). lia.
  - destruct H as (_ & N & _). destruct (N _ _ H').
  - destruct H as (_ & _ & N). destruct (N _ H').
  - destruct H as (D & _). lia.
Qed.

(** * C47 *)

(** Exactly what is sent for a version string. *)
Theorem C47_exact : forall s l, encode_version_value s = l <-> Sent s l.
Proof.
  intros s l. split.
  - intros <-. apply version_sent.
  - apply sent_unique. apply version_sent.
Qed.
Print Assumptions C47_exact.
Example C47_exact_case : Sent (str " +2 . 07") [128 + 16 * 2 + 7] /\ Sent (str "3") [128 + 16 * 3 + 15] /\
  Sent (str "1.2.4") [] /\ Sent (str "1.15") (str "1.15" ++ [0]).
Proof. repeat split; apply C47_exact; reflexivity. Qed.

(** * Round trips *)

Lemma decodes_result {A} (m : ST piter A) bytes v v' rest :
  Decodes m bytes v -> wp m bytes 0 (becomes v' rest) -> v = v'.
Proof.
  intros H W. destruct (W _ (R_new bytes)) as (r & it & l & p & E & _ & -> & _ & _).
  destruct (H [] (new_iter bytes)) as (it' & E' & _); [cbn; rewrite app_nil_r; reflexivity|reflexivity|].
  congruence.
Qed.

Lemma version_octet_run b rest : 128 <= b < 256 ->
  wp decode_version_value (b :: rest) 0
    (becomes (py_dec (Z.shiftr (Z.land (b - 128) 112) 4) ++ str "." ++ py_dec (Z.land (b - 128) 15)) rest).
Proof.
  intros H. unfold decode_version_value. apply wp_becomes_catch.
  eapply wp_seq; [apply decode_short_integer_run; lia|]. wsteps. apply becomes_intro.
Qed.

Lemma version_octets_sweep :
  forallb (fun i => forallb (fun j =>
      let M := Z.of_nat i in let m := Z.of_nat j in
      leqb (py_dec (Z.shiftr (Z.land (16 * M + m) 112) 4) ++ str "." ++ py_dec (Z.land (16 * M + m) 15))
           (if m <? 10 then [48 + M; 46; 48 + m] else [48 + M; 46; 49; 38 + m]))
    (seq 0 16)) (seq 0 8) = true.
Proof. vm_compute. reflexivity. Qed.

Lemma version_octet M m : 0 <= M <= 7 -> 0 <= m <= 15 ->
  py_dec (Z.shiftr (Z.land (16 * M + m) 112) 4) ++ str "." ++ py_dec (Z.land (16 * M + m) 15) =
  if m <? 10 then [48 + M; 46; 48 + m] else [48 + M; 46; 49; 38 + m].
Proof.
  intros HM Hm. pose proof version_octets_sweep as H.
  rewrite forallb_forall in H. specialize (H (Z.to_nat M) ltac:(apply in_seq; lia)).
  rewrite forallb_forall in H. specialize (H (Z.to_nat m) ltac:(apply in_seq; lia)). cbv zeta in H.
  rewrite !Z2Nat.id in H by lia. apply leqb_eq in H. exact H.
Qed.

Lemma plain_number : forall d, digit d -> Number (d - 48) [d].
Proof.
  intros d H. replace (d - 48) with (1 * decimal [d]) by (unfold decimal; cbn [fold_left]; lia).
  apply (number [] 1 [] [] [d] []); try constructor; try discriminate; [reflexivity|exact H|constructor].
Qed.

Lemma plain_encoded s : plain_version s -> exists M m, 1 <= M <= 7 /\ 0 <= m <= 14 /\
  encode_version_value s = [128 + 16 * M + m] /\
  s = if m <? 10 then [48 + M; 46; 48 + m] else [48 + M; 46; 49; 38 + m].
Proof.
  intros (M & m & HM & [(Hm & ->)|(Hm & ->)]).
  - exists M, m. replace (m <? 10) with true by lia. repeat split; try lia.
    apply C47_exact. apply sent_both. exists [48 + M], [48 + m]. repeat split; try lia.
    + unfold dot_count. cbn [count_occ]. destruct (Z.eq_dec (48 + M) 46), (Z.eq_dec (48 + m) 46); cbn; lia.
    + replace M with (48 + M - 48) at 1 by lia. apply plain_number. unfold digit; lia.
    + replace m with (48 + m - 48) at 1 by lia. apply plain_number. unfold digit; lia.
  - exists M, (10 + m). replace (10 + m <? 10) with false by lia.
    replace (38 + (10 + m)) with (48 + m) by lia. repeat split; try lia.
    apply C47_exact. apply sent_both. exists [48 + M], [49; 48 + m]. repeat split; try lia.
    + unfold dot_count. cbn [count_occ]. destruct (Z.eq_dec (48 + M) 46), (Z.eq_dec (48 + m) 46); cbn; lia.
    + replace M with (48 + M - 48) at 1 by lia. apply plain_number. unfold digit; lia.
    + replace (10 + m) with (1 * decimal [49; 48 + m]) by (unfold decimal; cbn [fold_left]; lia).
      apply (number [] 1 [] [] [49; 48 + m] []); try constructor; try discriminate; try reflexivity;
        [unfold digit; lia|constructor; [unfold digit; lia|constructor]].
Qed.

Lemma version_back s : no_nul s ->
  (forall v' rest, wp decode_version_value (encode_version_value s) 0 (becomes v' rest) -> s = v') ->
  encode_version_value s <> [] ->
  plain_version s \/ (Other s /\ ~ starts_with (fun c => 127 <= c) s).
Proof.
  intros Hn D D0. destruct (version_sent s) as [M m s H|M s H|s H|s H].
  - left. destruct H as (a & b & _ & _ & _ & _ & HM & Hm).
    pose proof (D _ _ (version_octet_run (128 + 16 * M + m) [] ltac:(lia))) as E.
    replace (128 + 16 * M + m - 128) with (16 * M + m) in E by lia.
    rewrite version_octet in E by lia. exists M.
    destruct (m <? 10) eqn:L; [exists m|exists (m - 10)]; (split; [lia|]); [left|right]; (split; [lia|]).
    + exact E.
    + rewrite E. replace (38 + m) with (48 + (m - 10)) by lia. reflexivity.
  - exfalso. destruct H as (Hd & _ & HM).
    pose proof (D _ _ (version_octet_run (128 + 16 * M + 15) [] ltac:(lia))) as E.
    replace (128 + 16 * M + 15 - 128) with (16 * M + 15) in E by lia.
    rewrite version_octet in E by lia. change (15 <? 10) with false in E. cbv iota in E.
    rewrite E in Hd. unfold dot_count in Hd. cbn [count_occ] in Hd. destruct (Z.eq_dec (48 + M) 46); cbn in Hd; lia.
  - exfalso. apply D0. reflexivity.
  - right. split; [exact H|]. destruct s as [|c s]; [intros []|]. cbn [starts_with]. intros Hc.
    pose proof (Forall_inv Hn) as Hc'. cbn beta in Hc'.
    destruct (Z.eq_dec c 127) as [->|N].
    + assert (W : wp decode_version_value ((127 :: s) ++ [0]) 0 (becomes s [])).
      { unfold decode_version_value. apply wp_refused_catch.
        * cbn [app]. apply wp_bind.
          eapply wp_mono; [apply decode_short_integer_refuses; [reflexivity|lia]|].
          intros r l' p' (-> & -> & ->). repeat split.
        * unfold decode_text_string. cbn [app]. wsteps. change (127 =? 127) with true. cbv iota.
          destruct (s ++ [0]) as [|o os] eqn:E; [destruct s; discriminate|]. wsteps.
          assert (L : length (s ++ [0]) = length (o :: os)) by congruence.
          rewrite app_length in L. cbn in L.
          assert (T : forall fuel, (length s <= fuel)%nat -> wp (text_loop fuel o) os 0 (becomes s [])).
          { intros fuel Hf. pose proof (text_loop_run s fuel o os [] (Forall_inv_tail Hn) Hf E) as T.
            rewrite app_nil_r in T. exact T. }
          apply T. rewrite ?app_nil_r. lia. }
      pose proof (D _ _ W) as E.
      apply (f_equal (@length Z)) in E. cbn in E. lia.
    + pose proof (D _ _ (version_octet_run c (s ++ [0]) ltac:(lia))) as E.
      assert (X : c - 128 = 16 * ((c - 128) / 16) + (c - 128) mod 16) by (apply Z.div_mod; lia).
      pose proof (Z.mod_pos_bound (c - 128) 16 ltac:(lia)).
      assert (0 <= (c - 128) / 16 <= 7).
      { split; [apply Z.div_pos; lia|]. enough ((c - 128) / 16 < 8) by lia. apply Z.div_lt_upper_bound; lia. }
      rewrite X in E. rewrite version_octet in E by lia. apply (f_equal (hd 0)) in E.
      destruct ((c - 128) mod 16 <? 10); cbn [hd] in E; lia.
Qed.

(** A version is read back just when it is a major number from 1 to 7 and a minor
    number from 0 to 14 written plainly, or a string that is sent as text and does
    not start with an octet from 127 up. *)
Theorem C47_roundtrip_exact : forall s, no_nul s ->
  (Decodes decode_version_value (encode_version_value s) s <->
   plain_version s \/ (Other s /\ ~ starts_with (fun c => 127 <= c) s)).
Proof.
  intros s Hn. split.
  - intros D. apply version_back; [exact Hn| |].
    + intros v' rest W. exact (decodes_result _ _ _ _ _ D W).
    + intros X. rewrite X in D. destruct (D [] (new_iter []) eq_refl eq_refl) as (it & E & _). discriminate E.
  - intros [P|(O & Hc)].
    + destruct (plain_encoded s P) as (M & m & HM & Hm & -> & E). apply decodes_wp. intros rest. cbn [app].
      pose proof (version_octet_run (128 + 16 * M + m) rest ltac:(lia)) as W.
      replace (128 + 16 * M + m - 128) with (16 * M + m) in W by lia.
      rewrite version_octet, <- E in W by lia. exact W.
    + rewrite (proj2 (C47_exact s (s ++ [0])) (sent_text s O)). apply decodes_wp. intros rest.
      unfold decode_version_value. apply wp_refused_catch.
      * destruct (s ++ [0]) as [|o os] eqn:E; [destruct s; discriminate|]. cbn [app]. apply wp_bind.
        assert (0 <= o < 128).
        { destruct s as [|c s]; cbn [app starts_with] in *; apply (f_equal (hd 0)) in E; cbn [hd] in E;
            [lia|]. pose proof (Forall_inv Hn). cbn beta in *. lia. }
        eapply wp_mono; [apply decode_short_integer_refuses; [reflexivity|lia]|].
        intros r l' p' (-> & -> & ->). repeat split.
      * apply (decode_text_string_run s); [exact Hn|]. destruct s; cbn in *; lia.
Qed.
Print Assumptions C47_roundtrip_exact.
Example C47_roundtrip_case : plain_version (str "1.3") /\ plain_version (str "7.14") /\ Other (str "1.15") /\
  ~ Decodes decode_version_value (encode_version_value (str "01.3")) (str "01.3").
Proof.
  split; [exists 1, 3; split; [lia|]; left; split; [lia|reflexivity]|].
  split; [exists 7, 4; split; [lia|]; right; split; [lia|reflexivity]|].
  split.
  - pose proof (version_sent (str "1.15")) as H. vm_compute in H. inversion H as [| | |s O E]. exact O.
  - rewrite C47_roundtrip_exact by (repeat constructor; lia). intros [(M & m & _ & [(_ & E)|(_ & E)])|(O & _)].
    + apply (f_equal (nth 1)) in E. apply (f_equal (fun f => f 0)) in E. discriminate E.
    + apply (f_equal (nth 1)) in E. apply (f_equal (fun f => f 0)) in E. discriminate E.
    + destruct O as (_ & N & _). apply (N 1 3). exists (str "01"), (str "3").
      split; [reflexivity|]. split; [reflexivity|]. split; [apply int_number; reflexivity|].
      split; [apply int_number; reflexivity|]. lia.
Qed.
