(** Proofs about the iterator and the WSP encoders and decoders. *)
From Coq Require Import Lia ZifyBool ZifyNat.
From Verif Require Import Py Iter Tables WspDec WspEnc SpecWsp WspClaims
  PyFacts IterFacts.
Open Scope Z_scope.
Ltac Zify.zify_post_hook ::= Z.div_mod_to_equations.

(** * The iterator (C40) *)

Lemma wp_next_eq : forall it l p, R it l p ->
  exists it', next it = (match l with [] => Err StopIteration | b :: _ => Ok b end, it')
    /\ R it' (match l with [] => [] | _ :: r => r end) 0.
Proof.
  intros it l p HR.
  destruct (wp_next l p (fun r l' p' =>
     r = match l with [] => Err StopIteration | b :: _ => Ok b end /\
     l' = (match l with [] => [] | _ :: r => r end) /\ p' = 0%nat))
    with (it := it) as (r & it' & l' & p' & E & HR' & -> & -> & ->); auto.
  - destruct l; auto.
  - exists it'. auto.
Qed.

Lemma wp_preview_eq : forall it l p, R it l p ->
  exists it', preview it = (match nth_error l p with
                            | None => Err StopIteration | Some b => Ok b end, it')
    /\ R it' l (match nth_error l p with None => p | Some _ => S p end).
Proof.
  intros it l p HR.
  destruct (wp_preview l p (fun r l' p' =>
     r = match nth_error l p with None => Err StopIteration | Some b => Ok b end /\
     l' = l /\ p' = match nth_error l p with None => p | Some _ => S p end))
    with (it := it) as (r & it' & l' & p' & E & HR' & -> & -> & ->); auto.
  - destruct (nth_error l p); auto.
  - exists it'. auto.
Qed.

Lemma nth_error_skipn : forall (l : list Z) n i,
  nth_error (skipn n l) i = nth_error l (n + i).
Proof.
  induction l as [|x l IH]; intros n i.
  - rewrite skipn_nil. destruct i, n; reflexivity.
  - destruct n; [reflexivity|]. cbn. apply IH.
Qed.

Lemma skipn_cons_nth : forall (l : list Z) n,
  skipn n l = match nth_error l n with
              | Some b => b :: skipn (S n) l
              | None => []
              end.
Proof.
  induction l as [|x l IH]; intros n; destruct n; cbn; auto. apply IH.
Qed.

Lemma cursor_refines : forall data ks it c,
  (rd c <= ahead c)%nat -> R it (skipn (rd c) data) (ahead c - rd c) ->
  fst (do_calls ks it) = cursor_answers data ks c.
Proof.
  intros data ks. induction ks as [|k ks IH]; intros it c Hle HR; [reflexivity|].
  cbn [do_calls cursor_answers]. destruct k; cbn [do_call cursor_call].
  - destruct (wp_next_eq it _ _ HR) as (it' & E & HR').
    rewrite E. rewrite skipn_cons_nth in HR' |- *. unfold item_at.
    destruct (nth_error data (rd c)) as [b|] eqn:N.
    + specialize (IH it' (Cursor (S (rd c)) (S (rd c)))). cbn in IH.
      rewrite Nat.sub_diag in IH. specialize (IH (Nat.le_refl _) HR').
      destruct (do_calls ks it'). cbn in *. congruence.
    + specialize (IH it' (Cursor (rd c) (rd c))). cbn in IH.
      rewrite Nat.sub_diag in IH.
      assert (Es : skipn (rd c) data = []) by (rewrite skipn_cons_nth, N; reflexivity).
      rewrite Es in IH. specialize (IH (Nat.le_refl _) HR').
      destruct (do_calls ks it'). cbn in *. congruence.
  - destruct (wp_preview_eq it _ _ HR) as (it' & E & HR').
    rewrite E. rewrite nth_error_skipn in HR' |- *.
    replace (rd c + (ahead c - rd c))%nat with (ahead c) in * by lia.
    unfold item_at. destruct (nth_error data (ahead c)) as [b|].
    + specialize (IH it' (Cursor (rd c) (S (ahead c)))). cbn [rd ahead] in IH.
      replace (S (ahead c) - rd c)%nat with (S (ahead c - rd c)) in IH by lia.
      specialize (IH ltac:(lia) HR'). destruct (do_calls ks it'). cbn in *. congruence.
    + specialize (IH it' (Cursor (rd c) (ahead c))). cbn [rd ahead] in IH.
      specialize (IH ltac:(lia) HR'). destruct (do_calls ks it'). cbn in *. congruence.
  - specialize (IH (Piter (it_rest it) (it_cache it) 0) (Cursor (rd c) (rd c))).
    cbn [rd ahead] in IH. rewrite Nat.sub_diag in IH.
    destruct HR as (E & _ & _).
    assert (HR' : R (Piter (it_rest it) (it_cache it) 0) (skipn (rd c) data) 0).
    { unfold R. cbn. repeat split; auto. lia. }
    specialize (IH (Nat.le_refl _) HR').
    unfold reset_preview, st_upd. cbn.
    destruct (do_calls ks (Piter (it_rest it) (it_cache it) 0)). cbn in *. congruence.
Qed.

Lemma reachable_R : forall it, reachable it -> exists l p, R it l p.
Proof.
  intros it (data & ks & ->).
  assert (G : forall ks it, (exists l p, R it l p) ->
    exists l p, R (snd (do_calls ks it)) l p).
  { clear. induction ks as [|k ks IH]; intros it (l & p & HR); [eauto|].
    cbn [do_calls]. destruct (do_call k it) as [a it1] eqn:E.
    specialize (IH it1). destruct (do_calls ks it1) as [x it2]. cbn in *.
    apply IH. destruct k; cbn [do_call] in E.
    - destruct (wp_next_eq it _ _ HR) as (it' & E' & HR'). rewrite E' in E.
      assert (it' = it1) as <- by (destruct l; congruence). eauto.
    - destruct (wp_preview_eq it _ _ HR) as (it' & E' & HR'). rewrite E' in E.
      assert (it' = it1) as <- by (destruct (nth_error l p); congruence). eauto.
    - unfold reset_preview, st_upd in E. cbn in E. injection E as _ <-.
      destruct HR as (E & _ & _). exists l, 0%nat. unfold R. cbn.
      repeat split; auto. lia. }
  apply G. exists data, 0%nat. apply R_new.
Qed.

(** * Decoding exactly a prefix *)

Definition becomes {A} (v : A) (rest : list Z) : res A -> list Z -> nat -> Prop :=
  fun r l p => r = Ok v /\ l = rest /\ p = 0%nat.

Lemma becomes_intro : forall A (v : A) rest, becomes v rest (Ok v) rest 0.
Proof. repeat split. Qed.

Lemma decodes_wp : forall A (m : ST piter A) bytes v,
  (forall rest, wp m (bytes ++ rest) 0 (becomes v rest)) -> Decodes m bytes v.
Proof.
  intros A m bytes v H rest it El Ep.
  destruct (H rest it) as (r & it' & l' & p' & E & (E1 & E2 & _) & -> & -> & ->).
  - unfold R. unfold remaining in El. repeat split; auto. lia.
  - exists it'. unfold remaining. auto.
Qed.

Lemma wp_decodes : forall A (m : ST piter A) bytes v,
  Decodes m bytes v -> forall rest, wp m (bytes ++ rest) 0 (becomes v rest).
Proof.
  intros A m bytes v H rest it (E1 & E2 & E3).
  destruct (H rest it E1 E2) as (it' & E & El & Ep).
  exists (Ok v), it', rest, 0%nat. repeat split; auto. lia.
Qed.

(** Continue after a decoder with a known outcome. *)
Lemma wp_seq : forall A B (m : ST piter A) (k : A -> ST piter B) l p v rest
  (Q : res B -> list Z -> nat -> Prop),
  wp m l p (becomes v rest) -> wp (k v) rest 0 Q -> wp (st_bind m k) l p Q.
Proof.
  intros A B m k l p v rest Q H HQ. apply wp_bind.
  eapply wp_mono; [exact H|]. intros r l' p' (-> & -> & ->). exact HQ.
Qed.

Lemma wp_becomes_catch : forall A (m : ST piter A) e h l p v rest,
  wp m l p (becomes v rest) -> wp (st_catch m e h) l p (becomes v rest).
Proof.
  intros A m e h l p v rest H. apply wp_catch.
  eapply wp_mono; [exact H|]. intros r l' p' (-> & -> & ->). apply becomes_intro.
Qed.

(** The decoder fails with DecodeError without consuming anything. *)
Definition refuses {A} (l : list Z) : res A -> list Z -> nat -> Prop :=
  fun r l' p => r = Err DecodeError /\ l' = l /\ p = 0%nat.

Lemma wp_refused_catch : forall A (m : ST piter A) h l p (Q : res A -> list Z -> nat -> Prop),
  wp m l p (refuses l) -> wp h l 0 Q -> wp (st_catch m DecodeError h) l p Q.
Proof.
  intros A m h l p Q H HQ. apply wp_catch.
  eapply wp_mono; [exact H|]. intros r l' p' (-> & -> & ->). exact HQ.
Qed.

(** * Uintvars (C41) *)

Lemma lor_shift7 : forall a b, 0 <= b < 128 -> Z.lor (Z.shiftl a 7) b = a * 128 + b.
Proof.
  intros a b Hb. rewrite Z.shiftl_mul_pow2 by lia. change (2 ^ 7) with 128.
  assert (E : Z.land (a * 128) b = 0).
  { apply Z.bits_inj'. intros i Hi. rewrite Z.land_spec, Z.bits_0.
    change 128 with (2 ^ 7). rewrite <- Z.shiftl_mul_pow2 by lia.
    destruct (Z.ltb_spec i 7).
    - rewrite Z.shiftl_spec_low by lia. reflexivity.
    - replace (Z.testbit b i) with false; [apply Bool.andb_false_r|].
      symmetry. destruct (Z.eq_dec b 0) as [->|]; [apply Z.bits_0|].
      apply Z.bits_above_log2; [lia|]. apply Z.log2_lt_pow2; [lia|].
      apply Z.lt_le_trans with (2 ^ 7); [lia|]. apply Z.pow_le_mono_r; lia. }
  symmetry. rewrite Z.add_nocarry_lxor by exact E.
  apply Z.bits_inj'. intros i Hi. rewrite Z.lxor_spec, Z.lor_spec.
  assert (T := Z.land_spec (a * 128) b i). rewrite E, Z.bits_0 in T.
  destruct (Z.testbit (a * 128) i), (Z.testbit b i); auto.
Qed.

Lemma land_127 : forall a, Z.land a 127 = a mod 128.
Proof. intros a. change 127 with (Z.ones 7). apply Z.land_ones. lia. Qed.

Lemma shiftr_7 : forall a, Z.shiftr a 7 = a / 128.
Proof. intros a. rewrite Z.shiftr_div_pow2 by lia. reflexivity. Qed.

Lemma base128_snoc : forall ds d, base128 (ds ++ [d]) = base128 ds * 128 + d.
Proof. intros. unfold base128. rewrite fold_left_app. reflexivity. Qed.

Lemma uint_var_loop_run : forall ds d fuel acc o os rest,
  Forall digit128 ds -> digit128 d -> (length ds <= fuel)%nat ->
  uintvar_octets ds d = o :: os ->
  wp (uint_var_loop fuel acc o) (os ++ rest) 0
     (becomes (fold_left (fun n d => n * 128 + d) (ds ++ [d]) acc) rest).
Proof.
  induction ds as [|x ds IH]; intros d fuel acc o os rest Hds Hd Hf E.
  - cbn in E. injection E as <- <-. unfold digit128 in Hd.
    assert (E1 : Z.shiftr d 7 =? 1 = false) by (rewrite shiftr_7; lia).
    assert (E2 : Z.lor (Z.shiftl acc 7) (Z.land d 127) = acc * 128 + d).
    { rewrite land_127, lor_shift7 by lia. lia. }
    destruct fuel; cbn [uint_var_loop]; rewrite E1; cbn [app fold_left];
      wsteps; rewrite E2; apply becomes_intro.
  - destruct fuel as [|fuel]; [cbn in Hf; lia|].
    pose proof (Forall_inv Hds) as Hx. unfold digit128 in Hx.
    apply Forall_inv_tail in Hds.
    destruct (uintvar_octets ds d) as [|o1 os1] eqn:E1.
    { unfold uintvar_octets in E1. destruct ds; discriminate. }
    assert (o = 128 + x /\ os = o1 :: os1) as [-> ->].
    { unfold uintvar_octets in E, E1. cbn [map app] in E. rewrite E1 in E. split; congruence. }
    assert (Ea : Z.shiftr (128 + x) 7 =? 1 = true) by (rewrite shiftr_7; lia).
    assert (Eb : Z.lor (Z.shiftl acc 7) (Z.land (128 + x) 127) = acc * 128 + x).
    { rewrite land_127, lor_shift7 by lia. lia. }
    cbn [uint_var_loop]. rewrite Ea, Eb. wsteps. cbn [app].
    cbn in Hf. apply IH; auto. lia.
Qed.

Lemma length_uintvar : forall ds d, length (uintvar_octets ds d) = S (length ds).
Proof. intros. unfold uintvar_octets. rewrite app_length, map_length. cbn. lia. Qed.

Lemma decode_uint_var_run : forall ds d p rest,
  Forall digit128 ds -> digit128 d ->
  wp decode_uint_var (uintvar_octets ds d ++ rest) p
     (becomes (base128 (ds ++ [d])) rest).
Proof.
  intros ds d p rest Hds Hd. unfold decode_uint_var.
  pose proof (length_uintvar ds d) as Hl.
  destruct (uintvar_octets ds d) as [|o os] eqn:E.
  { discriminate. }
  wsteps. cbn [app]. wsteps.
  apply uint_var_loop_run with (ds := ds); auto.
  rewrite app_length. cbn in Hl. lia.
Qed.

Lemma uint_var_enc_spec : forall fuel n acc,
  0 <= n < 2 ^ Z.of_nat fuel ->
  exists ds, uint_var_enc fuel n acc = map (fun x => 128 + x) ds ++ acc /\
    Forall digit128 ds /\ minimal128 ds /\ base128 ds = n.
Proof.
  induction fuel as [|fuel IH]; intros n acc Hn.
  - cbn in Hn. exists []. cbn. repeat split; auto. unfold base128. cbn. lia.
  - cbn [uint_var_enc]. destruct (0 <? n) eqn:E.
    + assert (Hn' : 0 <= n / 128 < 2 ^ Z.of_nat fuel).
      { rewrite Nat2Z.inj_succ, Z.pow_succ_r in Hn by lia.
        pose proof (Z.pow_pos_nonneg 2 (Z.of_nat fuel)). lia. }
      rewrite shiftr_7, land_127.
      change 128 with (Z.shiftl 1 7) at 2.
      rewrite lor_shift7 by lia.
      destruct (IH (n / 128) (1 * 128 + n mod 128 :: acc) Hn')
        as (ds & E1 & Hds & Hm & Hb).
      exists (ds ++ [n mod 128]). rewrite E1, map_app, <- app_assoc. cbn [map app].
      split; [reflexivity|]. split.
      { apply Forall_app. split; auto. repeat constructor; lia. }
      split.
      { destruct ds as [|x ds]; cbn in *; auto. unfold base128 in Hb. cbn in Hb. lia. }
      rewrite base128_snoc, Hb. lia.
    + exists []. cbn. repeat split; auto. unfold base128. cbn. lia.
Qed.

Lemma encode_uint_var_spec : forall n, 0 <= n ->
  exists ds d, encode_uint_var n = uintvar_octets ds d /\
    Forall digit128 ds /\ digit128 d /\ minimal128 ds /\ base128 (ds ++ [d]) = n.
Proof.
  intros n Hn. unfold encode_uint_var. rewrite shiftr_7, land_127.
  destruct (uint_var_enc_spec (S (Z.to_nat (Z.log2 n))) (n / 128) [n mod 128])
    as (ds & E & Hds & Hm & Hb).
  { rewrite Nat2Z.inj_succ, Z2Nat.id by apply Z.log2_nonneg.
    destruct (Z.eq_dec n 0) as [->|]; [cbn; lia|].
    pose proof (Z.log2_spec n). lia. }
  exists ds, (n mod 128). unfold uintvar_octets. rewrite E.
  repeat split; auto; try lia.
  rewrite base128_snoc, Hb. lia.
Qed.

Lemma base128_nonneg : forall ds, Forall digit128 ds -> 0 <= base128 ds.
Proof.
  intros ds. induction ds as [|d ds IH] using rev_ind; intros H.
  - unfold base128. cbn. lia.
  - apply Forall_app in H as [H1 H2]. apply Forall_inv in H2. unfold digit128 in H2.
    rewrite base128_snoc. specialize (IH H1). lia.
Qed.

Lemma base128_pos : forall ds, Forall digit128 ds -> minimal128 ds -> ds <> [] ->
  0 < base128 ds.
Proof.
  intros ds. induction ds as [|d ds IH] using rev_ind; intros H Hm Hn; [congruence|].
  apply Forall_app in H as [H1 H2]. apply Forall_inv in H2. unfold digit128 in H2.
  rewrite base128_snoc. destruct ds as [|x ds].
  - cbn in *. unfold base128. cbn. lia.
  - specialize (IH H1 Hm ltac:(discriminate)). lia.
Qed.

Lemma base128_unique : forall ds ds',
  Forall digit128 ds -> Forall digit128 ds' -> minimal128 ds -> minimal128 ds' ->
  base128 ds = base128 ds' -> ds = ds'.
Proof.
  intros ds. induction ds as [|d ds IH] using rev_ind; intros ds' H H' Hm Hm' E.
  - destruct ds' as [|x ds']; auto.
    pose proof (base128_pos _ H' Hm' ltac:(discriminate)). change (base128 []) with 0 in E. lia.
  - destruct ds' as [|d' ds' _] using rev_ind.
    { pose proof (base128_pos _ H Hm ltac:(destruct ds; discriminate)).
      change (base128 []) with 0 in E. lia. }
    apply Forall_app in H as [H1 H2]. apply Forall_inv in H2. unfold digit128 in H2.
    apply Forall_app in H' as [H1' H2']. apply Forall_inv in H2'. unfold digit128 in H2'.
    rewrite !base128_snoc in E.
    assert (d = d' /\ base128 ds = base128 ds') as [-> E'] by lia.
    rewrite (IH ds'); auto.
    + destruct ds; cbn in *; auto.
    + destruct ds'; cbn in *; auto.
Qed.

Lemma uintvar_unique : forall ds d ds' d',
  Forall digit128 ds -> digit128 d -> minimal128 ds ->
  Forall digit128 ds' -> digit128 d' -> minimal128 ds' ->
  base128 (ds ++ [d]) = base128 (ds' ++ [d']) -> ds = ds' /\ d = d'.
Proof.
  intros ds d ds' d' H Hd Hm H' Hd' Hm' E. unfold digit128 in *.
  rewrite !base128_snoc in E.
  assert (d = d' /\ base128 ds = base128 ds') as [-> E'] by lia.
  split; auto. apply base128_unique; auto.
Qed.

Lemma uint_var_run : forall n p rest, 0 <= n ->
  wp decode_uint_var (encode_uint_var n ++ rest) p (becomes n rest).
Proof.
  intros n p rest Hn.
  destruct (encode_uint_var_spec n Hn) as (ds & d & -> & Hds & Hd & _ & Hb).
  rewrite <- Hb. apply decode_uint_var_run; auto.
Qed.

(** * Short integers and lengths (C42) *)

Lemma lor_128 : forall n, 0 <= n < 128 -> Z.lor n 128 = 128 + n.
Proof.
  intros n Hn. rewrite Z.lor_comm. change 128 with (Z.shiftl 1 7) at 1.
  rewrite lor_shift7 by lia. lia.
Qed.

Lemma land_128 : forall b, 0 <= b < 256 -> Z.land b 128 =? 0 = (b <? 128).
Proof.
  intros b Hb.
  assert (H := octet_sweep (fun b => Bool.eqb (Z.land b 128 =? 0) (b <? 128))).
  apply Bool.eqb_prop. apply H; [vm_compute; reflexivity|]. unfold is_octet. lia.
Qed.

Lemma decode_short_integer_run : forall b rest, 128 <= b < 256 ->
  wp decode_short_integer (b :: rest) 0 (becomes (b - 128) rest).
Proof.
  intros b rest Hb. unfold decode_short_integer. wsteps.
  rewrite land_128 by lia. replace (b <? 128) with false by lia. wsteps.
  rewrite land_127. repeat split. f_equal. lia.
Qed.

Lemma decode_short_integer_refuses : forall b rest p,
  nth_error (b :: rest) p = Some b -> 0 <= b < 128 ->
  wp decode_short_integer (b :: rest) p (refuses (b :: rest)).
Proof.
  intros b rest p Hp Hb. unfold decode_short_integer. wsteps. rewrite Hp.
  rewrite land_128 by lia. replace (b <? 128) with true by lia. wsteps.
  repeat split.
Qed.

Lemma encode_short_integer_ok : forall n, 0 <= n < 128 ->
  encode_short_integer n = Ok [128 + n].
Proof.
  intros n Hn. unfold encode_short_integer.
  replace ((n <? 0) || (127 <? n)) with false by lia. rewrite lor_128 by lia.
  reflexivity.
Qed.

Lemma decode_short_length_run : forall n rest, n <= 30 ->
  wp decode_short_length (n :: rest) 0 (becomes n rest).
Proof.
  intros n rest Hn. unfold decode_short_length. wsteps.
  replace (30 <? n) with false by lia. wsteps. apply becomes_intro.
Qed.

Lemma decode_short_length_refuses : forall n rest, 30 < n ->
  wp decode_short_length (n :: rest) 0 (refuses (n :: rest)).
Proof.
  intros n rest Hn. unfold decode_short_length. wsteps.
  replace (30 <? n) with true by lia. wsteps. repeat split.
Qed.

Lemma value_length_run : forall n rest, 0 <= n ->
  wp decode_value_length (encode_value_length n ++ rest) 0 (becomes n rest).
Proof.
  intros n rest Hn. unfold decode_value_length, encode_value_length, encode_short_length.
  destruct ((n <? 0) || (30 <? n)) eqn:E.
  - cbn [app]. apply wp_refused_catch.
    + apply decode_short_length_refuses. lia.
    + wsteps. cbn [Z.eqb Pos.eqb]. wsteps. apply uint_var_run. assumption.
  - cbn [app]. apply wp_becomes_catch. apply decode_short_length_run. lia.
Qed.

Lemma decode_value_length_refuses : forall b rest, 31 < b ->
  wp decode_value_length (b :: rest) 0 (refuses (b :: rest)).
Proof.
  intros b rest Hb. unfold decode_value_length. apply wp_refused_catch.
  - apply decode_short_length_refuses. lia.
  - wsteps. replace (b =? 31) with false by lia. wsteps. repeat split.
Qed.

(** * Reading a number of octets *)

Lemma read_loop_run : forall l fuel rest, (length l <= fuel)%nat ->
  wp (read_loop fuel (zlen l)) (l ++ rest) 0 (becomes l rest).
Proof.
  induction l as [|b l IH]; intros fuel rest Hf.
  - destruct fuel; cbn; wsteps; apply becomes_intro.
  - destruct fuel as [|fuel]; [cbn in Hf; lia|]. cbn [read_loop].
    rewrite zlen_cons. pose proof (zlen_nonneg l).
    replace (0 <? 1 + zlen l) with true by lia. cbn [app]. wsteps.
    replace (1 + zlen l - 1) with (zlen l) by lia.
    eapply wp_mono; [apply IH; cbn in Hf; lia|].
    intros r l' p' (-> & -> & ->). wsteps. apply becomes_intro.
Qed.

Lemma read_n_run : forall l rest, zlen l <= maxint ->
  wp (read_n (zlen l)) (l ++ rest) 0 (becomes l rest).
Proof.
  intros l rest Hl. unfold read_n, xrange_check.
  replace (maxint <? zlen l) with false by lia. wsteps.
  apply read_loop_run. rewrite app_length. lia.
Qed.

(** * Long integers (C44) *)

Lemma long_of_big_endian : forall l, Forall is_octet l -> long_of l = big_endian l.
Proof.
  intros l Hl. unfold long_of, big_endian.
  assert (G : forall l acc, 0 <= acc -> Forall is_octet l ->
    fold_left (fun acc b => Z.lor (Z.shiftl acc 8) b) l acc =
    fold_left (fun n b => n * 256 + b) l acc).
  { clear. induction l as [|b l IH]; intros acc Ha Hl; [reflexivity|].
    cbn [fold_left]. pose proof (Forall_inv Hl) as Hb. apply Forall_inv_tail in Hl.
    unfold is_octet in Hb. rewrite lor_shift8 by lia. apply IH; [lia|auto]. }
  apply G; auto. lia.
Qed.

Lemma decode_long_integer_run : forall l rest, Forall is_octet l -> zlen l <= 30 ->
  wp decode_long_integer (zlen l :: l ++ rest) 0 (becomes (big_endian l) rest).
Proof.
  intros l rest Hl Hn. unfold decode_long_integer.
  eapply wp_seq; [apply decode_short_length_run; lia|].
  eapply wp_seq; [apply read_n_run; unfold maxint; lia|].
  wsteps. rewrite long_of_big_endian by assumption. apply becomes_intro.
Qed.

Lemma big_endian_snoc : forall ds d, big_endian (ds ++ [d]) = big_endian ds * 256 + d.
Proof. intros. unfold big_endian. rewrite fold_left_app. reflexivity. Qed.

Lemma big_endian_nonneg : forall ds, Forall is_octet ds -> 0 <= big_endian ds.
Proof.
  intros ds. induction ds as [|d ds IH] using rev_ind; intros H.
  - change (big_endian []) with 0. lia.
  - apply Forall_app in H as [H1 H2]. apply Forall_inv in H2. unfold is_octet in H2.
    rewrite big_endian_snoc. specialize (IH H1). lia.
Qed.

Lemma big_endian_pos : forall ds, Forall is_octet ds -> minimal128 ds -> ds <> [] ->
  0 < big_endian ds.
Proof.
  intros ds. induction ds as [|d ds IH] using rev_ind; intros H Hm Hn; [congruence|].
  apply Forall_app in H as [H1 H2]. apply Forall_inv in H2. unfold is_octet in H2.
  rewrite big_endian_snoc. destruct ds as [|x ds].
  - cbn in Hm. change (big_endian []) with 0. lia.
  - specialize (IH H1 Hm ltac:(discriminate)). lia.
Qed.

Lemma long_enc_spec : forall ds fuel,
  Forall is_octet ds -> minimal128 ds -> big_endian ds < 2 ^ Z.of_nat fuel ->
  long_enc fuel (big_endian ds) = rev ds.
Proof.
  intros ds. induction ds as [|d ds IH] using rev_ind; intros fuel H Hm Hf.
  - change (big_endian []) with 0. destruct fuel; reflexivity.
  - pose proof (big_endian_pos _ H Hm ltac:(destruct ds; discriminate)) as Hp.
    apply Forall_app in H as [H1 H2]. apply Forall_inv in H2. unfold is_octet in H2.
    rewrite rev_app_distr. cbn [rev app].
    destruct fuel as [|fuel]; [cbn in Hf; lia|]. cbn [long_enc].
    replace (0 <? big_endian (ds ++ [d])) with true by lia.
    rewrite Z.land_comm, land_255, shiftr_8, big_endian_snoc.
    pose proof (big_endian_nonneg _ H1).
    replace ((big_endian ds * 256 + d) mod 256) with d by lia.
    replace ((big_endian ds * 256 + d) / 256) with (big_endian ds) by lia.
    rewrite IH; auto.
    + destruct ds; cbn in *; auto.
    + rewrite big_endian_snoc in Hf. rewrite Nat2Z.inj_succ, Z.pow_succ_r in Hf by lia.
      lia.
Qed.

Lemma log2_fuel : forall n, 0 <= n -> n < 2 ^ Z.of_nat (S (Z.to_nat (Z.log2 n))).
Proof.
  intros n Hn. rewrite Nat2Z.inj_succ, Z2Nat.id by apply Z.log2_nonneg.
  destruct (Z.eq_dec n 0) as [->|]; [cbn; lia|]. pose proof (Z.log2_spec n). lia.
Qed.

Lemma big_endian_bound : forall ds, Forall is_octet ds ->
  big_endian ds < 256 ^ zlen ds.
Proof.
  intros ds. induction ds as [|d ds IH] using rev_ind; intros H.
  - reflexivity.
  - apply Forall_app in H as [H1 H2]. apply Forall_inv in H2. unfold is_octet in H2.
    rewrite big_endian_snoc, zlen_app. change (zlen [d]) with 1.
    pose proof (zlen_nonneg ds).
    rewrite Z.pow_add_r by lia. specialize (IH H1). change (256 ^ 1) with 256. lia.
Qed.

Lemma encode_long_integer_spec : forall ds,
  Forall is_octet ds -> minimal128 ds -> zlen ds <= 30 -> big_endian ds <= maxint ->
  encode_long_integer (big_endian ds) = Ok (zlen ds :: rev ds).
Proof.
  intros ds H Hm Hl Hmax. unfold encode_long_integer.
  pose proof (big_endian_nonneg ds H) as H0.
  assert (E : is_int (big_endian ds) = true) by (unfold is_int, maxint in *; lia).
  rewrite E. cbn [negb]. rewrite long_enc_spec; auto using log2_fuel.
  assert (El : zlen (rev ds) = zlen ds) by (unfold zlen; rewrite rev_length; reflexivity).
  rewrite El. replace (30 <? zlen ds) with false by lia. reflexivity.
Qed.

(** * Text strings (C45) and tokens (C46) *)

Lemma text_loop_run : forall s fuel o os rest,
  no_nul s -> (length s <= fuel)%nat -> s ++ [0] = o :: os ->
  wp (text_loop fuel o) (os ++ rest) 0 (becomes s rest).
Proof.
  induction s as [|c s IH]; intros fuel o os rest Hs Hf E.
  - cbn in E. injection E as <- <-. destruct fuel; cbn; wsteps; apply becomes_intro.
  - cbn [app] in E. injection E as <- <-.
    pose proof (Forall_inv Hs) as Hc. apply Forall_inv_tail in Hs. cbn in Hc.
    destruct fuel as [|fuel]; [cbn in Hf; lia|]. cbn [text_loop].
    replace (c =? 0) with false by lia.
    destruct (s ++ [0]) as [|o1 os1] eqn:E1; [destruct s; discriminate|].
    cbn [app]. wsteps.
    eapply wp_mono; [apply IH; eauto; cbn in Hf; lia|].
    intros r l' p' (-> & -> & ->). wsteps. apply becomes_intro.
Qed.

Lemma decode_text_string_run : forall s p rest,
  no_nul s -> ~ starts_with (fun c => c = 127) s ->
  wp decode_text_string (encode_text_string s ++ rest) p (becomes s rest).
Proof.
  intros s p rest Hs H127. unfold decode_text_string, encode_text_string.
  destruct (s ++ [0]) as [|o os] eqn:E; [destruct s; discriminate|].
  cbn [app]. wsteps.
  assert (Eo : o =? 127 = false).
  { destruct s as [|c s]; cbn in E, H127.
    - injection E as <- _. reflexivity.
    - injection E as <- _. lia. }
  rewrite Eo. wsteps. apply text_loop_run with (s := s); auto.
  assert (L : length (s ++ [0]) = length (o :: os)) by congruence.
  rewrite app_length in L. cbn in L. rewrite app_length. lia.
Qed.

Lemma is_separator_iff : forall c, is_separator c = true <-> In c separator_chars.
Proof.
  intros c. unfold is_separator. rewrite existsb_exists. unfold separators, separator_chars.
  split.
  - intros (x & Hx & E). apply Z.eqb_eq in E. subst. exact Hx.
  - intros H. exists c. split; [exact H|apply Z.eqb_refl].
Qed.

Lemma token_char_iff : forall c, token_char c = true <-> 31 < c /\ ~ In c separator_chars.
Proof.
  intros c. unfold token_char. pose proof (is_separator_iff c) as H.
  rewrite Bool.negb_true_iff, Bool.orb_false_iff, Z.leb_gt, <- H.
  rewrite Bool.not_true_iff_false. tauto.
Qed.

Lemma token_loop_run : forall s fuel o os rest,
  Forall (fun c => token_char c = true) s -> (length s <= fuel)%nat ->
  s ++ [0] = o :: os ->
  wp (token_loop fuel o) (os ++ rest) 0 (becomes s rest).
Proof.
  induction s as [|c s IH]; intros fuel o os rest Hs Hf E.
  - cbn in E. injection E as <- <-. destruct fuel; cbn; wsteps; apply becomes_intro.
  - cbn [app] in E. injection E as <- <-.
    pose proof (Forall_inv Hs) as Hc. apply Forall_inv_tail in Hs. cbn in Hc.
    destruct fuel as [|fuel]; [cbn in Hf; lia|]. cbn [token_loop]. rewrite Hc.
    destruct (s ++ [0]) as [|o1 os1] eqn:E1; [destruct s; discriminate|].
    cbn [app]. wsteps.
    eapply wp_mono; [apply IH; eauto; cbn in Hf; lia|].
    intros r l' p' (-> & -> & ->). wsteps. apply becomes_intro.
Qed.

Lemma token_string_chars : forall s, token_string s ->
  s <> [] /\ Forall (fun c => token_char c = true) s.
Proof.
  intros s [H1 H2]. split; auto. eapply Forall_impl; [|exact H2].
  cbn. intros c [Hc Hn]. apply token_char_iff. split; [lia|auto].
Qed.

Lemma decode_token_text_run : forall s rest,
  s <> [] -> Forall (fun c => token_char c = true) s ->
  wp decode_token_text (encode_text_string s ++ rest) 0 (becomes s rest).
Proof.
  intros s rest Hn Hs. unfold decode_token_text, encode_text_string.
  destruct s as [|c s]; [congruence|]. cbn [app]. wsteps.
  pose proof (Forall_inv Hs) as Hc. cbn in Hc. rewrite Hc. cbn [negb]. wsteps.
  apply token_loop_run with (s := c :: s); auto.
  rewrite app_length, app_length. cbn. lia.
Qed.

Lemma encode_token_text_spec : forall s,
  encode_token_text s = if existsb is_separator s then Err EncodeError
                        else Ok (s ++ [0]).
Proof. reflexivity. Qed.

Lemma token_no_separator : forall s, Forall (fun c => token_char c = true) s ->
  existsb is_separator s = false.
Proof.
  intros s H. apply Bool.not_true_iff_false. rewrite existsb_exists.
  intros (c & Hc & E). rewrite Forall_forall in H. specialize (H c Hc).
  unfold token_char in H. rewrite E in H. rewrite Bool.orb_true_r in H. discriminate.
Qed.

(** * Versions (C47) *)

Lemma version_sweep :
  forallb (fun i => forallb (fun j =>
      let M := Z.of_nat i + 1 in let m := Z.of_nat j in
      leqb (encode_version_value (py_dec M ++ str "." ++ py_dec m)) [128 + M * 16 + m]
      && (Z.shiftr (Z.land (M * 16 + m) 112) 4 =? M)
      && (Z.land (M * 16 + m) 15 =? m))
    (seq 0 15)) (seq 0 7) = true.
Proof. vm_compute. reflexivity. Qed.

Lemma version_case : forall M m, 1 <= M <= 7 -> 0 <= m <= 14 ->
  encode_version_value (py_dec M ++ str "." ++ py_dec m) = [128 + M * 16 + m] /\
  Z.shiftr (Z.land (M * 16 + m) 112) 4 = M /\ Z.land (M * 16 + m) 15 = m.
Proof.
  intros M m HM Hm. pose proof version_sweep as H.
  rewrite forallb_forall in H.
  specialize (H (Z.to_nat (M - 1)) ltac:(apply in_seq; lia)).
  rewrite forallb_forall in H.
  specialize (H (Z.to_nat m) ltac:(apply in_seq; lia)). cbv zeta in H.
  rewrite !Z2Nat.id in H by lia. replace (M - 1 + 1) with M in H by lia.
  apply andb_prop in H as [H H3]. apply andb_prop in H as [H1 H2].
  apply leqb_eq in H1. apply Z.eqb_eq in H2, H3. auto.
Qed.

Lemma version_run : forall M m rest, 1 <= M <= 7 -> 0 <= m <= 14 ->
  wp decode_version_value
     (encode_version_value (py_dec M ++ str "." ++ py_dec m) ++ rest) 0
     (becomes (py_dec M ++ str "." ++ py_dec m) rest).
Proof.
  intros M m rest HM Hm. destruct (version_case M m HM Hm) as (-> & E2 & E3).
  unfold decode_version_value. cbn [app]. apply wp_becomes_catch.
  eapply wp_seq; [apply decode_short_integer_run; lia|].
  replace (128 + M * 16 + m - 128) with (M * 16 + m) by lia.
  rewrite E2, E3. wsteps. apply becomes_intro.
Qed.

Lemma version_text_run : forall s rest,
  encode_version_value s = encode_text_string s ->
  no_nul s -> starts_with (fun c => c < 127) s ->
  wp decode_version_value (encode_version_value s ++ rest) 0 (becomes s rest).
Proof.
  intros s rest E Hs H. rewrite E. unfold decode_version_value.
  destruct s as [|c s]; cbn in H; [contradiction|].
  pose proof (Forall_inv Hs) as Hc. cbn in Hc.
  apply wp_refused_catch.
  - unfold encode_text_string. cbn [app]. apply wp_bind.
    eapply wp_mono; [apply decode_short_integer_refuses; [reflexivity|lia]|].
    intros r l' p' (-> & -> & ->). repeat split.
  - apply decode_text_string_run; auto. cbn. lia.
Qed.

(** * Content types without parameters (C48) *)

Lemma index_of_nth : forall s l i, index_of s l = Some i ->
  0 <= i < zlen l /\ nth (Z.to_nat i) l [] = s.
Proof.
  intros s l. induction l as [|x l IH]; intros i H; [discriminate|].
  cbn [index_of] in H. rewrite zlen_cons. pose proof (zlen_nonneg l).
  destruct (leqb s x) eqn:E.
  - injection H as <-. apply leqb_eq in E. subst. split; [lia|reflexivity].
  - destruct (index_of s l) as [j|] eqn:Ej; [|discriminate]. injection H as <-.
    destruct (IH j eq_refl) as [Hj En]. split; [lia|].
    replace (Z.to_nat (j + 1)) with (S (Z.to_nat j)) by lia. exact En.
Qed.

Lemma index_of_In : forall s l, In s l -> exists i, index_of s l = Some i.
Proof.
  intros s l. induction l as [|x l IH]; intros H; [destruct H|].
  cbn [index_of]. destruct (leqb s x) eqn:E; [eauto|].
  destruct H as [->|H]; [rewrite leqb_refl in E; discriminate|].
  destruct (IH H) as [i ->]. eauto.
Qed.

Lemma content_types_few : zlen well_known_content_types <= 127.
Proof. vm_compute. discriminate. Qed.

Lemma constrained_media_run : forall media, plain_media media ->
  exists bytes, encode_constrained_media media = Ok bytes /\ Forall is_octet bytes /\
    forall rest, wp decode_constrained_media (bytes ++ rest) 0 (becomes media rest).
Proof.
  intros media H. unfold encode_constrained_media.
  destruct (index_of media well_known_content_types) as [i|] eqn:E.
  - destruct (index_of_nth _ _ _ E) as [Hi En]. pose proof content_types_few as Hf.
    unfold encode_constrained_encoding.
    replace (is_int i) with true by (unfold is_int, maxint; lia).
    rewrite encode_short_integer_ok by lia.
    exists [128 + i]. split; [reflexivity|].
    split; [repeat constructor; unfold is_octet; lia|].
    intros rest. unfold decode_constrained_media, decode_constrained_encoding.
    eapply wp_seq.
    + apply wp_becomes_catch. cbn [app].
      eapply wp_seq; [apply decode_short_integer_run; lia|].
      wsteps. apply becomes_intro.
    + cbv beta iota. unfold content_type_at.
      replace (128 + i - 128) with i by lia.
      replace (i <? zlen well_known_content_types) with true by lia.
      wsteps. rewrite En. apply becomes_intro.
  - destruct H as [H|[Hn Hs]].
    { destruct (index_of_In _ _ H) as [i Ei]. congruence. }
    destruct media as [|c s]; cbn in Hs; [contradiction|].
    unfold encode_constrained_encoding, encode_extension_media.
    replace ((c <? 32) || (c =? 127)) with false by lia.
    exists (encode_text_string (c :: s)). split; [reflexivity|].
    split.
    { unfold encode_text_string. apply Forall_app. split.
      - eapply Forall_impl; [|exact Hn]. cbn. unfold is_octet. lia.
      - repeat constructor; unfold is_octet; lia. }
    intros rest. unfold decode_constrained_media, decode_constrained_encoding.
    assert (G : wp decode_extension_media (encode_text_string (c :: s) ++ rest) 0
                  (becomes (c :: s) rest)).
    { unfold decode_extension_media, encode_text_string. cbn [app]. wsteps.
      replace ((c <? 32) || (c =? 127)) with false by lia. wsteps.
      apply text_loop_run with (s := c :: s); auto.
      rewrite app_length, app_length. cbn. lia. }
    eapply wp_seq.
    + apply wp_refused_catch.
      * unfold encode_text_string. cbn [app]. apply wp_bind.
        eapply wp_mono; [apply decode_short_integer_refuses; [reflexivity|lia]|].
        intros r l' p' (-> & -> & ->). repeat split.
      * eapply wp_seq; [exact G|]. wsteps. apply becomes_intro.
    + cbv beta iota. wsteps. apply becomes_intro.
Qed.

Lemma array_of_ints : forall l, Forall is_octet l -> array_of (ints l) = Ok l.
Proof.
  intros l H. induction H as [|b l Hb _ IH]; [reflexivity|].
  unfold array_of, ints in *. cbn [map mapM array_item]. unfold is_octet in Hb.
  replace ((0 <=? b) && (b <? 256)) with true by lia. cbn. rewrite IH. reflexivity.
Qed.

Lemma content_type_value_run : forall media, plain_media media ->
  exists l bytes, encode_content_type_value media [] = Ok l /\
    l = ints bytes /\ Forall is_octet bytes /\
    forall rest, wp decode_content_type_value (bytes ++ rest) 0
                    (becomes (media, []) rest).
Proof.
  intros media H. destruct (constrained_media_run media H) as (bytes & E & Ho & Hr).
  exists (ints bytes), bytes. unfold encode_content_type_value. rewrite E. cbn.
  repeat split; auto. intros rest. unfold decode_content_type_value.
  apply wp_becomes_catch. eapply wp_seq; [apply Hr|]. wsteps. apply becomes_intro.
Qed.

(** A string that does not start like a number is no number. *)
Lemma py_int_not_numeric : forall s,
  s = [] \/ starts_with not_numeric_start s -> py_int 10 s = Err ValueError.
Proof.
  intros s [->|H]; [reflexivity|]. destruct s as [|c s]; cbn in H; [contradiction|].
  destruct H as (H1 & H2 & H3 & H4). unfold py_int.
  assert (Es : is_space c = false) by (unfold is_space; lia).
  cbn [drop_space]. rewrite Es. replace (c =? 43) with false by lia.
  replace (c =? 45) with false by lia. cbn [drop_space]. rewrite Es.
  assert (Ed : starts_digit 10 (c :: s) = false).
  { cbn [starts_digit]. unfold digit_val.
    replace ((48 <=? c) && (c <=? 57)) with false by lia.
    destruct ((97 <=? c) && (c <=? 122)) eqn:E1; [lia|].
    destruct ((65 <=? c) && (c <=? 90)) eqn:E2; [lia|reflexivity]. }
  assert (Em : (match s with
                | [] => c :: s
                | x :: r => if (10 =? 16) && (c =? 48) && ((x =? 120) || (x =? 88))
                               && starts_digit 10 r then r else c :: s
                end) = c :: s) by (destruct s; reflexivity).
  rewrite Em, Ed. reflexivity.
Qed.

Definition dots (s : list Z) : nat := length (filter (Z.eqb 46) s).

Lemma split_dot_length : forall s, length (split_dot s) = S (dots s).
Proof.
  induction s as [|c s IH]; [reflexivity|]. cbn [split_dot]. unfold dots in *.
  cbn [filter]. rewrite (Z.eqb_sym 46 c). destruct (c =? 46).
  - cbn. rewrite IH. reflexivity.
  - destruct (split_dot s); cbn in *; lia.
Qed.

Lemma split_dot_head : forall s, starts_with not_numeric_start s ->
  exists a r, split_dot s = a :: r /\ (a = [] \/ starts_with not_numeric_start a).
Proof.
  intros [|c s] H; cbn in H; [contradiction|]. cbn [split_dot].
  destruct (c =? 46); [eauto|]. destruct (split_dot s) as [|p ps].
  - exists [c], []. cbn. auto.
  - exists (c :: p), ps. cbn. auto.
Qed.

Lemma version_text : forall s, starts_with not_numeric_start s -> (dots s <= 1)%nat ->
  encode_version_value s = s ++ [0].
Proof.
  intros s H Hd. unfold encode_version_value, version_short.
  destruct (split_dot_head s H) as (a & r & E & Ha).
  pose proof (split_dot_length s) as L. rewrite E in *. cbn in L.
  destruct r as [|b [|? ?]]; [| |cbn in L; lia];
    rewrite (py_int_not_numeric a Ha); reflexivity.
Qed.

Lemma small_float : forall n, n < 1000 -> beyond_float n = false.
Proof.
  intros n H. unfold beyond_float. apply Z.leb_gt.
  assert (X : 1000 <? 2 ^ 1024 - 2 ^ 970 = true) by (vm_compute; reflexivity).
  apply Z.ltb_lt in X. lia.
Qed.
