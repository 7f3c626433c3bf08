(** Proofs about septet packing and unpacking. *)
From Coq Require Import Lia ZifyBool ZifyNat.
From Verif Require Import Py PyFacts SpecPack Utils.
Open Scope Z_scope.
Ltac Zify.zify_post_hook ::= Z.div_mod_to_equations.

(** Evaluate powers of two with constant exponents. *)
Ltac pow2 := repeat
  match goal with
  | |- context [2 ^ ?e] => let v := eval vm_compute in (2 ^ e) in
                           is_const_Z v; change (2 ^ e) with v
  | H : context [2 ^ ?e] |- _ => let v := eval vm_compute in (2 ^ e) in
                                 is_const_Z v; change (2 ^ e) with v in H
  end
with is_const_Z v := match v with Z0 => idtac | Zpos _ => idtac end.

(** * Little-endian values *)

Lemma le_value_app b l1 l2 : 0 < b ->
  le_value b (l1 ++ l2) = le_value b l1 + b ^ zlen l1 * le_value b l2.
Proof.
  intros Hb. induction l1 as [|d l1 IH]; cbn [le_value app].
  - change (zlen (@nil Z)) with 0. rewrite Z.pow_0_r. lia.
  - rewrite IH, zlen_cons, Z.pow_add_r by (try lia; apply zlen_nonneg).
    rewrite Z.pow_1_r. ring.
Qed.

Lemma le_value_bound b l : 0 < b -> Forall (fun d => 0 <= d < b) l ->
  0 <= le_value b l < b ^ zlen l.
Proof.
  intros Hb. induction 1 as [|d l Hd _ IH]; cbn [le_value].
  - change (zlen (@nil Z)) with 0. rewrite Z.pow_0_r. lia.
  - rewrite zlen_cons, Z.pow_add_r by (try lia; apply zlen_nonneg).
    rewrite Z.pow_1_r. nia.
Qed.

Lemma le_value_prefix b s r Q R : 0 < b ->
  Forall (fun d => 0 <= d < b) s -> Forall (fun d => 0 <= d < b) r ->
  (length s <= length r)%nat ->
  le_value b s + b ^ zlen s * Q = le_value b r + b ^ zlen r * R ->
  firstn (length s) r = s.
Proof.
  intros Hb Hs. revert r. induction Hs as [|d s Hd _ IH]; intros r Hr Hl E.
  - reflexivity.
  - destruct Hr as [|e r He Hr]; cbn [length] in Hl; [lia|].
    cbn [le_value] in E. rewrite !zlen_cons in E.
    rewrite !Z.pow_add_r in E by (try lia; apply zlen_nonneg).
    rewrite !Z.pow_1_r in E.
    assert (d = e) as <-.
    { assert (d = (d + b * le_value b s + b * b ^ zlen s * Q) mod b) as ->.
      { replace (d + b * le_value b s + b * b ^ zlen s * Q)
          with (d + (le_value b s + b ^ zlen s * Q) * b) by ring.
        rewrite Z.mod_add, Z.mod_small by lia. reflexivity. }
      rewrite E.
      replace (e + b * le_value b r + b * b ^ zlen r * R)
        with (e + (le_value b r + b ^ zlen r * R) * b) by ring.
      rewrite Z.mod_add, Z.mod_small by lia. reflexivity. }
    cbn [length firstn]. f_equal. apply IH; [assumption|lia|].
    assert (b * (le_value b s + b ^ zlen s * Q) = b * (le_value b r + b ^ zlen r * R))
      as E2 by nia.
    apply Z.mul_reg_l in E2; lia.
Qed.

Lemma le_value_inj b s r : 0 < b ->
  Forall (fun d => 0 <= d < b) s -> Forall (fun d => 0 <= d < b) r ->
  length s = length r -> le_value b s = le_value b r -> s = r.
Proof.
  intros Hb Hs Hr Hl E.
  rewrite <- (le_value_prefix b s r 0 0); try assumption; [|lia|lia].
  rewrite Hl. now rewrite firstn_all.
Qed.

Lemma le_value_skipn b l (k : nat) : 0 < b -> Forall (fun d => 0 <= d < b) l ->
  le_value b l / b ^ Z.of_nat k = le_value b (skipn k l).
Proof.
  intros Hb H. revert l H. induction k as [|k IH]; intros l H.
  - cbn [skipn Z.of_nat]. rewrite Z.pow_0_r. apply Z.div_1_r.
  - destruct H as [|d l Hd H].
    + cbn [skipn le_value]. apply Z.div_0_l.
      assert (0 < b ^ Z.of_nat (S k)) by (apply Z.pow_pos_nonneg; lia). lia.
    + cbn [skipn le_value].
      replace (Z.of_nat (S k)) with (1 + Z.of_nat k) by lia.
      rewrite Z.pow_add_r, Z.pow_1_r by lia.
      assert (0 < b ^ Z.of_nat k) by (apply Z.pow_pos_nonneg; lia).
      rewrite <- Z.div_div by lia.
      replace (d + b * le_value b l) with (d + le_value b l * b) by ring.
      rewrite Z.div_add, (Z.div_small d b) by (cbn beta in Hd; lia). rewrite Z.add_0_l. now apply IH.
Qed.

(** The first [n] base-[b] digits of a number, from position [k]. *)
Fixpoint digits_from (b v : Z) (k : Z) (n : nat) : list Z :=
  match n with
  | O => []
  | S n' => (v / b ^ k) mod b :: digits_from b v (k + 1) n'
  end.

Lemma digits_from_length b v k n : length (digits_from b v k n) = n.
Proof. revert k; induction n; intros; cbn; auto. Qed.

Lemma digits_from_range b v k n : 0 < b ->
  Forall (fun d => 0 <= d < b) (digits_from b v k n).
Proof.
  intros Hb. revert k; induction n; intros k; cbn; constructor; auto.
  apply Z.mod_pos_bound. lia.
Qed.

Lemma digits_from_value b v k n : 0 < b -> 0 <= k -> 0 <= v ->
  le_value b (digits_from b v k n) = (v / b ^ k) mod b ^ Z.of_nat n.
Proof.
  intros Hb Hk Hv. revert k Hk. induction n as [|n IH]; intros k Hk.
  - cbn [digits_from le_value Z.of_nat]. now rewrite Z.pow_0_r, Z.mod_1_r.
  - cbn [digits_from le_value]. rewrite IH by lia.
    replace (Z.of_nat (S n)) with (1 + Z.of_nat n) by lia.
    rewrite !Z.pow_add_r, !Z.pow_1_r by lia.
    assert (0 < b ^ k) by (apply Z.pow_pos_nonneg; lia).
    assert (0 < b ^ Z.of_nat n) by (apply Z.pow_pos_nonneg; lia).
    rewrite <- Z.div_div by lia. rewrite Z.rem_mul_r by lia. reflexivity.
Qed.

(** * The packing loop computes the octets of the little-endian value *)

Lemma shift_combine x y r j :
  0 <= x < 128 -> 0 <= y < 128 -> 0 <= r -> 0 <= j <= 6 ->
  Z.shiftr x j + Z.land (Z.shiftl y (7 - j)) 255 =
  (x + 128 * (y + 128 * r)) / 2 ^ j mod 256.
Proof.
  intros Hx Hy Hr Hj.
  rewrite Z.shiftr_div_pow2, Z.shiftl_mul_pow2 by lia.
  change 255 with (Z.ones 8). rewrite Z.land_ones by lia. change (2 ^ 8) with 256.
  assert (j = 0 \/ j = 1 \/ j = 2 \/ j = 3 \/ j = 4 \/ j = 5 \/ j = 6) as Hc by lia.
  repeat destruct Hc as [->|Hc]; try subst j;
    pow2; lia.
Qed.

Lemma pack_loop_digits txt k : forall n c shift,
  Forall septet txt -> 0 <= n ->
  (if shift =? 6 then c + 1 else c) = n + n / 7 ->
  (forall i, n <= i < n + Z.of_nat k -> i + i / 7 + 1 < zlen txt) ->
  pack_loop txt k n c shift = Ok (digits_from 256 (le_value 128 txt) n k).
Proof.
  induction k as [|k IH]; intros n c shift Ht Hn Hc Hb; [reflexivity|].
  cbn [pack_loop digits_from]. rewrite Hc.
  assert (n + n / 7 + 1 < zlen txt) as Hi by (apply Hb; lia).
  rewrite !py_index_nth by lia. cbn [bind].
  rewrite IH; [|assumption|lia| |intros i Hi2; apply Hb; lia].
  2:{ destruct (n mod 7 =? 6) eqn:E; lia. }
  cbn [bind]. do 2 f_equal.
  set (q := Z.to_nat (n + n / 7)).
  assert (n + n / 7 = Z.of_nat q) as Hq by lia.
  replace (256 ^ n) with (128 ^ Z.of_nat q * 2 ^ (n mod 7)).
  2:{ change 128 with (2 ^ 7). change 256 with (2 ^ 8).
      rewrite <- !Z.pow_mul_r by lia. rewrite <- Z.pow_add_r by lia.
      f_equal. lia. }
  assert (0 < 2 ^ (n mod 7)) by (apply Z.pow_pos_nonneg; lia).
  assert (0 < 128 ^ Z.of_nat q) by (apply Z.pow_pos_nonneg; lia).
  rewrite <- Z.div_div by lia.
  rewrite le_value_skipn by (try lia; exact Ht).
  replace (Z.to_nat (n + n / 7 + 1)) with (S q) by lia.
  assert (exists x y r, skipn q txt = x :: y :: r) as (x & y & r & E).
  { assert (length (skipn q txt) >= 2)%nat as Hl
      by (rewrite skipn_length; unfold zlen in Hi; lia).
    destruct (skipn q txt) as [|x [|y r]]; cbn in Hl; try lia. eauto. }
  assert (forall i, nth (q + i) txt 0 = nth i (skipn q txt) 0) as Hnth.
  { intros i. rewrite <- (firstn_skipn q txt) at 1.
    rewrite app_nth2; rewrite firstn_length_le; unfold zlen in Hi; try lia.
    f_equal. lia. }
  assert (nth q txt 0 = x) as ->.
  { specialize (Hnth 0%nat). rewrite Nat.add_0_r, E in Hnth. exact Hnth. }
  assert (nth (S q) txt 0 = y) as ->.
  { specialize (Hnth 1%nat). rewrite Nat.add_1_r, E in Hnth. exact Hnth. }
  assert (Forall septet (x :: y :: r)) as Hf.
  { rewrite <- E. rewrite <- (firstn_skipn q txt) in Ht.
    now apply Forall_app in Ht as [_ Ht]. }
  rewrite E. cbn [le_value].
  inversion Hf as [|? ? Hx Hf2]; subst. inversion Hf2 as [|? ? Hy Hf3]; subst.
  unfold septet in *. apply shift_combine; try lia.
  apply (le_value_bound 128 r); [lia|exact Hf3].
Qed.

Lemma pack_digits txt : Forall septet txt ->
  let L := Z.to_nat (zlen (txt ++ [0]) * 7 / 8) in
  let op := digits_from 256 (le_value 128 txt) 0 L in
  pack_loop (txt ++ [0]) L 0 0 0 = Ok op /\ packed txt op.
Proof.
  intros Ht L op.
  assert (Forall septet (txt ++ [0])) as Ht0.
  { apply Forall_app. split; [assumption|]. constructor; [unfold septet; lia|constructor]. }
  assert (le_value 128 (txt ++ [0]) = le_value 128 txt) as Ev.
  { rewrite le_value_app by lia. cbn [le_value]. lia. }
  assert (zlen (txt ++ [0]) = zlen txt + 1) as El
    by (rewrite zlen_app, zlen_cons, zlen_nil; lia).
  pose proof (zlen_nonneg txt) as Hn.
  split.
  - unfold op. rewrite <- Ev. apply pack_loop_digits; try assumption.
    + lia.
    + cbn. reflexivity.
    + intros i Hi. rewrite El. unfold L in Hi. rewrite El in Hi. lia.
  - unfold packed. split; [|split].
    + apply digits_from_range. lia.
    + unfold op. rewrite digits_from_length. unfold octets_for. fold (zlen txt).
      unfold L. rewrite El. lia.
    + unfold op.
      destruct (le_value_bound 128 txt ltac:(lia) Ht) as [Hv0 Hv1].
      rewrite digits_from_value by lia.
      rewrite Z.pow_0_r, Z.div_1_r. apply Z.mod_small. split; [assumption|].
      eapply Z.lt_le_trans; [exact Hv1|].
      change 128 with (2 ^ 7). change 256 with (2 ^ 8).
      rewrite <- !Z.pow_mul_r by lia. apply Z.pow_le_mono_r; [lia|].
      unfold L. rewrite El. lia.
Qed.

Lemma packed_unique s o1 o2 : packed s o1 -> packed s o2 -> o1 = o2.
Proof.
  intros (H1 & L1 & V1) (H2 & L2 & V2).
  apply (le_value_inj 256); try assumption; [lia|lia|congruence].
Qed.

(** * Hexadecimal *)

Lemma hex_of_encode l : Forall octet l -> hex_of l = encode_bytes l.
Proof.
  unfold encode_bytes. induction 1 as [|b l Hb _ IH]; cbn [hex_of map concat];
    [reflexivity|].
  rewrite hex02_octet by exact Hb. cbn [app]. rewrite IH.
  unfold hex_digit, hexdigit. unfold octet in Hb.
  f_equal; [destruct (b / 16 <? 10); lia|].
  f_equal. destruct (b mod 16 <? 10); lia.
Qed.

Lemma pack_spec txt : Forall septet txt -> zlen txt < 256 ->
  exists o, packed txt o /\
    pack_8bits_to_7bits txt None = Ok (hex_of (zlen txt :: o)).
Proof.
  intros Ht Hl. destruct (pack_digits txt Ht) as [E P]. cbn zeta in *.
  exists (digits_from 256 (le_value 128 txt) 0 (Z.to_nat (zlen (txt ++ [0]) * 7 / 8))).
  split; [exact P|]. unfold pack_8bits_to_7bits. rewrite E. cbn [bind].
  pose proof (zlen_nonneg txt).
  rewrite py_chr_octet by (unfold is_octet; lia). cbn [bind].
  rewrite mapM_py_chr by exact (proj1 P). cbn [bind].
  rewrite hex_of_encode; [reflexivity|].
  constructor; [unfold octet; lia|exact (proj1 P)].
Qed.

(** * Unpacking *)

(** The unpacking loop without its cut at 160 septets. *)
Fixpoint unpack_all (l : list Z) (count last : Z) : list Z :=
  match l with
  | [] => []
  | b :: r =>
      let out := Z.shiftl (Z.land b (Z.shiftr 127 count)) count + last in
      let last := Z.shiftr b (7 - count) in
      if count =? 6 then out :: last :: unpack_all r 0 0
      else out :: unpack_all r (count + 1) last
  end.

Lemma unpack_loop_prefix l : forall count last len,
  0 <= count <= 6 -> 0 <= len ->
  firstn (Z.to_nat (160 - len)) (unpack_loop l count last len) =
  firstn (Z.to_nat (160 - len)) (unpack_all l count last).
Proof.
  induction l as [|b l IH]; intros count last len Hc Hl; [reflexivity|].
  cbn [unpack_loop unpack_all].
  set (out := Z.shiftl (Z.land b (Z.shiftr 127 count)) count + last).
  destruct (160 <=? len + 1) eqn:E.
  - assert (Z.to_nat (160 - len) <= 1)%nat as Hk by lia.
    destruct (Z.to_nat (160 - len)) as [|[|k]]; [reflexivity| |lia].
    destruct (count =? 6); reflexivity.
  - destruct (count =? 6) eqn:E6.
    + replace ((count + 1) mod 7) with 0 by lia.
      replace (Z.to_nat (160 - len)) with (S (S (Z.to_nat (160 - (len + 2))))) by lia.
      cbn [firstn]. do 2 f_equal. apply IH; lia.
    + replace ((count + 1) mod 7) with (count + 1) by lia.
      replace (Z.to_nat (160 - len)) with (S (Z.to_nat (160 - (len + 1)))) by lia.
      cbn [firstn]. f_equal. apply IH; lia.
Qed.

Lemma unpack_step b last count :
  octet b -> 0 <= count <= 6 -> 0 <= last < 2 ^ count ->
  let out := Z.shiftl (Z.land b (Z.shiftr 127 count)) count + last in
  let last' := Z.shiftr b (7 - count) in
  septet out /\ 0 <= last' < 2 ^ (count + 1) /\
  last + 2 ^ count * b = out + 128 * last'.
Proof.
  intros Hb Hc Hl. cbn zeta. unfold octet, septet in *.
  rewrite Z.shiftl_mul_pow2, !Z.shiftr_div_pow2 by lia.
  assert (127 / 2 ^ count = Z.ones (7 - count)) as ->.
  { assert (count = 0 \/ count = 1 \/ count = 2 \/ count = 3 \/ count = 4 \/
            count = 5 \/ count = 6) as Hd by lia.
    repeat destruct Hd as [->|Hd]; try subst; reflexivity. }
  rewrite Z.land_ones by lia.
  assert (count = 0 \/ count = 1 \/ count = 2 \/ count = 3 \/ count = 4 \/
          count = 5 \/ count = 6) as Hd by lia.
  repeat destruct Hd as [->|Hd]; try subst count;
    pow2; lia.
Qed.

Lemma unpack_all_spec l : Forall octet l -> forall count last,
  0 <= count <= 6 -> 0 <= last < 2 ^ count ->
  Forall septet (unpack_all l count last) /\
  zlen (unpack_all l count last) = zlen l + (zlen l + count) / 7 /\
  exists R, last + 2 ^ count * le_value 256 l =
            le_value 128 (unpack_all l count last) +
            128 ^ zlen (unpack_all l count last) * R.
Proof.
  induction 1 as [|b l Hb _ IH]; intros count last Hc Hl.
  - cbn [unpack_all le_value]. change (zlen (@nil Z)) with 0. split; [constructor|].
    split; [lia|]. exists last. rewrite Z.pow_0_r. lia.
  - cbn [unpack_all]. destruct (unpack_step b last count Hb Hc Hl) as (Ho & Hl' & Ev).
    cbn zeta in *.
    set (out := Z.shiftl (Z.land b (Z.shiftr 127 count)) count + last) in *.
    set (last' := Z.shiftr b (7 - count)) in *.
    destruct (count =? 6) eqn:E6.
    + assert (count = 6) as Ec by lia. rewrite Ec in *. clear Ec E6.
      destruct (IH 0 0) as (Hs & Hn & R & HR); [lia|cbn; lia|].
      split; [|split].
      * constructor; [assumption|]. constructor; [unfold septet; cbn in Hl'; lia|assumption].
      * rewrite !zlen_cons, Hn. pose proof (zlen_nonneg l). lia.
      * exists R. cbn [le_value]. rewrite !zlen_cons.
        rewrite !Z.pow_add_r by (try lia; pose proof (zlen_nonneg (unpack_all l 0 0)); lia).
        rewrite Z.pow_1_r.
        change (2 ^ 6) with 64 in *. rewrite Z.pow_0_r in HR. nia.
    + destruct (IH (count + 1) last') as (Hs & Hn & R & HR); [lia|lia|].
      split; [|split].
      * constructor; assumption.
      * rewrite !zlen_cons, Hn. pose proof (zlen_nonneg l). lia.
      * exists R. cbn [le_value]. rewrite !zlen_cons.
        rewrite !Z.pow_add_r in *
          by (try lia; pose proof (zlen_nonneg (unpack_all l (count + 1) last')); lia).
        rewrite !Z.pow_1_r in *. nia.
Qed.

(** Every octet string whose value agrees with the septets up to their length
    unpacks to them. *)
Lemma unpack_firstn l s Q :
  Forall octet l -> Forall septet s -> zlen s <= 160 ->
  zlen s <= zlen l + zlen l / 7 ->
  le_value 256 l = le_value 128 s + 128 ^ zlen s * Q ->
  firstn (length s) (unpack_msg2 l) = s.
Proof.
  intros Hl Hs Hn Hlen Ev. unfold unpack_msg2.
  destruct (unpack_all_spec l Hl 0 0) as (Ha & Hla & R & HR); [lia|cbn; lia|].
  pose proof (unpack_loop_prefix l 0 0 0) as Hp.
  specialize (Hp ltac:(lia) ltac:(lia)). change (Z.to_nat (160 - 0)) with 160%nat in Hp.
  assert (forall x : list Z, firstn (length s) x = firstn (length s) (firstn 160 x)) as Hf.
  { intros x. rewrite firstn_firstn. f_equal. unfold zlen in Hn. lia. }
  rewrite Hf, Hp, <- Hf.
  apply (le_value_prefix 128 s (unpack_all l 0 0) Q R); try assumption; [lia| |].
  - unfold zlen in *. lia.
  - rewrite <- HR, Z.pow_0_r. lia.
Qed.

Lemma unpack_packed s o : Forall septet s -> zlen s <= 160 -> packed s o ->
  firstn (length s) (unpack_msg2 o) = s.
Proof.
  intros Hs Hn (Ho & Hl & Ev). apply unpack_firstn with (Q := 0); try assumption.
  - unfold zlen in *. unfold octets_for in Hl. lia.
  - lia.
Qed.

Lemma unpack_hex_eq l : forall count last len, Forall octet l ->
  unpack_hex_loop (map hex02 l) count last len = Ok (unpack_loop l count last len).
Proof.
  induction l as [|b l IH]; intros count last len H; [reflexivity|].
  inversion H; subst. cbn [map unpack_hex_loop unpack_loop].
  rewrite int16_hex02 by assumption. cbn [bind].
  destruct (160 <=? len + 1); [reflexivity|].
  destruct (count =? 6); rewrite IH by assumption; reflexivity.
Qed.

Lemma unpack_msg_hex l : Forall octet l ->
  unpack_msg (encode_bytes l) = Ok (unpack_msg2 l).
Proof.
  intros H. unfold unpack_msg, unpack_msg2, encode_bytes.
  rewrite chunks2_hex by exact H. now apply unpack_hex_eq.
Qed.

Lemma unpack_loop_septets l : Forall octet l -> forall count last len,
  0 <= count <= 6 -> 0 <= last < 2 ^ count ->
  Forall septet (unpack_loop l count last len).
Proof.
  induction 1 as [|b l Hb _ IH]; intros count last len Hc Hl; [constructor|].
  cbn [unpack_loop]. destruct (unpack_step b last count Hb Hc Hl) as (Ho & Hl' & _).
  cbn zeta in *. destruct (160 <=? len + 1); [constructor; [assumption|constructor]|].
  destruct (count =? 6) eqn:E6.
  - constructor; [assumption|]. constructor.
    + assert (count = 6) as Ec by lia. rewrite Ec in *. unfold septet.
      change (2 ^ (6 + 1)) with 128 in Hl'. exact Hl'.
    + apply IH; [lia|]. replace ((count + 1) mod 7) with 0 by lia. cbn. lia.
  - constructor; [assumption|]. replace ((count + 1) mod 7) with (count + 1) by lia.
    apply IH; [lia|assumption].
Qed.

Lemma unpack_msg2_septets l : Forall octet l -> Forall septet (unpack_msg2 l).
Proof. intros H. apply unpack_loop_septets; [assumption|lia|cbn; lia]. Qed.

(** * Packing with a six-octet header and a space (the multipart form) *)

Lemma pack_udh_spec msg u :
  Forall septet msg -> length u = 6%nat -> Forall octet u -> zlen msg + 7 < 256 ->
  exists o, packed_with_header u msg o /\
    pack_8bits_to_7bits ([32] ++ msg) (Some u) = Ok (hex_of (7 + zlen msg :: o)) /\
    exists t, o = u ++ t.
Proof.
  intros Hm Hu Ho Hl.
  set (txt := [0; 0; 0; 0; 0; 0] ++ [32] ++ msg).
  assert (Forall septet txt) as Ht.
  { unfold txt. rewrite !Forall_app. unfold septet.
    repeat split; try assumption; repeat constructor; lia. }
  destruct (pack_digits txt Ht) as [E P]. cbn zeta in *.
  set (op := digits_from 256 (le_value 128 txt) 0 (Z.to_nat (zlen (txt ++ [0]) * 7 / 8)))
    in *.
  destruct P as (Po & Pl & Pv).
  assert (zlen txt = 7 + zlen msg) as Etl.
  { unfold txt, zlen. cbn [app length]. lia. }
  pose proof (zlen_nonneg msg) as Hn.
  assert (6 <= length op)%nat as Hop.
  { fold (zlen txt) in Pl. rewrite Etl in Pl. unfold octets_for in Pl. lia. }
  set (t := skipn 6 op).
  assert (op = firstn 6 op ++ t) as Esplit by (unfold t; now rewrite firstn_skipn).
  assert (overwrite op u = Ok (u ++ t)) as Eov.
  { unfold t. clear - Hu Hop.
    assert (forall (u op : list Z), (length u <= length op)%nat ->
              overwrite op u = Ok (u ++ skipn (length u) op)) as H.
    { clear. induction u as [|x u IH]; intros op H.
      - destruct op; reflexivity.
      - destruct op as [|y op]; [cbn in H; lia|]. cbn [length] in H.
        cbn [overwrite skipn length app]. rewrite IH by lia. reflexivity. }
    rewrite H by lia. now rewrite Hu. }
  assert (Forall octet t) as Hto.
  { rewrite Esplit in Po. now apply Forall_app in Po as [_ Po]. }
  assert (Forall octet (firstn 6 op)) as Hfo.
  { rewrite Esplit in Po. now apply Forall_app in Po as [Po _]. }
  assert (le_value 256 t = 2 * le_value 128 msg) as Evt.
  { rewrite Esplit in Pv. rewrite le_value_app in Pv by lia.
    assert (zlen (firstn 6 op) = 6) as E6
      by (unfold zlen; rewrite firstn_length_le by lia; reflexivity).
    rewrite E6 in Pv. change (256 ^ 6) with 281474976710656 in Pv.
    unfold txt in Pv. cbn [app le_value] in Pv.
    destruct (le_value_bound 256 (firstn 6 op) ltac:(lia) Hfo) as [B1 B2].
    rewrite E6 in B2. change (256 ^ 6) with 281474976710656 in B2. lia. }
  exists (u ++ t). split; [|split; [|eauto]].
  - unfold packed_with_header. cbn zeta. rewrite Hu.
    change (header_septets (Z.of_nat 6)) with 7.
    split; [apply Forall_app; auto|]. split.
    + rewrite app_length, Hu. unfold t. rewrite skipn_length.
      fold (zlen txt) in Pl. rewrite Etl in Pl. unfold zlen in Pl. lia.
    + rewrite le_value_app by lia.
      replace (zlen u) with 6 by (unfold zlen; rewrite Hu; reflexivity).
      rewrite Evt. change (2 ^ (7 * 7)) with 562949953421312.
      change (256 ^ 6) with 281474976710656. lia.
  - unfold pack_8bits_to_7bits. cbn match. fold txt. rewrite E. cbn [bind].
    rewrite Eov. cbn [bind]. rewrite Etl.
    rewrite py_chr_octet by (unfold is_octet; lia). cbn [bind].
    assert (Forall octet (u ++ t)) as Hut by (apply Forall_app; auto).
    rewrite mapM_py_chr by exact Hut. cbn [bind].
    rewrite hex_of_encode; [reflexivity|].
    constructor; [unfold octet; lia|assumption].
Qed.

(** Reading back septets after a header of any length. *)
Lemma unpack_with_header hd s o :
  Forall octet hd -> Forall septet s ->
  header_septets (zlen hd) + zlen s <= 160 ->
  packed_with_header hd s o ->
  py_slice (unpack_msg2 o) (header_septets (zlen hd))
           (header_septets (zlen hd) + zlen s) = s.
Proof.
  intros Hh Hs Hn (Ho & Hl & Ev). fold (zlen hd) in *. fold (zlen s) in *. fold (zlen o) in *.
  set (hs := header_septets (zlen hd)) in *.
  assert (0 <= hs) as Hhs by (unfold hs, header_septets; pose proof (zlen_nonneg hd); lia).
  pose proof (zlen_nonneg s) as Hs0.
  set (pre := digits_from 128 (le_value 256 hd) 0 (Z.to_nat hs)).
  assert (Forall septet pre) as Hp by (apply digits_from_range; lia).
  assert (zlen pre = hs) as Hpl by (unfold zlen, pre; rewrite digits_from_length; lia).
  destruct (le_value_bound 256 hd ltac:(lia) Hh) as [B1 B2].
  assert (le_value 128 pre = le_value 256 hd) as Hpv.
  { unfold pre. rewrite digits_from_value by lia. rewrite Z.pow_0_r, Z.div_1_r.
    rewrite Z2Nat.id by lia. apply Z.mod_small. split; [assumption|].
    eapply Z.lt_le_trans; [exact B2|].
    change 128 with (2 ^ 7). change 256 with (2 ^ 8).
    pose proof (zlen_nonneg hd).
    rewrite <- !Z.pow_mul_r by lia. apply Z.pow_le_mono_r; [lia|].
    unfold hs, header_septets. lia. }
  assert (firstn (length (pre ++ s)) (unpack_msg2 o) = pre ++ s) as F.
  { apply unpack_firstn with (Q := 0); try assumption.
    - apply Forall_app; auto.
    - rewrite zlen_app. lia.
    - rewrite zlen_app, Hpl. unfold octets_for in Hl. lia.
    - rewrite le_value_app, Hpv, Hpl, Ev by lia.
      change 128 with (2 ^ 7) at 2. rewrite <- Z.pow_mul_r by lia. lia. }
  unfold py_slice. replace (hs + zlen s - hs) with (zlen s) by lia.
  assert (length pre = Z.to_nat hs) as El by (unfold zlen in Hpl; lia).
  rewrite <- El. unfold zlen at 1. rewrite Nat2Z.id.
  rewrite <- firstn_skipn with (l := unpack_msg2 o) (n := length (pre ++ s)).
  rewrite F, <- app_assoc, skipn_app, skipn_all, Nat.sub_diag. cbn [skipn app].
  rewrite firstn_app, firstn_all, Nat.sub_diag, firstn_O, app_nil_r. reflexivity.
Qed.

Lemma unpack_agree l : Forall octet l -> unpack_msg (hex_of l) = Ok (unpack_msg2 l).
Proof. intros H. rewrite hex_of_encode by exact H. now apply unpack_msg_hex. Qed.

(** 168 septets in 147 octets: only 160 and the last group come back. *)
Lemma unpack_long : exists s o : list Z,
  Forall septet s /\ packed s o /\ zlen s <= 255 /\
  firstn (length s) (unpack_msg2 o) <> s.
Proof.
  exists (repeat 1 200). destruct (pack_digits (repeat 1 200)) as [_ P].
  { apply Forall_forall. intros x Hx. apply repeat_spec in Hx. subst. unfold septet. lia. }
  cbn zeta in P. eexists. split; [|split; [exact P|split]].
  - apply Forall_forall. intros x Hx. apply repeat_spec in Hx. subst. unfold septet. lia.
  - vm_compute. discriminate.
  - intros C. apply (f_equal (@length Z)) in C. vm_compute in C. discriminate.
Qed.
