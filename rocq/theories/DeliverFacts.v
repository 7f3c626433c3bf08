(** Proofs about the SMS-DELIVER and status report decoder. *)
From Coq Require Import Lia ZifyBool ZifyNat.
From Verif Require Import Py PyFacts SpecGsm SpecPack SpecAddress SpecTime SpecSubmit
  SpecDeliver Gsm GsmFacts Utils PackFacts NumberFacts SubmitFacts Udh UdhFacts Deliver DeliverClaims.
Open Scope Z_scope.
Ltac Zify.zify_post_hook ::= Z.div_mod_to_equations.

(** * Hexadecimal input *)

Definition hex_chars : list Z := str "0123456789abcdefABCDEF".

Lemma hex_value_in c h : hex_value c = Some h -> In c hex_chars /\ 0 <= h < 16.
Proof.
  unfold hex_value. intros H.
  assert (((48 <= c <= 57) \/ (97 <= c <= 102) \/ (65 <= c <= 70)) /\ 0 <= h < 16) as [Hc Hh].
  { destruct ((48 <=? c) && (c <=? 57)) eqn:E1; [injection H as <-; lia|].
    destruct ((97 <=? c) && (c <=? 102)) eqn:E2; [injection H as <-; lia|].
    destruct ((65 <=? c) && (c <=? 70)) eqn:E3; [injection H as <-; lia|discriminate]. }
  split; [|exact Hh]. cbn. lia.
Qed.

Lemma int_pair c1 c2 h l : hex_value c1 = Some h -> hex_value c2 = Some l ->
  py_int 16 [c1; c2] = Ok (16 * h + l).
Proof.
  intros H1 H2. destruct (hex_value_in _ _ H1) as [I1 _].
  destruct (hex_value_in _ _ H2) as [I2 _].
  assert (forallb (fun a => forallb (fun b =>
            match py_int 16 [a; b], hex_value a, hex_value b with
            | Ok v, Some x, Some y => v =? 16 * x + y
            | _, _, _ => false
            end) hex_chars) hex_chars = true) as S by (vm_compute; reflexivity).
  rewrite forallb_forall in S. specialize (S c1 I1).
  rewrite forallb_forall in S. specialize (S c2 I2). cbn beta in S.
  rewrite H1, H2 in S.
  destruct (py_int 16 [c1; c2]); [|discriminate]. f_equal. lia.
Qed.

Lemma reads_hex_octets s o : reads_hex s o -> Forall octet o.
Proof.
  induction 1 as [|c1 c2 h l s o H1 H2 _ IH]; constructor; [|exact IH].
  apply hex_value_in in H1 as [_ H1]. apply hex_value_in in H2 as [_ H2].
  unfold octet. lia.
Qed.

Lemma reads_hex_length s o : reads_hex s o -> zlen s = 2 * zlen o.
Proof. induction 1; [reflexivity|]. rewrite !zlen_cons. lia. Qed.

Lemma to_array_hex s o : reads_hex s o -> to_array s = Ok o.
Proof.
  intros H. unfold to_array.
  assert (mapM (py_int 16) (chunks2 s) = Ok o) as ->.
  { induction H as [|c1 c2 h l s o H1 H2 _ IH]; [reflexivity|].
    cbn [chunks2 mapM]. rewrite (int_pair _ _ _ _ H1 H2). cbn [bind]. rewrite IH. reflexivity. }
  cbn [bind]. replace (forallb _ o) with true; [reflexivity|]. symmetry.
  apply forallb_forall. intros x Hx. apply reads_hex_octets in H.
  rewrite Forall_forall in H. specialize (H x Hx). unfold octet in H. lia.
Qed.

Lemma reads_hex_of o : Forall octet o -> reads_hex (hex_of o) o.
Proof.
  induction 1 as [|b o Hb _ IH]; cbn [hex_of]; [constructor|].
  assert (forall d, 0 <= d < 16 -> hex_value (hex_digit d) = Some d) as Hd.
  { intros d Hd. unfold hex_value, hex_digit. destruct (d <? 10) eqn:E.
    - replace ((48 <=? 48 + d) && (48 + d <=? 57)) with true by lia. f_equal. lia.
    - replace ((48 <=? 97 + (d - 10)) && (97 + (d - 10) <=? 57)) with false by lia.
      replace ((97 <=? 97 + (d - 10)) && (97 + (d - 10) <=? 102)) with true by lia.
      f_equal. lia. }
  unfold octet in Hb. replace b with (16 * (b / 16) + b mod 16) at 3 by lia.
  constructor; [apply Hd; lia|apply Hd; lia|exact IH].
Qed.

(** * Unpacking with octets after the packed septets *)

Lemma pow_split (n o : Z) : 0 <= n -> 7 * n <= 8 * o ->
  256 ^ o = 128 ^ n * 2 ^ (8 * o - 7 * n).
Proof.
  intros Hn Ho. change 256 with (2 ^ 8). change 128 with (2 ^ 7).
  rewrite <- !Z.pow_mul_r by lia. rewrite <- Z.pow_add_r by lia. f_equal. lia.
Qed.

Lemma unpack_trail s o t : Forall septet s -> zlen s <= 160 -> packed s o ->
  Forall octet t -> firstn (length s) (unpack_msg2 (o ++ t)) = s.
Proof.
  intros Hs Hn (Ho & Hl & Ev) Ht. fold (zlen o) in Hl. fold (zlen s) in Hl.
  pose proof (zlen_nonneg s) as Hs0. pose proof (zlen_nonneg t) as Ht0. unfold octets_for in Hl.
  apply unpack_firstn with (Q := 2 ^ (8 * zlen o - 7 * zlen s) * le_value 256 t);
    try assumption.
  - now apply Forall_app.
  - rewrite zlen_app. lia.
  - rewrite le_value_app, Ev by lia. rewrite (pow_split (zlen s)) by lia. ring.
Qed.

Lemma unpack_header_trail hd s o t :
  Forall octet hd -> Forall septet s ->
  header_septets (zlen hd) + zlen s <= 160 ->
  packed_with_header hd s o -> Forall octet t ->
  py_slice (unpack_msg2 (o ++ t)) (header_septets (zlen hd))
           (header_septets (zlen hd) + zlen s) = s.
Proof.
  intros Hh Hs Hn (Ho & Hl & Ev) Ht. fold (zlen hd) in *. fold (zlen s) in *. fold (zlen o) in *.
  set (hs := header_septets (zlen hd)) in *.
  assert (0 <= hs) as Hhs by (unfold hs, header_septets; pose proof (zlen_nonneg hd); lia).
  pose proof (zlen_nonneg s) as Hs0. pose proof (zlen_nonneg t) as Ht0.
  set (pre := digits_from 128 (le_value 256 hd) 0 (Z.to_nat hs)).
  assert (Forall septet pre) as Hp by (apply digits_from_range; lia).
  assert (zlen pre = hs) as Hpl by (unfold zlen, pre; rewrite digits_from_length; lia).
  destruct (le_value_bound 256 hd ltac:(lia) Hh) as [B1 B2].
  assert (le_value 128 pre = le_value 256 hd) as Hpv.
  { unfold pre. rewrite digits_from_value by lia. rewrite Z.pow_0_r, Z.div_1_r.
    rewrite Z2Nat.id by lia. apply Z.mod_small. split; [assumption|].
    eapply Z.lt_le_trans; [exact B2|].
    change 128 with (2 ^ 7). change 256 with (2 ^ 8).
    pose proof (zlen_nonneg hd).
    rewrite <- !Z.pow_mul_r by lia. apply Z.pow_le_mono_r; [lia|].
    unfold hs, header_septets. lia. }
  unfold octets_for in Hl.
  assert (firstn (length (pre ++ s)) (unpack_msg2 (o ++ t)) = pre ++ s) as F.
  { apply unpack_firstn with (Q := 2 ^ (8 * zlen o - 7 * (hs + zlen s)) * le_value 256 t).
    - now apply Forall_app.
    - apply Forall_app; auto.
    - rewrite zlen_app. lia.
    - rewrite !zlen_app, Hpl. lia.
    - rewrite !le_value_app, Hpv, Ev, zlen_app, Hpl by lia.
      rewrite (pow_split (hs + zlen s)) by lia.
      replace (2 ^ (7 * hs)) with (128 ^ hs)
        by (change 128 with (2 ^ 7); rewrite <- Z.pow_mul_r by lia; reflexivity). ring. }
  unfold py_slice. replace (hs + zlen s - hs) with (zlen s) by lia.
  assert (length pre = Z.to_nat hs) as El by (unfold zlen in Hpl; lia).
  rewrite <- El. unfold zlen at 1. rewrite Nat2Z.id.
  rewrite <- firstn_skipn with (l := unpack_msg2 (o ++ t)) (n := length (pre ++ s)).
  rewrite F, <- app_assoc, skipn_app, skipn_all, Nat.sub_diag. cbn [skipn app].
  rewrite firstn_app, firstn_all, Nat.sub_diag, firstn_O, app_nil_r. reflexivity.
Qed.

(** The packed form starts with the header. *)
Lemma packed_header_prefix hd s o : Forall octet hd -> packed_with_header hd s o ->
  exists r, o = hd ++ r.
Proof.
  intros Hh (Ho & Hl & Ev). exists (skipn (length hd) o).
  rewrite <- (firstn_skipn (length hd) o) at 1. f_equal.
  pose proof (zlen_nonneg s) as Hs0. pose proof (zlen_nonneg hd) as Hh0.
  fold (zlen hd) in *. fold (zlen s) in *. fold (zlen o) in *.
  unfold octets_for, header_septets in Hl.
  apply (le_value_prefix 256 hd o
           (2 ^ (7 * header_septets (zlen hd) - 8 * zlen hd) * le_value 128 s) 0);
    try assumption; [lia| |].
  - unfold zlen in *. lia.
  - rewrite Ev. unfold header_septets.
    replace (2 ^ (7 * ((8 * zlen hd + 6) / 7)))
      with (256 ^ zlen hd * 2 ^ (7 * ((8 * zlen hd + 6) / 7) - 8 * zlen hd)); [ring|].
    change 256 with (2 ^ 8). rewrite <- Z.pow_mul_r by lia.
    rewrite <- Z.pow_add_r by lia. f_equal. lia.
Qed.

(** * Arithmetic of the header *)

Lemma round_up7_spec h : 0 <= h -> round_up7 7 (8 * h) / 7 = header_septets h.
Proof.
  intros Hh. unfold header_septets. remember (8 * h) as x eqn:E. clear E.
  assert (exists q r, x = 7 * q + r /\ 0 <= r < 7) as (q & r & -> & Hr)
    by (exists (x / 7), (x mod 7); lia).
  assert (r = 0 \/ r = 1 \/ r = 2 \/ r = 3 \/ r = 4 \/ r = 5 \/ r = 6)
    as [R|[R|[R|[R|[R|[R|R]]]]]] by lia; subst r;
  cbn [round_up7];
  repeat (match goal with |- context [if negb (?a =? 0) then _ else _] =>
            let E := fresh in destruct (a =? 0) eqn:E; cbn [negb]; try (exfalso; lia) end);
  lia.
Qed.

(** * UCS-2 *)

Lemma upper_hex_value b : is_octet b ->
  exists h l, py_upper (hex02 b) = [h; l] /\ hex_value h = Some (b / 16) /\
              hex_value l = Some (b mod 16).
Proof.
  intros H.
  pose proof (octet_sweep (fun b =>
    match py_upper (hex02 b) with
    | [h; l] => match hex_value h, hex_value l with
                | Some x, Some y => (x =? b / 16) && (y =? b mod 16)
                | _, _ => false end
    | _ => false end) ltac:(vm_compute; reflexivity) b H) as S. cbn beta in S.
  destruct (py_upper (hex02 b)) as [|h [|l [|]]]; try discriminate.
  exists h, l. split; [reflexivity|].
  destruct (hex_value h), (hex_value l); try discriminate.
  split; f_equal; lia.
Qed.

Lemma int_four a b : is_octet a -> is_octet b ->
  py_int 16 (py_upper (hex02 a) ++ py_upper (hex02 b)) = Ok (256 * a + b).
Proof.
  intros Ha Hb. destruct (upper_hex_value a Ha) as (h1 & l1 & -> & V1 & W1).
  destruct (upper_hex_value b Hb) as (h2 & l2 & -> & V2 & W2). cbn [app].
  assert (forall c v, hex_value c = Some v ->
    digit_val c = Some v /\ v < 16 /\ is_space c = false /\ c <> 43 /\ c <> 45 /\ c <> 120 /\ c <> 88) as D.
  { intros c v E. destruct (hex_value_in _ _ E) as [Hc Hv].
    assert (forallb (fun c => match hex_value c, digit_val c with
              | Some x, Some y => (x =? y) && negb (is_space c) && negb (c =? 43)
                   && negb (c =? 45) && negb (c =? 120) && negb (c =? 88)
              | _, _ => false end) hex_chars = true) as S by (vm_compute; reflexivity).
    rewrite forallb_forall in S. specialize (S c Hc). cbn beta in S. rewrite E in S.
    destruct (digit_val c); [|discriminate].
    repeat split; try lia; try (f_equal; lia); destruct (is_space c); cbn in S; try reflexivity; lia. }
  destruct (D _ _ V1) as (A1 & B1 & C1 & N11 & N12 & N13 & N14).
  destruct (D _ _ W1) as (A2 & B2 & C2 & N21 & N22 & N23 & N24).
  destruct (D _ _ V2) as (A3 & B3 & C3 & _). destruct (D _ _ W2) as (A4 & B4 & C4 & _).
  unfold py_int. cbn [drop_space]. rewrite C1. cbn zeta.
  destruct (h1 =? 43) eqn:E; [lia|]. clear E. destruct (h1 =? 45) eqn:E; [lia|]. clear E.
  cbn [drop_space]. rewrite C1.
  destruct (l1 =? 120) eqn:E; [lia|]. clear E. destruct (l1 =? 88) eqn:E; [lia|]. clear E.
  cbn [orb]. rewrite andb_false_r. cbn [andb starts_digit].
  rewrite A1. destruct (a / 16 <? 16) eqn:E; [|lia]. cbn [parse_digits].
  rewrite A1, E. rewrite A2. destruct (a mod 16 <? 16) eqn:E2; [|lia].
  rewrite A3. destruct (b / 16 <? 16) eqn:E3; [|lia].
  rewrite A4. destruct (b mod 16 <? 16) eqn:E4; [|lia].
  cbn [drop_space]. f_equal. lia.
Qed.

Lemma ucs2_chars_be16 us : Forall unit16 us -> ucs2_chars (be16 us) = Ok us.
Proof.
  induction 1 as [|u us Hu _ IH]; cbn [be16 ucs2_chars]; [reflexivity|]. unfold unit16 in Hu.
  rewrite int_four by (unfold is_octet; lia). cbn [bind].
  unfold py_unichr. replace ((0 <=? 256 * (u / 256) + u mod 256) &&
    (256 * (u / 256) + u mod 256 <? 1114112)) with true by lia.
  cbn [bind]. rewrite IH. cbn [bind]. do 2 f_equal. lia.
Qed.

Lemma ucs2_chars_errors l e : Forall octet l -> ucs2_chars l = Err e -> e = IndexError.
Proof.
  revert e. pattern l. apply pairs_ind; clear l;
    [intros e _ H; discriminate|intros a e _ H; cbn in H; congruence|].
  intros a b l IH e Ho H. cbn [ucs2_chars] in H.
  pose proof (Forall_inv Ho) as Ha. pose proof (Forall_inv (Forall_inv_tail Ho)) as Hb.
  rewrite int_four in H by assumption. cbn [bind] in H.
  unfold py_unichr, octet in *.
  destruct ((0 <=? 256 * a + b) && (256 * a + b <? 1114112)) eqn:E; [|lia]. cbn [bind] in H.
  destruct (ucs2_chars l) as [x|e0] eqn:E2; cbn [bind] in H; [discriminate|].
  injection H as <-. apply (IH e0); [|reflexivity].
  exact (Forall_inv_tail (Forall_inv_tail Ho)).
Qed.

(** * Time stamps *)

Lemma calendar y m : 1969 <= y <= 2068 -> 1 <= m <= 12 ->
  days_in_month y m = month_length y m /\
  forall d hh mi ss, epoch_seconds y m d hh mi ss = civil_seconds y m d hh mi ss.
Proof.
  intros Hy Hm.
  pose proof (range_sweep 100 (fun k => forallb (fun j =>
     (days_in_month (1969 + k) (1 + j) =? month_length (1969 + k) (1 + j)) &&
     (days_before_year (1969 + k) + days_before_month (1969 + k) (1 + j) - 719163
      =? day_number (1969 + k) (1 + j) 0)) (zrange 12))
     ltac:(vm_compute; reflexivity) (y - 1969) ltac:(lia)) as S. cbn beta in S.
  rewrite forallb_forall in S. specialize (S (m - 1)).
  replace (1969 + (y - 1969)) with y in S by lia.
  replace (1 + (m - 1)) with m in S by lia.
  assert (In (m - 1) (zrange 12)) as I.
  { unfold zrange. apply in_map_iff. exists (Z.to_nat (m - 1)). split; [lia|]. apply in_seq. lia. }
  specialize (S I). apply andb_true_iff in S as [S1 S2]. split; [lia|].
  intros. unfold epoch_seconds, civil_seconds, day_number in *. lia.
Qed.

Lemma two_digits_bcd o : bcd o -> octet o ->
  two_digits (hexdigit (o mod 16)) (hexdigit (o / 16)) = Some (swapped_bcd o) /\
  hexdigit (o mod 16) = 48 + o mod 16 /\ hexdigit (o / 16) = 48 + o / 16.
Proof.
  unfold bcd, octet, two_digits, hexdigit, swapped_bcd. intros [A B] C.
  destruct (o mod 16 <? 10) eqn:E1; [|lia]. destruct (o / 16 <? 10) eqn:E2; [|lia].
  replace _ with true; [|symmetry; lia]. split; [f_equal; lia|lia].
Qed.

Lemma swap_hex_cons o r : is_octet o ->
  swap (encode_bytes (o :: r)) = hexdigit (o mod 16) :: hexdigit (o / 16) :: swap (encode_bytes r).
Proof.
  intros H. unfold encode_bytes. cbn [map concat]. rewrite hex02_octet by exact H. reflexivity.
Qed.

Lemma swapped_bcd_range o : bcd o -> octet o -> 0 <= swapped_bcd o <= 99.
Proof. unfold bcd, octet, swapped_bcd. lia. Qed.

Lemma strptime_stamp ts t : stamp ts t -> Forall octet ts ->
  strptime (swap (encode_bytes ts)) = Ok t /\
  date_str (swap (encode_bytes ts)) = stamp_text ts /\
  zlen ts = 6 /\ length (swap (encode_bytes ts)) = 12%nat.
Proof.
  intros (oy & om & od & oh & oi & os & -> & B & Hv & ->) Ho. cbn zeta in *.
  repeat (match goal with H : Forall octet (_ :: _) |- _ =>
    let A := fresh "O" in pose proof (Forall_inv H) as A; apply Forall_inv_tail in H end).
  repeat (match goal with H : Forall bcd (_ :: _) |- _ =>
    let A := fresh "B" in pose proof (Forall_inv H) as A; apply Forall_inv_tail in H end).
  rewrite !swap_hex_cons by assumption.
  change (swap (encode_bytes [])) with (@nil Z).
  repeat match goal with H : bcd ?o, H' : octet ?o |- _ =>
    let T := fresh "T" in let D := fresh "D" in let D' := fresh "D" in
    destruct (two_digits_bcd o H H') as (T & D & D');
    pose proof (swapped_bcd_range o H H'); clear H end.
  cbn [strptime]. rewrite T, T0, T1, T2, T3, T4. fold (full_year (swapped_bcd oy)).
  set (y := full_year (swapped_bcd oy)) in *. destruct Hv as (V1 & V2 & V3 & V4 & V5).
  destruct (calendar y (swapped_bcd om)) as [C1 C2]; [unfold y, full_year|assumption|].
  { match goal with |- context [if ?b then _ else _] => destruct b eqn:Eb end; lia. }
  rewrite C1, C2. split; [|split; [|split; reflexivity]].
  - replace (_ && _) with true; [reflexivity|]. symmetry. lia.
  - cbn [date_str stamp_text app]. congruence.
Qed.

Lemma tz_minutes_spec oz : octet oz -> tz_minutes oz = 15 * zone_quarters oz.
Proof.
  intros H.
  pose proof (octet_sweep (fun z => tz_minutes z =? 15 * zone_quarters z)
    ltac:(vm_compute; reflexivity) oz H) as S. cbn beta in S. lia.
Qed.

(** * Bits *)

Lemma type_bits ty : octet ty -> Z.land (Z.shiftr ty 4) 7 = type_of_number ty.
Proof.
  intros H. pose proof (octet_sweep (fun t => Z.land (Z.shiftr t 4) 7 =? type_of_number t)
    ltac:(vm_compute; reflexivity) ty H) as S. cbn beta in S. lia.
Qed.

Lemma udhi_bit fo : octet fo -> negb (Z.land fo 64 =? 0) = udhi fo.
Proof.
  intros H. pose proof (octet_sweep (fun t => Bool.eqb (negb (Z.land t 64 =? 0)) (udhi t))
    ltac:(vm_compute; reflexivity) fo H) as S. cbn beta in S. now apply Bool.eqb_prop.
Qed.

Lemma mti_bits fo : octet fo -> Z.land fo 3 = message_type fo.
Proof.
  intros H. pose proof (octet_sweep (fun t => Z.land t 3 =? message_type t)
    ltac:(vm_compute; reflexivity) fo H) as S. cbn beta in S. lia.
Qed.

Lemma fmt_scheme dcs : octet dcs -> common_scheme dcs -> alphabet dcs = Some (fmt_of_dcs dcs).
Proof.
  intros H C.
  pose proof (octet_sweep (fun d =>
    match alphabet d with
    | Some a => (a =? fmt_of_dcs d) || negb (((d <? 128) && negb (Z.odd (d / 32)) && negb ((d / 4) mod 4 =? 3))
                  || ((240 <=? d) && (d <? 248)))
    | None => Z.odd (d / 32)
    end) ltac:(vm_compute; reflexivity) dcs H) as S. cbn beta in S.
  unfold octet in H. destruct (alphabet dcs) eqn:E.
  - f_equal. unfold common_scheme in C. destruct (Z.odd (dcs / 32)) eqn:Eo; lia.
  - exfalso. unfold common_scheme in C. destruct C as [(_ & C & _)|C]; [congruence|].
    unfold alphabet in E. destruct (dcs <? 128) eqn:E1; [lia|].
    destruct (dcs <? 192); [discriminate|]. destruct (dcs <? 224); [discriminate|].
    destruct (dcs <? 240); discriminate.
Qed.

(** * User data *)

(** The header recorded on the object, if the PDU has one. *)
Definition header_view (hdr : option (list element)) (u : option udh) : Prop :=
  match hdr, u with
  | None, None => True
  | Some els, Some u => holds els u
  | _, _ => False
  end.

Lemma st_bind_eq {S A B} (m : ST S A) (f : A -> ST S B) s :
  st_bind m f s = match m s with (Ok a, s') => f a s' | (Err e, s') => (Err e, s') end.
Proof. reflexivity. Qed.

Lemma py_to_ext {A} (a b : list A) n : zlen a <= n ->
  py_to (a ++ b) n = a ++ firstn (Z.to_nat n - length a) b.
Proof.
  intros H. unfold py_to. rewrite firstn_app. f_equal. apply firstn_all2.
  unfold zlen in H. lia.
Qed.

Lemma Forall_firstn {A} (P : A -> Prop) n l : Forall P l -> Forall P (firstn n l).
Proof.
  intros H. rewrite <- (firstn_skipn n l) in H. now apply Forall_app in H as [H _].
Qed.

Lemma Forall_skipn {A} (P : A -> Prop) n l : Forall P l -> Forall P (skipn n l).
Proof.
  intros H. rewrite <- (firstn_skipn n l) in H. now apply Forall_app in H as [_ H].
Qed.

Lemma Forall_py_to {A} (P : A -> Prop) n l : Forall P l -> Forall P (py_to l n).
Proof. apply Forall_firstn. Qed.

Lemma Forall_py_from {A} (P : A -> Prop) n l : Forall P l -> Forall P (py_from l n).
Proof. apply Forall_skipn. Qed.

Lemma slice0 (l g : list Z) : firstn (length g) l = g -> py_slice l 0 (zlen g) = g.
Proof.
  intros H. unfold py_slice. rewrite Z.sub_0_r. unfold zlen. rewrite Nat2Z.id. exact H.
Qed.

Ltac start_ud := match goal with Hm : negb _ = _ |- _ =>
  cbn [pop0]; rewrite st_bind_eq; cbn [st_lift]; cbn zeta; rewrite Hm end.

Lemma process_ud mtype hdr coding text udl ud t :
  deliver_ud hdr coding text udl ud -> Forall octet ud -> Forall octet t ->
  coding = 0 \/ t = [] ->
  negb (Z.land mtype 64 =? 0) = match hdr with Some _ => true | None => false end ->
  exists u, header_view hdr u /\ forall o,
    process_message mtype coding (udl :: ud ++ t) o =
    (Ok tt, set_d_text (Some text)
              match u with Some u => set_d_udh (Some u) o | None => o end).
Proof.
  intros H Ho Ht Hc Hm. unfold process_message.
  destruct H as [coding text udl ud H|els text g ud hd hs Hok Hg Hl Hp
                |els text hd Hok Hx Hl|els text hd Hok Hx Hl].
  - exists None. split; [exact I|]. intros o. start_ud. rewrite st_bind_eq. cbn [st_ret].
    inversion H as [? g ? Hg Hl Hp| |]; subst.
    + pose proof (gsm_text_septets _ _ Hg) as Hs. fold (zlen g) in *.
      cbn [Z.eqb]. rewrite st_bind_eq. cbn [st_lift].
      assert (zlen ud <= zlen g) as Hle.
      { destruct Hp as (_ & Hpl & _). unfold octets_for in Hpl. unfold zlen. lia. }
      rewrite py_to_ext by exact Hle. rewrite unpack_msg_hex.
      2: { apply Forall_app. split; [assumption|]. now apply Forall_firstn. }
      rewrite (slice0 _ g), (gsm_decode_text _ _ Hg); [reflexivity|].
      apply unpack_trail; try assumption. now apply Forall_firstn.
    + destruct Hc as [?| ->]; [discriminate|]. rewrite app_nil_r. reflexivity.
    + destruct Hc as [?| ->]; [discriminate|]. rewrite app_nil_r. cbn [Z.eqb Pos.eqb].
      unfold py_from. cbn [Z.to_nat skipn]. rewrite st_bind_eq. cbn [st_lift].
      rewrite ucs2_chars_be16 by assumption. reflexivity.
  - pose proof (gsm_text_septets _ _ Hg) as Hs. pose proof (serial_octets _ Hok) as Hse.
    assert (zlen ud <= hs + zlen g) as Hle.
    { destruct Hp as (_ & Hpl & _). fold hs in Hpl. unfold octets_for in Hpl.
      assert (0 <= hs) as Hh0 by (unfold hs, header_septets; clear; lia).
      clearbody hs. clear - Hpl Hl Hh0. unfold zlen. lia. }
    assert (Forall octet hd) as Hhd.
    { constructor; [|exact Hse]. clear - Hl. subst hs hd. unfold header_septets in Hl.
      cbn [length] in Hl. unfold octet. lia. }
    destruct (packed_header_prefix _ _ _ Hhd Hp) as (r & Er).
    destruct (from_bytes_serial els Hok) as (u & Eu & Hu).
    exists (Some u). split; [exact Hu|]. intros o. start_ud.
    assert (unpack_msg (encode_bytes (py_to (ud ++ t) (hs + Z.of_nat (length g)))) =
            Ok (unpack_msg2 (ud ++ firstn (Z.to_nat (hs + zlen g) - length ud) t))) as Em.
    { rewrite py_to_ext by exact Hle. apply unpack_msg_hex. apply Forall_app.
      split; [assumption|]. now apply Forall_firstn. }
    rewrite Em. clear Em. rewrite Er at 1. unfold hd at 1. cbn [app pop0].
    rewrite !st_bind_eq. cbn [st_lift]. rewrite st_bind_eq. cbn [st_lift].
    rewrite <- app_assoc, py_to_app by reflexivity. rewrite Eu.
    rewrite st_bind_eq. cbn [assign st_upd st_ret].
    change (0 =? 0) with true. cbn iota. rewrite st_bind_eq. cbn [st_lift].
    rewrite st_bind_eq. cbn [st_lift].
    replace ((Z.of_nat (length (serial els)) + 1) * 8) with (8 * zlen hd)
      by (unfold hd, zlen; cbn [length]; clear; lia).
    rewrite round_up7_spec by apply zlen_nonneg.
    assert (py_slice (unpack_msg2 (ud ++ firstn (Z.to_nat (hs + zlen g) - length ud) t))
              (header_septets (zlen hd)) (hs + Z.of_nat (length g)) = g) as Es.
    { apply unpack_header_trail; try assumption. now apply Forall_firstn. }
    rewrite Es, (gsm_decode_text _ _ Hg). reflexivity.
  - destruct (from_bytes_serial els Hok) as (u & Eu & Hu).
    exists (Some u). split; [exact Hu|]. intros o. start_ud. destruct Hc as [?| ->]; [discriminate|].
    rewrite app_nil_r. unfold hd. cbn [app pop0].
    rewrite !st_bind_eq. cbn [st_lift]. rewrite st_bind_eq. cbn [st_lift].
    rewrite py_to_app by reflexivity. rewrite Eu.
    rewrite st_bind_eq. cbn [assign st_upd st_ret].
    change (4 =? 0) with false. change (4 =? 4) with true. cbn iota.
    rewrite py_from_app by reflexivity. reflexivity.
  - destruct (from_bytes_serial els Hok) as (u & Eu & Hu).
    exists (Some u). split; [exact Hu|]. intros o. start_ud. destruct Hc as [?| ->]; [discriminate|].
    rewrite app_nil_r. unfold hd. cbn [app pop0].
    rewrite !st_bind_eq. cbn [st_lift]. rewrite st_bind_eq. cbn [st_lift].
    rewrite py_to_app by reflexivity. rewrite Eu.
    rewrite st_bind_eq. cbn [assign st_upd st_ret].
    change (8 =? 0) with false. change (8 =? 4) with false. change (8 =? 8) with true. cbn iota.
    rewrite py_from_app by reflexivity. rewrite st_bind_eq. cbn [st_lift].
    rewrite ucs2_chars_be16 by assumption. reflexivity.
Qed.

(** * Addresses *)

Lemma addr_octets_spec n : 0 <= n -> addr_octets n = (n + 1) / 2.
Proof. intros H. unfold addr_octets. destruct (n mod 2 =? 0) eqn:E; cbn [negb]; lia. Qed.

Lemma semi_hex ds os : semi_octets ds os ->
  swap_number (encode_bytes os) = map (fun d => 48 + d) ds.
Proof.
  intros H. rewrite <- hex_of_encode by (eapply semi_octets_octet; eassumption).
  now apply swap_number_semi.
Qed.

Lemma sender_numeric ty ds os : semi_octets ds os -> type_of_number ty <> 5 ->
  sender_of (type_of_number ty) os = Ok (number_text ty ds) /\
  addr_octets (zlen ds) = zlen os.
Proof.
  intros H Ht. unfold sender_of. destruct (type_of_number ty =? 5) eqn:E; [lia|]. split.
  - rewrite (semi_hex _ _ H). unfold number_text. now destruct (type_of_number ty =? 1).
  - rewrite addr_octets_spec by apply zlen_nonneg.
    symmetry. now apply semi_octets_length.
Qed.

Lemma sender_alpha text g os : gsm_text text g -> packed g os ->
  zlen g <= 150 -> zlen g mod 8 <> 7 ->
  sender_of 5 os = Ok text /\ addr_octets ((7 * zlen g + 3) / 4) = zlen os.
Proof.
  intros Hg Hp Hl Hm. pose proof (gsm_text_septets _ _ Hg) as Hs.
  pose proof (unpack_packed g os Hs ltac:(lia) Hp) as F.
  destruct Hp as (Ho & Hpl & _). fold (zlen g) in Hpl. fold (zlen os) in Hpl.
  unfold octets_for in Hpl. pose proof (zlen_nonneg g). split.
  - unfold sender_of. cbn [Z.eqb Pos.eqb].
    assert (unpack_msg2 os = g) as ->; [|now apply gsm_decode_text].
    rewrite <- F. symmetry. apply firstn_all2.
    destruct (unpack_all_spec os Ho 0 0) as (_ & Hla & _); [lia|cbn; lia|].
    pose proof (unpack_loop_prefix os 0 0 0 ltac:(lia) ltac:(lia)) as Hpre.
    fold (unpack_msg2 os) in Hpre.
    change (Z.to_nat (160 - 0)) with 160%nat in Hpre.
    apply (f_equal (@length Z)) in Hpre. rewrite !firstn_length in Hpre.
    unfold zlen in *. lia.
  - rewrite addr_octets_spec by lia. lia.
Qed.

(** * The whole PDU *)

Lemma smsc_stage smsc sc r o : smsc_field smsc sc -> Forall octet sc ->
  decode_smsc (sc ++ r) o = (Ok r, set_d_csca (smsc_text smsc) o).
Proof.
  intros H Ho. unfold decode_smsc. destruct smsc as [[ty ds]|]; cbn [smsc_field] in H.
  - destruct H as (os & Hs & ->). cbn [app pop0]. rewrite st_bind_eq. cbn [st_lift].
    fold (zlen os). pose proof (zlen_nonneg os).
    destruct (0 <? 1 + zlen os) eqn:E; [|lia].
    rewrite st_bind_eq. cbn [st_lift pop0]. cbn zeta.
    rewrite py_to_app, py_from_app by lia. rewrite (semi_hex _ _ Hs).
    rewrite type_bits by exact (Forall_inv (Forall_inv_tail Ho)).
    cbn [smsc_text option_map]. unfold number_text.
    rewrite st_bind_eq. cbn [assign st_upd]. rewrite st_bind_eq.
    destruct (type_of_number ty =? 1); reflexivity.
  - subst sc. reflexivity.
Qed.

Lemma deliver_stage fo n ty os snd pid dcs ts oz t rest o :
  octet fo -> octet ty -> octet oz -> Forall octet ts ->
  addr_octets n = zlen os -> sender_of (type_of_number ty) os = Ok snd -> stamp ts t ->
  decode_deliver fo (n :: ty :: os ++ pid :: dcs :: ts ++ oz :: rest) o =
  process_message fo (fmt_of_dcs dcs) rest
    (set_d_date (Some (t - 900 * zone_quarters oz))
      (set_d_fmt (Some (fmt_of_dcs dcs)) (set_d_dcs (Some dcs) (set_d_pid (Some pid)
        (set_d_number (Some snd) o))))).
Proof.
  intros Of Ot Oz Ots Hn Hsnd Hts. unfold decode_deliver.
  destruct (strptime_stamp ts t Hts Ots) as (Sd & _ & Sl & _).
  rewrite st_bind_eq. cbn [st_lift pop0]. cbn zeta.
  rewrite st_bind_eq. cbn [st_lift pop0]. rewrite Hn, type_bits by assumption.
  rewrite py_to_app, py_from_app by reflexivity.
  rewrite st_bind_eq. cbn [st_lift]. rewrite Hsnd.
  do 6 (rewrite st_bind_eq; cbn [assign st_upd st_lift pop0]).
  rewrite py_to_app, py_from_app by (symmetry; exact Sl).
  rewrite st_bind_eq; cbn [st_lift pop0]. rewrite st_bind_eq; cbn [st_lift]. rewrite Sd.
  rewrite st_bind_eq; cbn [assign st_upd].
  rewrite tz_minutes_spec by assumption.
  replace (t - 15 * zone_quarters oz * 60) with (t - 900 * zone_quarters oz) by lia.
  reflexivity.
Qed.

Lemma set_pdu_deliver pdu o smsc sc fo n ty os snd pid dcs ts oz t hdr text udl ud tr :
  reads_hex pdu o ->
  o = deliver_octets sc fo (n :: ty :: os) pid dcs ts oz udl (ud ++ tr) ->
  smsc_field smsc sc -> message_type fo = 0 \/ message_type fo = 3 ->
  addr_octets n = zlen os -> sender_of (type_of_number ty) os = Ok snd ->
  stamp ts t -> deliver_ud hdr (fmt_of_dcs dcs) text udl ud ->
  fmt_of_dcs dcs = 0 \/ tr = [] ->
  udhi fo = match hdr with Some _ => true | None => false end ->
  exists u, header_view hdr u /\ forall st,
    set_pdu pdu st =
    (Ok tt, Deliver (d_strict st) (Some pdu)
       match u with Some u => Some u | None => d_udh st end (Some snd) (Some text)
       (Some (fmt_of_dcs dcs)) (Some dcs) (Some pid) (smsc_text smsc) (d_type st)
       (Some (t - 900 * zone_quarters oz)) (Some fo) (d_sr st)).
Proof.
  intros Hx Eo Hsc Hmt Hn Hsnd Hts Hud Htr Hhd.
  pose proof (reads_hex_octets _ _ Hx) as Ho. rewrite Eo in Ho. unfold deliver_octets in Ho.
  cbn [app] in Ho.
  repeat match goal with
  | H : Forall octet (_ ++ _) |- _ => apply Forall_app in H as [? H]
  | H : Forall octet (_ :: _) |- _ =>
      let A := fresh "O" in pose proof (Forall_inv H) as A; apply Forall_inv_tail in H
  end.
  pose proof (reads_hex_length _ _ Hx) as Hlen.
  destruct (process_ud fo hdr (fmt_of_dcs dcs) text udl ud tr Hud)
    as (u & Hu & Ep); try assumption.
  { now rewrite udhi_bit by assumption. }
  exists u. split; [exact Hu|]. intros st. unfold set_pdu.
  rewrite st_bind_eq. cbn [st_get].
  replace (negb (zlen pdu mod 2 =? 0)) with false by lia. rewrite andb_false_r. cbn zeta iota.
  replace (negb (zlen pdu mod 2 =? 0)) with false by lia. cbn iota.
  rewrite st_bind_eq. cbn [assign st_upd].
  rewrite st_bind_eq. cbn [st_lift]. rewrite (to_array_hex _ _ Hx), Eo. clear Hx Eo Hlen.
  unfold deliver_octets. cbn [app].
  rewrite st_bind_eq, (smsc_stage smsc sc) by assumption.
  rewrite st_bind_eq. cbn [st_lift pop0]. rewrite st_bind_eq. cbn [assign st_upd].
  rewrite mti_bits by assumption.
  destruct (message_type fo =? 2) eqn:E2; [lia|]. destruct (message_type fo =? 1) eqn:E1; [lia|].
  rewrite (deliver_stage fo n ty os snd pid dcs ts oz t) by assumption.
  change (set_d_date (Some (t - 900 * zone_quarters oz)) _) with
    (Deliver (d_strict st) (Some pdu) (d_udh st) (Some snd) (d_text st) (Some (fmt_of_dcs dcs)) (Some dcs) (Some pid)
       (smsc_text smsc) (d_type st) (Some (t - 900 * zone_quarters oz)) (Some fo) (d_sr st)).
  rewrite Ep. destruct u; reflexivity.
Qed.

(** * Status reports *)

(** What the status octet is reported as. *)
Definition status_name (st : Z) : list Z :=
  if st =? 0 then str "SR-OK" else if st =? 48 then str "SR-STORED" else str "SR-UNKNOWN".

Lemma report_date_stamp ts oz t : stamp ts t -> Forall octet ts -> octet oz ->
  report_date (ts ++ [oz]) = (stamp_text ts, Some t) /\ zlen ts = 6.
Proof.
  intros Hts Ho Oz. destruct (strptime_stamp ts t Hts Ho) as (Sd & St & Sl & Sn).
  split; [|exact Sl]. unfold report_date.
  assert (py_to (swap (encode_bytes (ts ++ [oz]))) 12 = swap (encode_bytes ts)) as ->.
  { destruct Hts as (oy & om & od & oh & oi & os & -> & _). cbn [app].
    repeat (match goal with H : Forall octet (_ :: _) |- _ =>
      let A := fresh "O" in pose proof (Forall_inv H) as A; apply Forall_inv_tail in H end).
    rewrite !swap_hex_cons by assumption. reflexivity. }
  rewrite Sd, St. reflexivity.
Qed.

Lemma set_pdu_report strict pdu o smsc sc fo mr ty ds os ts1 oz1 t1 ts2 oz2 t2 st more :
  reads_hex pdu o ->
  o = report_octets sc fo mr (zlen ds :: ty :: os) ts1 oz1 ts2 oz2 st more ->
  smsc_field smsc sc -> message_type fo = 2 -> semi_octets ds os ->
  stamp ts1 t1 -> stamp ts2 t2 ->
  new_deliver pdu strict =
  Ok (Deliver strict (Some pdu) (Some (from_status_report_ref mr)) (Some (status_name st))
        (Some (number_text ty ds ++ str "|" ++ stamp_text ts1 ++ str "|" ++
               (if st =? 0 then stamp_text ts2 else [])))
        (Some 8) None None (smsc_text smsc) (Some 3) (Some t1) (Some fo)
        (Some (SReport (number_text ty ds) (Some t1) (Some t2) (Some st)))).
Proof.
  intros Hx Eo Hsc Hmt Hos Hts1 Hts2.
  pose proof (reads_hex_octets _ _ Hx) as Ho. rewrite Eo in Ho. unfold report_octets in Ho.
  cbn [app] in Ho.
  repeat match goal with
  | H : Forall octet (_ ++ _) |- _ => apply Forall_app in H as [? H]
  | H : Forall octet (_ :: _) |- _ =>
      let A := fresh "O" in pose proof (Forall_inv H) as A; apply Forall_inv_tail in H
  end.
  pose proof (reads_hex_length _ _ Hx) as Hlen.
  destruct (report_date_stamp ts1 oz1 t1 Hts1) as (R1 & L1); try assumption.
  destruct (report_date_stamp ts2 oz2 t2 Hts2) as (R2 & L2); try assumption.
  unfold new_deliver, set_pdu.
  rewrite st_bind_eq. cbn [st_get].
  replace (negb (zlen pdu mod 2 =? 0)) with false by lia. rewrite andb_false_r. cbn zeta iota.
  replace (negb (zlen pdu mod 2 =? 0)) with false by lia. cbn iota.
  rewrite st_bind_eq. cbn [assign st_upd].
  rewrite st_bind_eq. cbn [st_lift]. rewrite (to_array_hex _ _ Hx), Eo. clear Hx Eo Hlen.
  unfold report_octets. cbn [app].
  rewrite st_bind_eq, (smsc_stage smsc sc) by assumption.
  rewrite st_bind_eq. cbn [st_lift pop0]. rewrite st_bind_eq. cbn [assign st_upd].
  rewrite mti_bits by assumption. rewrite Hmt. change (2 =? 2) with true. cbn iota.
  unfold decode_status_report_pdu.
  do 4 (rewrite st_bind_eq; cbn [assign st_upd st_lift pop0]; cbn zeta).
  rewrite addr_octets_spec by apply zlen_nonneg.
  rewrite <- (semi_octets_length _ _ Hos).
  rewrite py_to_app, py_from_app by reflexivity.
  rewrite (semi_hex _ _ Hos), type_bits by assumption.
  replace (ts1 ++ oz1 :: ts2 ++ oz2 :: st :: more)
    with ((ts1 ++ [oz1]) ++ (ts2 ++ [oz2]) ++ st :: more) by now rewrite <- !app_assoc.
  assert (zlen (ts1 ++ [oz1]) = 7) as M1 by (rewrite zlen_app, L1; reflexivity).
  assert (zlen (ts2 ++ [oz2]) = 7) as M2 by (rewrite zlen_app, L2; reflexivity).
  rewrite py_to_app, py_from_app by (symmetry; exact M1).
  rewrite R1. rewrite st_bind_eq. cbn [assign st_upd].
  rewrite py_to_app, py_from_app by (symmetry; exact M2). rewrite R2. cbn [pop0].
  do 5 (rewrite st_bind_eq; cbn [assign st_upd st_get]; cbn zeta).
  assert ((if type_of_number ty =? 1 then 43 :: map (fun d => 48 + d) ds
           else map (fun d => 48 + d) ds) = number_text ty ds) as ->.
  { unfold number_text. now destruct (type_of_number ty =? 1). }
  assert ((if st =? 0 then str "SR-OK" else if st =? 1 then str "SR-UNKNOWN"
           else if st =? 48 then str "SR-STORED" else str "SR-UNKNOWN") = status_name st) as ->.
  { unfold status_name. destruct (st =? 0); [reflexivity|].
    destruct (st =? 1) eqn:E1; [|reflexivity]. now destruct (st =? 48) eqn:E2; [lia|]. }
  reflexivity.
Qed.

(** * Failures *)

Definition clean_failure {A} (r : res A * deliver) : Prop :=
  forall e, fst r = Err e -> e = ValueError \/ e = IndexError \/ e = OverflowError.

Lemma py_int_error b s e : py_int b s = Err e -> e = ValueError.
Proof.
  unfold py_int. cbn zeta.
  destruct (match drop_space s with [] => _ | _ => _ end) as [sg s2].
  destruct (starts_digit b _); [|congruence].
  destruct (parse_digits b 0 _) as [v r]. destruct (drop_space r); congruence.
Qed.

Lemma mapM_error {A B} (f : A -> res B) (P : exn -> Prop) l e :
  (forall a e, f a = Err e -> P e) -> mapM f l = Err e -> P e.
Proof.
  intros Hf. induction l as [|a l IH]; cbn; [discriminate|].
  destruct (f a) eqn:E; cbn.
  - destruct (mapM f l); cbn; [discriminate|]. intros H. apply IH. congruence.
  - intros H. injection H as <-. eauto.
Qed.

Lemma to_array_result pdu :
  match to_array pdu with
  | Ok o => Forall octet o
  | Err e => e = ValueError \/ e = OverflowError
  end.
Proof.
  unfold to_array. destruct (mapM (py_int 16) (chunks2 pdu)) as [l|e] eqn:E; cbn [bind].
  - destruct (forallb _ l) eqn:Ef; [|auto].
    apply Forall_forall. intros x Hx. rewrite forallb_forall in Ef. specialize (Ef x Hx).
    unfold octet. lia.
  - left. apply (mapM_error _ (fun e => e = ValueError) _ _ (py_int_error 16) E).
Qed.

Lemma clean_bind {A B} (m : ST deliver A) (f : A -> ST deliver B) s :
  clean_failure (m s) ->
  (forall a s', m s = (Ok a, s') -> clean_failure (f a s')) ->
  clean_failure (st_bind m f s).
Proof.
  unfold clean_failure. intros Hm Hf. rewrite st_bind_eq.
  destruct (m s) as [[a|e0] s'] eqn:E; cbn in *; [intros; eauto|].
  intros e H. injection H as <-. auto.
Qed.

Lemma clean_pop (data : list Z) (s : deliver) : clean_failure (st_lift (pop0 data) s).
Proof. intros e. destruct data; cbn; intros H; [injection H as <-; auto|discriminate]. Qed.

Lemma clean_assign f s : clean_failure (assign f s).
Proof. intros e H. discriminate. Qed.

Lemma clean_ret {A} (a : A) s : clean_failure (st_ret a s).
Proof. intros e H. discriminate. Qed.

Lemma strptime_errors date e : length date = 12%nat -> strptime date = Err e -> e = ValueError.
Proof.
  intros Hl. do 13 (destruct date as [|? date]; try discriminate Hl). cbn [strptime].
  repeat match goal with |- context [two_digits ?a ?b] => destruct (two_digits a b) end;
    try congruence.
  cbn zeta. match goal with |- context [if ?b then _ else _] => destruct b end; try congruence.
Qed.

Lemma swap_length {A} (l : list A) : length (swap l) = length l.
Proof. induction l as [|a|a b l IH] using pairs_ind; cbn; congruence. Qed.

Lemma sender_total ty os : Forall octet os -> exists s, sender_of ty os = Ok s.
Proof.
  intros H. unfold sender_of. destruct (ty =? 5); [|eauto].
  apply gsm_decode_total. now apply unpack_msg2_septets.
Qed.

Ltac pop_step := apply clean_bind; [apply clean_pop|];
  let a := fresh "a" in let r := fresh "r" in let s := fresh "s" in let E := fresh "E" in
  intros [a r] s E; unfold st_lift in E;
  match type of E with (pop0 ?d, _) = _ => destruct d; cbn [pop0] in E; [discriminate|] end;
  injection E as <- <- <-;
  match goal with H : Forall octet (_ :: _) |- _ => apply Forall_inv_tail in H end.

Ltac assign_step := apply clean_bind; [apply clean_assign|intros _ ? _].

Lemma clean_process mtype fmt data s : Forall octet data ->
  clean_failure (process_message mtype fmt data s).
Proof.
  intros Ho. unfold process_message.
  apply clean_bind; [apply clean_pop|]. intros [msgl d] s1 E. cbn [st_lift] in E.
  destruct data as [|x data]; cbn [pop0] in E; [discriminate|]. injection E as <- <- <-.
  apply Forall_inv_tail in Ho. cbn zeta.
  apply clean_bind.
  - destruct (negb _); [|apply clean_ret]. pop_step.
    apply clean_bind; [|intros; apply clean_bind; [apply clean_assign|intros; apply clean_ret]].
    intros e H. cbn in H. apply from_bytes_errors in H. tauto.
  - intros [[headlen ud_len] d] s2 E.
    assert (Forall octet d) as Hd.
    { destruct (negb _) in E; [|injection E as <- <- <- <-; exact Ho].
      rewrite st_bind_eq in E. cbn [st_lift] in E. destruct data as [|y data]; [discriminate|].
      cbn [pop0] in E. apply Forall_inv_tail in Ho.
      rewrite st_bind_eq in E. cbn [st_lift] in E. destruct (from_bytes _); [|discriminate].
      rewrite st_bind_eq in E. cbn [assign st_upd st_ret] in E. injection E as _ _ <- _. exact Ho. }
    destruct (fmt =? 0); [|destruct (fmt =? 4); [apply clean_assign|
      destruct (fmt =? 8); [|apply clean_ret]]].
    + apply clean_bind.
      { intros e H. cbn in H. rewrite unpack_msg_hex in H by (now apply Forall_py_to). discriminate. }
      intros t s3 Et. cbn [st_lift] in Et. rewrite unpack_msg_hex in Et by (now apply Forall_py_to).
      injection Et as <- <-. apply clean_bind; [|intros; apply clean_assign].
      intros e H. cbn in H.
      destruct (gsm_decode_total (py_slice (unpack_msg2 (py_to data x)) headlen x)) as [u Eu];
        [|rewrite Eu in H; discriminate].
      unfold py_slice. apply Forall_firstn, Forall_skipn, unpack_msg2_septets.
      now apply Forall_py_to.
    + apply clean_bind; [|intros; apply clean_assign].
      intros e H. cbn in H. apply ucs2_chars_errors in H; [auto|]. now apply Forall_py_from.
Qed.

Lemma clean_status data s : Forall octet data ->
  clean_failure (decode_status_report_pdu data s).
Proof.
  intros Ho. unfold decode_status_report_pdu.
  pop_step. assign_step. pop_step. cbn zeta. pop_step.
  destruct (report_date _) as [s1 d1]. destruct (report_date _) as [s2 d2].
  apply clean_bind; [destruct d1; [apply clean_assign|apply clean_ret]|intros _ ? _].
  destruct (match pop0 _ with Ok _ => _ | Err _ => _ end) as [[a b] c].
  do 4 assign_step. apply clean_bind; [intros e H; discriminate|].
  intros; apply clean_assign.
Qed.

Lemma encode_bytes_length l : Forall octet l -> length (encode_bytes l) = (2 * length l)%nat.
Proof.
  intros H. unfold encode_bytes. pose proof (zlen_hex l H). unfold zlen in *. lia.
Qed.

Lemma clean_deliver mtype data s : Forall octet data ->
  clean_failure (decode_deliver mtype data s).
Proof.
  intros Ho. unfold decode_deliver.
  pop_step. cbn zeta. pop_step.
  match goal with |- context [sender_of ?t (py_to ?d ?n)] =>
    destruct (sender_total t (py_to d n)) as [snd Es]; [now apply Forall_py_to|];
    rewrite Es; set (rest := py_from d n);
    assert (Forall octet rest) as Hr by (now apply Forall_py_from); clearbody rest; clear Es end.
  apply clean_bind; [intros e H; discriminate|intros ? ? _]. assign_step.
  clear Ho. pop_step. assign_step. pop_step. assign_step. assign_step.
  match goal with |- clean_failure (st_bind (st_lift (pop0 (py_from ?r 6))) _ _) =>
    destruct (py_from r 6) as [|tz rest'] eqn:Er end;
    [intros e H; cbn in H; injection H as <-; auto|].
  apply clean_bind; [apply clean_pop|]. intros [? ?] ? E. cbn in E. injection E as <- <- <-.
  apply clean_bind.
  - intros e H. cbn [st_lift fst] in H. left. eapply strptime_errors; [|exact H].
    rewrite swap_length, encode_bytes_length by now apply Forall_py_to.
    unfold py_to. rewrite firstn_length.
    apply (f_equal (@length Z)) in Er. unfold py_from in Er. rewrite skipn_length in Er.
    cbn [length] in Er. lia.
  - intros t ? _. assign_step. apply clean_process.
    apply (Forall_inv_tail (a := tz)). rewrite <- Er. now apply Forall_py_from.
Qed.

Lemma new_deliver_failure pdu strict e : new_deliver pdu strict = Err e ->
  e = ValueError \/ e = IndexError \/ e = OverflowError.
Proof.
  unfold new_deliver. intros H. cut (clean_failure (set_pdu pdu (deliver0 strict))).
  { intros C. apply C. destruct (set_pdu pdu (deliver0 strict)) as [[]]; [discriminate|].
    cbn. congruence. }
  clear H. unfold set_pdu. rewrite st_bind_eq. cbn [st_get d_strict deliver0]. cbn zeta.
  set (p := if _ && _ then _ else _). clearbody p.
  destruct (negb _); [intros e0 H; cbn in H; injection H as <-; auto|].
  assign_step. pose proof (to_array_result p) as Ha.
  destruct (to_array p) as [o|e0].
  2: { intros e1 H. cbn in H. injection H as <-. tauto. }
  rewrite st_bind_eq. cbn [st_lift].
  assert (forall s, clean_failure (decode_smsc o s) /\
            forall a s', decode_smsc o s = (Ok a, s') -> Forall octet a) as Hs.
  { intros s. unfold decode_smsc. destruct o as [|k o].
    { split; [intros e1 H; cbn in H; injection H as <-; auto|intros a s1 H; discriminate]. }
    rewrite st_bind_eq. cbn [st_lift pop0]. apply Forall_inv_tail in Ha.
    destruct (0 <? k).
    - destruct o as [|ty o].
      { split; [intros e1 H; cbn in H; injection H as <-; auto|intros a s1 H; discriminate]. }
      rewrite st_bind_eq. cbn [st_lift pop0]. cbn zeta. apply Forall_inv_tail in Ha.
      rewrite st_bind_eq. cbn [assign st_upd]. rewrite st_bind_eq.
      destruct (_ =? 1); cbn [assign st_upd st_ret];
        (split; [intros e1 H; discriminate|intros a s1 H; injection H as <- <-; now apply Forall_py_from]).
    - rewrite st_bind_eq. cbn [assign st_upd st_ret].
      split; [intros e1 H; discriminate|intros a s1 H; injection H as <- <-; assumption]. }
  apply clean_bind; [apply Hs|]. intros d s2 Ed. apply Hs in Ed. pop_step. assign_step.
  destruct (_ =? 2); [now apply clean_status|].
  destruct (_ =? 1); [intros e1 H; cbn in H; injection H as <-; auto|].
  now apply clean_deliver.
Qed.

(** * Putting the fields together *)

(** What C30 says about the decoded object. *)
Definition decoded (d : deliver) pdu csca snd fo pid dcs coding date text hdr : Prop :=
  d_pdu d = Some pdu /\ d_csca d = csca /\ d_number d = Some snd /\ d_mtype d = Some fo /\
  d_pid d = Some pid /\ d_dcs d = Some dcs /\ d_fmt d = Some coding /\
  d_date d = Some date /\ d_text d = Some text /\ d_type d = None /\ d_sr d = None /\
  header_view hdr (d_udh d).

(** * Names whose septets leave seven bits of fill *)

Lemma sender_alpha_seven text g os : gsm_text text g -> packed g os ->
  zlen g <= 150 -> zlen g mod 8 = 7 ->
  sender_of 5 os = Ok (text ++ [64]) /\ addr_octets ((7 * zlen g + 3) / 4) = zlen os.
Proof.
  intros Hg Hp Hl Hm. pose proof (gsm_text_septets _ _ Hg) as Hs.
  assert (gsm_text (text ++ [64]) (g ++ [0])) as Hg'.
  { destruct Hg as (codes & F & ->). exists (codes ++ [[0]]). split.
    - apply Forall2_app; [exact F|]. constructor; [|constructor].
      apply (code_default 64 0); [reflexivity|unfold esc; discriminate].
    - now rewrite concat_app. }
  assert (packed (g ++ [0]) os) as Hp'.
  { destruct Hp as (Ho & Hpl & Hv). split; [exact Ho|]. split.
    - rewrite Hpl, app_length. unfold octets_for. cbn [length]. unfold zlen in Hm. lia.
    - rewrite Hv, le_value_app by lia. cbn [le_value]. lia. }
  assert (zlen (g ++ [0]) = zlen g + 1) as Hz by (rewrite zlen_app; reflexivity).
  destruct (sender_alpha _ _ _ Hg' Hp' ltac:(lia) ltac:(lia)) as [S1 S2].
  split; [exact S1|]. rewrite <- S2, Hz, !addr_octets_spec by (pose proof (zlen_nonneg g); lia).
  lia.
Qed.

Lemma sender_parts snd oa : shown_as snd oa ->
  exists n ty os, oa = n :: ty :: os /\ addr_octets n = zlen os /\
    sender_of (type_of_number ty) os = Ok snd.
Proof.
  intros [Hsf|(name & g & Hsf & Hg & Hl & ->)].
  - inversion Hsf as [ty ds f Ht (os & Hos & ->)|]; subst.
    destruct (sender_numeric ty ds os Hos Ht) as [S1 S2].
    exists (zlen ds), ty, os. auto.
  - inversion Hsf as [|ty x f (Ht & g' & os & Hg' & Hp & Ef)]; subst x f.
    assert (g' = g) as -> by (apply (encode_unicode name) in Hg; apply (encode_unicode name) in Hg'; congruence).
    fold (zlen g) in *. exists ((7 * zlen g + 3) / 4), ty, os. split; [exact Ef|]. rewrite Ht.
    destruct (zlen g mod 8 =? 7) eqn:E7.
    + destruct (sender_alpha_seven name g os Hg Hp Hl ltac:(lia)) as [S1 S2]. auto.
    + rewrite app_nil_r. destruct (sender_alpha name g os Hg Hp Hl ltac:(lia)) as [S1 S2]. auto.
Qed.

Lemma sender_shown name snd oa : sender_field name snd oa ->
  (name = true -> Z.of_nat (length oa) <= 12) -> exists x, shown_as x oa.
Proof.
  intros H Hl. destruct name; [|exists snd; left; exact H].
  inversion H as [|ty x f (Ht & g & os & Hg & Hp & Ef)]; subst x f.
  eexists. right. exists snd, g. split; [exact H|]. split; [exact Hg|]. split; [|reflexivity].
  specialize (Hl eq_refl). rewrite Ef in Hl. cbn [length] in Hl.
  destruct Hp as (_ & Hp & _). unfold octets_for in Hp. unfold zlen in *. lia.
Qed.

Lemma deliver_sender st pdu o strict smsc sc fo snd oa pid dcs coding ts t oz hdr text udl ud tr :
  st = deliver0 strict ->
  reads_hex pdu o -> smsc_field smsc sc -> message_type fo = 0 ->
  shown_as snd oa -> common_scheme dcs -> alphabet dcs = Some coding -> stamp ts t ->
  deliver_ud hdr coding text udl ud -> coding = 0 \/ tr = [] ->
  udhi fo = match hdr with Some _ => true | None => false end ->
  o = deliver_octets sc fo oa pid dcs ts oz udl (ud ++ tr) ->
  exists d, new_deliver pdu strict = Ok d /\
    decoded d pdu (smsc_text smsc) snd fo pid dcs coding (t - 900 * zone_quarters oz) text hdr.
Proof.
  intros Est Hx Hsc Hmt Hsf Hcs Ha Hts Hud Htr Hhd Eo.
  pose proof (reads_hex_octets _ _ Hx) as Ho. rewrite Eo in Ho. unfold deliver_octets in Ho.
  repeat match goal with
  | H : Forall octet (_ ++ _) |- _ => apply Forall_app in H as [? H]
  end.
  assert (octet dcs) as Od.
  { match goal with H : Forall octet [pid; dcs] |- _ => exact (Forall_inv (Forall_inv_tail H)) end. }
  pose proof (fmt_scheme dcs Od Hcs) as Hf. rewrite Ha in Hf. injection Hf as ->.
  destruct (sender_parts _ _ Hsf) as (n & ty & os & -> & Hn & Hs).
  destruct (set_pdu_deliver pdu o smsc sc fo n ty os snd pid dcs ts oz t hdr text
              udl ud tr Hx Eo Hsc (or_introl Hmt) Hn Hs Hts Hud Htr Hhd) as (u & Hu & E).
  unfold new_deliver. rewrite E. eexists. split; [reflexivity|].
  unfold decoded. cbn. repeat split. destruct u; exact Hu.
Qed.

Lemma deliver_view coding hdr text udl ud o pdu strict :
  delivers coding (match hdr with Some _ => true | None => false end) udl ud o ->
  deliver_ud hdr coding text udl ud -> reads_hex pdu o ->
  exists d, new_deliver pdu strict = Ok d /\ d_text d = Some text /\
    header_view hdr (d_udh d).
Proof.
  intros (smsc & sc & fo & name & s0 & oa & pid & dcs & ts & t & oz & H1 & H2 & H3 & H0 & Hl & H5 & H6 & H7 & Eo)
    Hud Hx. destruct (sender_shown _ _ _ H0 Hl) as (snd & H4).
  destruct (deliver_sender _ pdu o strict smsc sc fo snd oa pid dcs coding ts t oz hdr text udl ud []
    eq_refl Hx) as (d & Ed & D); try assumption; try discriminate.
  - now right.
  - now rewrite app_nil_r.
  - exists d. split; [exact Ed|]. unfold decoded in D. tauto.
Qed.

Lemma part_deliver_ud coding ref total i part text udl ud :
  part_ud coding ref total i part udl ud -> octet ref -> octet total -> octet i ->
  (if coding =? 0 then gsm_text text part else text = part) ->
  deliver_ud (Some [(0, [ref; total; i])]) coding text udl ud.
Proof.
  intros H Hr Ht Hi Htx.
  assert (Forall element_ok [(0, [ref; total; i])]) as Hok.
  { constructor; [|constructor]. cbn. unfold octet in *. repeat split; try lia.
    repeat constructor; lia. }
  destruct H as [ref total i part ud Hs Hl Hp|ref total i part Hs Hl|ref total i part Hs Hl];
    cbn [Z.eqb] in Htx.
  - pose proof (dud_gsm [(0, [ref; total; i])] text part ud Hok Htx) as D. cbn zeta in D.
    change (header_septets (Z.of_nat (length (Z.of_nat (length (serial [(0, [ref; total; i])]))
      :: serial [(0, [ref; total; i])])))) with 7 in D.
    apply D; [lia|exact Hp].
  - subst text. pose proof (dud_8bit [(0, [ref; total; i])] part Hok Hs) as D. cbn zeta in D.
    replace (6 + Z.of_nat (length part)) with
      (Z.of_nat (length ((Z.of_nat (length (serial [(0, [ref; total; i])]))
         :: serial [(0, [ref; total; i])]) ++ part))) by (rewrite app_length; cbn [serial app length]; lia).
    apply D. rewrite app_length. cbn [serial app length]. lia.
  - subst text. pose proof (dud_ucs2 [(0, [ref; total; i])] part Hok Hs) as D. cbn zeta in D.
    pose proof (be16_length part) as Hb. unfold zlen in Hb.
    replace (6 + 2 * Z.of_nat (length part)) with
      (Z.of_nat (length ((Z.of_nat (length (serial [(0, [ref; total; i])]))
         :: serial [(0, [ref; total; i])]) ++ be16 part))) by (rewrite app_length; cbn [serial app length]; lia).
    apply D. rewrite app_length. cbn [serial app length]. lia.
Qed.

Lemma concat_data_view ref total i d :
  header_view (Some [(0, [ref; total; i])]) (d_udh d) -> concat_data d = Some (ref, total, i).
Proof.
  unfold header_view, concat_data. destruct (d_udh d) as [u|]; [|contradiction].
  intros (H & _). unfold concat_view, concatenation in H. cbn in H.
  destruct (h_concat u); cbn in H; [congruence|discriminate].
Qed.

(** * Odd lengths *)

Lemma set_pdu_odd_strict pdu : zlen pdu mod 2 = 1 -> new_deliver pdu true = Err ValueError.
Proof.
  intros H. unfold new_deliver, set_pdu. rewrite st_bind_eq. cbn [st_get d_strict deliver0 negb andb].
  cbn zeta. destruct (zlen pdu mod 2 =? 0) eqn:E; [lia|]. reflexivity.
Qed.

Lemma set_pdu_odd_lax p c : zlen (p ++ [c]) mod 2 = 1 ->
  forall st, d_strict st = false -> set_pdu (p ++ [c]) st = set_pdu p st.
Proof.
  intros H st Hst. unfold set_pdu. rewrite !st_bind_eq. cbn [st_get]. rewrite Hst.
  cbn [negb andb]. cbn zeta. destruct (zlen (p ++ [c]) mod 2 =? 0) eqn:E; [lia|].
  cbn [negb]. rewrite removelast_last.
  rewrite zlen_app in H. change (zlen [c]) with 1 in H.
  destruct (zlen p mod 2 =? 0) eqn:E2; [|lia]. cbn [negb]. rewrite E2. reflexivity.
Qed.

(** * The coding on the object follows the data coding scheme *)

(** The stage leaves scheme and coding alone. *)
Definition keeps_scheme {A} (m : ST deliver A) : Prop :=
  forall s, d_dcs (snd (m s)) = d_dcs s /\ d_fmt (snd (m s)) = d_fmt s.

Lemma keeps_bind {A B} (m : ST deliver A) (f : A -> ST deliver B) :
  keeps_scheme m -> (forall a, keeps_scheme (f a)) -> keeps_scheme (st_bind m f).
Proof.
  intros Hm Hf s. unfold st_bind. specialize (Hm s). destruct (m s) as [[a|e] s1]; cbn [snd] in *.
  - destruct (Hf a s1) as [-> ->]. exact Hm.
  - exact Hm.
Qed.
Lemma keeps_lift {A} (r : res A) : keeps_scheme (st_lift r).
Proof. intros s. unfold st_lift. destruct r; cbn; auto. Qed.
Lemma keeps_ret {A} (a : A) : keeps_scheme (st_ret a).
Proof. intros s. cbn. auto. Qed.

Lemma keeps_process mtype fmt data : keeps_scheme (process_message mtype fmt data).
Proof.
  unfold process_message. apply keeps_bind; [apply keeps_lift|]. intros [msgl d].
  apply keeps_bind.
  - destruct (negb _); [|apply keeps_ret].
    apply keeps_bind; [apply keeps_lift|]. intros [u d']. apply keeps_bind; [apply keeps_lift|].
    intros h. apply keeps_bind; [intros s; cbn; auto|]. intros _. apply keeps_ret.
  - intros [[h u] d']. destruct (fmt =? 0); [|destruct (fmt =? 4); [|destruct (fmt =? 8)]].
    + apply keeps_bind; [apply keeps_lift|]. intros t. apply keeps_bind; [apply keeps_lift|].
      intros t'. intros s. cbn. auto.
    + intros s. cbn. auto.
    + apply keeps_bind; [apply keeps_lift|]. intros t'. intros s. cbn. auto.
    + apply keeps_ret.
Qed.

Definition scheme_read (s : deliver) : Prop :=
  d_dcs s = None \/ exists dcs, octet dcs /\ d_dcs s = Some dcs /\ d_fmt s = Some (fmt_of_dcs dcs).

Lemma st_bind_ok {S A B} (m : ST S A) (f : A -> ST S B) s b s' :
  st_bind m f s = (Ok b, s') -> exists a s1, m s = (Ok a, s1) /\ f a s1 = (Ok b, s').
Proof. unfold st_bind. destruct (m s) as [[a|e] s1]; [eauto|discriminate]. Qed.

Lemma st_lift_ok {S A} (r : res A) (s s' : S) a : st_lift r s = (Ok a, s') -> r = Ok a /\ s' = s.
Proof. unfold st_lift. destruct r; cbn; intros [= <- <-]; auto. Qed.

Lemma pop0_octets data x r : pop0 data = Ok (x, r) -> Forall octet data -> octet x /\ Forall octet r.
Proof.
  destruct data as [|y l]; [discriminate|]. intros [= <- <-] H.
  split; [exact (Forall_inv H)|exact (Forall_inv_tail H)].
Qed.

Lemma deliver_scheme mtype data s s' : Forall octet data ->
  decode_deliver mtype data s = (Ok tt, s') -> scheme_read s'.
Proof.
  intros Hd H. right. unfold decode_deliver in H.
  apply st_bind_ok in H. destruct H as ([n d1] & s1 & H1 & H).
  apply st_lift_ok in H1. destruct H1 as [H1 ->].
  apply pop0_octets in H1; [|assumption]. destruct H1 as [_ Hd1].
  apply st_bind_ok in H. destruct H as ([t d2] & s2 & H2 & H).
  apply st_lift_ok in H2. destruct H2 as [H2 ->].
  apply pop0_octets in H2; [|assumption]. destruct H2 as [_ Hd2].
  apply st_bind_ok in H. destruct H as (snd0 & s3 & _ & H).
  apply st_bind_ok in H. destruct H as ([] & s4 & _ & H).
  cbv zeta in H.
  apply st_bind_ok in H. destruct H as ([pid d3] & s5 & H3 & H).
  apply st_lift_ok in H3. destruct H3 as [H3 ->].
  apply pop0_octets in H3; [|now apply Forall_py_from]. destruct H3 as [_ Hd3].
  apply st_bind_ok in H. destruct H as ([] & s6 & _ & H).
  apply st_bind_ok in H. destruct H as ([dcs d4] & s7 & H4 & H).
  apply st_lift_ok in H4. destruct H4 as [H4 ->].
  apply pop0_octets in H4; [|assumption]. destruct H4 as [Ho _].
  apply st_bind_ok in H. destruct H as ([] & s8 & H8 & H).
  apply st_bind_ok in H. destruct H as ([] & s9 & H9 & H).
  apply st_bind_ok in H. destruct H as ([tz d5] & s10 & H10 & H).
  apply st_lift_ok in H10. destruct H10 as [_ ->].
  apply st_bind_ok in H. destruct H as (loc & s11 & H11 & H).
  apply st_lift_ok in H11. destruct H11 as [_ ->].
  apply st_bind_ok in H. destruct H as ([] & s12 & H12 & H).
  injection H8 as <-. injection H9 as <-. injection H12 as <-.
  destruct (keeps_process mtype (fmt_of_dcs dcs) d5
              (set_d_date (Some (loc - tz_minutes tz * 60))
                 (set_d_fmt (Some (fmt_of_dcs dcs)) (set_d_dcs (Some dcs) s6)))) as [K1 K2].
  rewrite H in K1, K2. cbn [snd] in K1, K2. exists dcs. split; [assumption|].
  split; [exact K1|exact K2].
Qed.

(** The stage leaves the scheme alone. *)
Definition keeps_dcs {A} (m : ST deliver A) : Prop := forall s, d_dcs (snd (m s)) = d_dcs s.

Lemma keeps_dcs_bind {A B} (m : ST deliver A) (f : A -> ST deliver B) :
  keeps_dcs m -> (forall a, keeps_dcs (f a)) -> keeps_dcs (st_bind m f).
Proof.
  intros Hm Hf s. unfold st_bind. specialize (Hm s). destruct (m s) as [[a|e] s1]; cbn [snd] in *.
  - now rewrite (Hf a s1).
  - exact Hm.
Qed.
Lemma keeps_dcs_lift {A} (r : res A) : keeps_dcs (st_lift r).
Proof. intros s. unfold st_lift. destruct r; reflexivity. Qed.

Lemma status_scheme data : keeps_dcs (decode_status_report_pdu data).
Proof.
  unfold decode_status_report_pdu.
  repeat first
    [ apply keeps_dcs_bind; [apply keeps_dcs_lift|]; intros [? ?]
    | apply keeps_dcs_bind; [intros s; reflexivity|]; intros []
    | destruct (report_date _) as [? [?|]]
    | match goal with |- context [pop0 ?d] => destruct (pop0 d) as [[? ?]|?] end
    | progress cbv zeta
    | intros s; reflexivity ].
Qed.

Lemma smsc_scheme data s : d_dcs (snd (decode_smsc data s)) = d_dcs s.
Proof.
  revert s. change (keeps_dcs (decode_smsc data)). unfold decode_smsc.
  apply keeps_dcs_bind; [apply keeps_dcs_lift|]. intros [n d]. destruct (0 <? n).
  - apply keeps_dcs_bind; [apply keeps_dcs_lift|]. intros [ty d']. cbv zeta.
    apply keeps_dcs_bind; [intros s; reflexivity|]. intros [].
    apply keeps_dcs_bind; [|intros [] s; reflexivity].
    destruct (_ =? _); intros s; reflexivity.
  - intros s. reflexivity.
Qed.

Lemma smsc_octets data s d s' : decode_smsc data s = (Ok d, s') -> Forall octet data -> Forall octet d.
Proof.
  intros H Ho. unfold decode_smsc in H.
  apply st_bind_ok in H. destruct H as ([n d1] & s1 & H1 & H).
  apply st_lift_ok in H1. destruct H1 as [H1 ->]. apply pop0_octets in H1; [|assumption].
  destruct H1 as [_ H1]. destruct (0 <? n).
  - apply st_bind_ok in H. destruct H as ([ty d2] & s2 & H2 & H).
    apply st_lift_ok in H2. destruct H2 as [H2 ->]. apply pop0_octets in H2; [|assumption].
    destruct H2 as [_ H2]. cbv zeta in H.
    apply st_bind_ok in H. destruct H as ([] & s3 & _ & H).
    apply st_bind_ok in H. destruct H as ([] & s4 & _ & H).
    injection H as <- _. now apply Forall_py_from.
  - apply st_bind_ok in H. destruct H as ([] & s3 & _ & H). injection H as <- _. assumption.
Qed.

Lemma new_deliver_scheme pdu strict d dcs :
  new_deliver pdu strict = Ok d -> d_dcs d = Some dcs ->
  octet dcs /\ d_fmt d = Some (fmt_of_dcs dcs).
Proof.
  intros H Hd. cut (scheme_read d).
  { intros [E|(x & Hx & E & F)]; [congruence|]. rewrite E in Hd. injection Hd as ->. auto. }
  unfold new_deliver in H. destruct (set_pdu pdu (deliver0 strict)) as [[[]|e] o] eqn:E; [|discriminate].
  injection H as ->. unfold set_pdu in E.
  apply st_bind_ok in E. destruct E as (o0 & s0 & E0 & E). injection E0 as <- <-. cbv zeta in E.
  set (p := if negb (d_strict (deliver0 strict)) && negb (zlen pdu mod 2 =? 0)
            then removelast pdu else pdu) in *.
  destruct (negb (zlen p mod 2 =? 0)); [discriminate|].
  apply st_bind_ok in E. destruct E as ([] & s1 & E1 & E). injection E1 as <-.
  apply st_bind_ok in E. destruct E as (data & s2 & E2 & E).
  apply st_lift_ok in E2. destruct E2 as [E2 ->].
  pose proof (to_array_result p) as Ho. rewrite E2 in Ho.
  apply st_bind_ok in E. destruct E as (d1 & s3 & E3 & E).
  pose proof (smsc_scheme data (set_d_pdu (Some p) (deliver0 strict))) as K. rewrite E3 in K.
  pose proof (smsc_octets _ _ _ _ E3 Ho) as Ho1. cbn [snd] in K.
  apply st_bind_ok in E. destruct E as ([mt d2] & s4 & E4 & E).
  apply st_lift_ok in E4. destruct E4 as [E4 ->]. apply pop0_octets in E4; [|assumption].
  destruct E4 as [_ Ho2]. apply st_bind_ok in E. destruct E as ([] & s5 & E5 & E).
  injection E5 as <-. cbv zeta in E.
  destruct (Z.land mt 3 =? 2); [|destruct (Z.land mt 3 =? 1); [discriminate|]].
  - left. pose proof (status_scheme d2 (set_d_mtype (Some mt) s3)) as K2. rewrite E in K2.
    cbn [snd] in K2. rewrite K2. exact K.
  - exact (deliver_scheme _ _ _ _ Ho2 E).
Qed.

Lemma fmt_exact dcs : octet dcs ->
  (Some (fmt_of_dcs dcs) = alphabet dcs <->
   common_scheme dcs \/ (128 <= dcs < 224 /\ (dcs / 4) mod 4 = 0)
   \/ (224 <= dcs < 240 /\ (dcs / 4) mod 4 = 2) \/ 252 <= dcs < 256).
Proof.
  intros H.
  pose proof (octet_sweep (fun d =>
    Bool.eqb
      (match alphabet d with Some a => fmt_of_dcs d =? a | None => false end)
      (((0 <=? d) && (d <? 128) && negb (Z.odd (d / 32)) && negb ((d / 4) mod 4 =? 3))
       || ((240 <=? d) && (d <? 248))
       || ((128 <=? d) && (d <? 224) && ((d / 4) mod 4 =? 0))
       || ((224 <=? d) && (d <? 240) && ((d / 4) mod 4 =? 2)) || (252 <=? d) && (d <? 256)))
    ltac:(vm_compute; reflexivity) dcs H) as S. cbn beta in S.
  apply Bool.eqb_prop in S. unfold common_scheme. set (q := (dcs / 4) mod 4) in *.
  destruct (Z.odd (dcs / 32)); destruct (alphabet dcs) as [a|]; split; intros G.
  all: try (injection G as G).
  all: try discriminate.
  all: try (f_equal).
  all: lia.
Qed.

Lemma scheme_exact pdu strict d dcs :
  new_deliver pdu strict = Ok d -> d_dcs d = Some dcs ->
  (d_fmt d = alphabet dcs <->
   common_scheme dcs \/ (128 <= dcs < 224 /\ (dcs / 4) mod 4 = 0)
   \/ (224 <= dcs < 240 /\ (dcs / 4) mod 4 = 2) \/ 252 <= dcs < 256).
Proof.
  intros H Hd. destruct (new_deliver_scheme _ _ _ _ H Hd) as [Ho ->]. now apply fmt_exact.
Qed.
