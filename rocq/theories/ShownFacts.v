(** Proofs about what [SmsDeliver] shows of any string it accepts (C122). *)
From Coq Require Import Lia ZifyBool ZifyNat.
From Verif Require Import Py PyFacts SpecGsm SpecPack SpecAddress SpecTime SpecSubmit SpecDeliver SpecUdh
  Gsm GsmFacts Utils PackFacts Udh UdhFacts Deliver DeliverFacts DeliverCutFacts SpecUnread UnreadFacts
  SpecShown ShownClaims PropGsm PropUdh.
Open Scope Z_scope.
Ltac Zify.zify_post_hook ::= Z.div_mod_to_equations.

(** * Septets *)

Lemma unpack_loop_phase l : forall j last, 0 <= j <= 140 ->
  unpack_loop l (j mod 7) last (j + j / 7) = firstn (Z.to_nat (161 - (j + j / 7))) (unpack_all l (j mod 7) last).
Proof.
  induction l as [|b l IH]; intros j last Hj; [now rewrite firstn_nil|].
  cbn [unpack_loop unpack_all].
  set (out := Z.shiftl (Z.land b (Z.shiftr 127 (j mod 7))) (j mod 7) + last).
  destruct (Z.eq_dec j 140) as [->|N].
  { change (Z.to_nat (161 - (140 + 140 / 7))) with 1%nat. change (140 mod 7 =? 6) with false.
    change (160 <=? 140 + 140 / 7 + 1) with true. reflexivity. }
  replace (160 <=? j + j / 7 + 1) with false by lia.
  destruct (j mod 7 =? 6) eqn:E6.
  - replace ((j mod 7 + 1) mod 7) with ((j + 1) mod 7) by lia.
    replace (j + j / 7 + 2) with (j + 1 + (j + 1) / 7) by lia. rewrite IH by lia.
    replace (Z.to_nat (161 - (j + j / 7))) with (S (S (Z.to_nat (161 - (j + 1 + (j + 1) / 7))))) by lia.
    replace ((j + 1) mod 7) with 0 by lia. reflexivity.
  - replace ((j mod 7 + 1) mod 7) with ((j + 1) mod 7) by lia.
    replace (j + j / 7 + 1) with (j + 1 + (j + 1) / 7) by lia. rewrite IH by lia.
    replace (Z.to_nat (161 - (j + j / 7))) with (S (Z.to_nat (161 - (j + 1 + (j + 1) / 7)))) by lia.
    replace ((j + 1) mod 7) with (j mod 7 + 1) by lia. reflexivity.
Qed.

Lemma digits_firstn s : Forall septet s -> forall R k, (k <= length s)%nat ->
  map (fun i => ((le_value 128 s + 128 ^ zlen s * R) / 128 ^ Z.of_nat i) mod 128) (seq 0 k) = firstn k s.
Proof.
  induction 1 as [|a s Ha _ IH]; intros R k Hk.
  - cbn in Hk. replace k with O by lia. reflexivity.
  - destruct k as [|k]; [reflexivity|]. cbn [seq map firstn]. unfold septet in Ha.
    pose proof (zlen_nonneg s) as L. rewrite zlen_cons.
    assert (V : le_value 128 (a :: s) + 128 ^ (1 + zlen s) * R = a + (le_value 128 s + 128 ^ zlen s * R) * 128).
    { cbn [le_value]. rewrite Z.pow_add_r by lia. change (128 ^ 1) with 128. ring. }
    rewrite V. f_equal.
    + change (128 ^ Z.of_nat 0) with 1. rewrite Z.div_1_r, Z.mod_add by lia. apply Z.mod_small. lia.
    + rewrite <- (IH R k) by (cbn in Hk; lia). rewrite <- seq_shift, map_map. apply map_ext. intros i.
      f_equal. replace (Z.of_nat (S i)) with (Z.succ (Z.of_nat i)) by lia.
      rewrite Z.pow_succ_r by lia. rewrite <- Z.div_div by (try apply Z.pow_pos_nonneg; lia).
      rewrite Z.div_add by lia. rewrite (Z.div_small a) by lia. reflexivity.
Qed.

Lemma septets_unpacked os : Forall octet os -> unpack_msg2 os = septets_in os.
Proof.
  intros Ho. unfold unpack_msg2, septets_in.
  pose proof (unpack_loop_phase os 0 0 ltac:(lia)) as H. change (0 mod 7) with 0 in H. change (0 + 0 / 7) with 0 in H.
  change (Z.to_nat (161 - 0)) with 161%nat in H. rewrite H. clear H.
  destruct (unpack_all_spec os Ho 0 0) as (Ha & Hla & R & HR); [lia|cbn; lia|].
  rewrite Z.pow_0_r, Z.mul_1_l, Z.add_0_l in HR. rewrite HR.
  assert (L : length (unpack_all os 0 0) = (8 * length os / 7)%nat).
  { pose proof (zlen_nonneg os). unfold zlen in *.
    rewrite <- (Nat2Z.id (8 * length os / 7)), Nat2Z.inj_div, Nat2Z.inj_mul. lia. }
  rewrite digits_firstn by (try assumption; lia). rewrite <- L.
  destruct (Nat.min_dec (length (unpack_all os 0 0)) 161) as [E|E]; rewrite E; [|reflexivity].
  rewrite firstn_all. apply firstn_all2. lia.
Qed.

Lemma gsm_decode_reads l u : gsm_decode l = Ok u -> reads None l u.
Proof.
  unfold gsm_decode. destruct (decode l Strict) as [[us n]|e] eqn:E; [|discriminate]. cbn [bind fst].
  intros X. injection X as ->. apply C69_decode_strict. rewrite E.
  unfold decode in E. destruct (decode_loop Strict l); [|discriminate]. cbn [bind] in E. injection E as -> <-. reflexivity.
Qed.

(** * Addresses *)

Lemma swap_number_shown os : Forall octet os ->
  swap_number (encode_bytes os) = map hex_digit (exchanged (filter (fun h => negb (h =? 15)) (halves os))).
Proof.
  intros Ho. unfold swap_number.
  assert (F : filter (fun c => negb (c =? 102)) (encode_bytes os) =
              map hex_digit (filter (fun h => negb (h =? 15)) (halves os))).
  { rewrite <- hex_of_encode by exact Ho. induction Ho as [|o r H _ IH]; [reflexivity|].
    cbn [hex_of halves filter]. unfold octet in H.
    assert (X : forall h, 0 <= h < 16 -> (hex_digit h =? 102) = (h =? 15)).
    { intros h Hh. unfold hex_digit. destruct (h <? 10) eqn:E; lia. }
    rewrite !X by lia. destruct (o / 16 =? 15), (o mod 16 =? 15); cbn [negb map]; rewrite IH; reflexivity. }
  rewrite F. generalize (filter (fun h => negb (h =? 15)) (halves os)) as l. clear.
  enough (G : forall n (l : list Z), (length l <= n)%nat -> swap (map hex_digit l) = map hex_digit (exchanged l))
    by (intros; eapply G; eauto).
  induction n as [|n IH]; intros [|a [|b l]] Hn; try reflexivity; cbn [length] in Hn; [lia|].
  cbn [map swap exchanged]. rewrite IH by lia. reflexivity.
Qed.

Lemma plus_shown ty os : octet ty -> Forall octet os ->
  (if Z.land (Z.shiftr ty 4) 7 =? 1 then 43 :: swap_number (encode_bytes os) else swap_number (encode_bytes os))
  = address_text ty os.
Proof.
  intros Ht Ho. rewrite type_bits by exact Ht. unfold address_text. rewrite swap_number_shown by exact Ho.
  destruct (type_of_number ty =? 1); reflexivity.
Qed.

Lemma sender_out ty os snd : octet ty -> Forall octet os ->
  sender_of (Z.land (Z.shiftr ty 4) 7) os = Ok snd -> sender_shown ty os snd.
Proof.
  intros Ht Ho. unfold sender_of. pose proof (plus_shown ty os Ht Ho) as P.
  rewrite type_bits in * by exact Ht. destruct (type_of_number ty =? 5) eqn:E.
  - intros H. apply ss_name; [lia|]. apply gsm_decode_reads. now rewrite <- septets_unpacked.
  - cbn zeta. rewrite P. intros H. injection H as <-. apply ss_number. lia.
Qed.

(** * Runs that succeed *)

Lemma bind_ok {S A B} (m : ST S A) (f : A -> ST S B) s b s' : st_bind m f s = (Ok b, s') ->
  exists a s1, m s = (Ok a, s1) /\ f a s1 = (Ok b, s').
Proof. unfold st_bind. destruct (m s) as [[a|e] s1]; [eauto|discriminate]. Qed.
Lemma lift_ok {S A} (r : res A) (s : S) a s' : st_lift r s = (Ok a, s') -> r = Ok a /\ s' = s.
Proof. unfold st_lift. intros H. injection H as -> ->. auto. Qed.
Lemma assign_ok f s a s' : assign f s = (Ok a, s') -> s' = f s.
Proof. unfold assign, st_upd. intros H. now injection H. Qed.
Lemma pop_ok (l : list Z) x r : pop0 l = Ok (x, r) -> l = x :: r.
Proof. destruct l; [discriminate|]. intros H. now injection H as -> ->. Qed.

(** * Text *)

Lemma coding_taken_fmt dcs : octet dcs -> fmt_of_dcs dcs = coding_taken dcs.
Proof.
  intros H. pose proof (octet_sweep (fun d => fmt_of_dcs d =? coding_taken d)
    ltac:(vm_compute; reflexivity) dcs H) as X. cbn beta in X. now apply Z.eqb_eq.
Qed.

Lemma text_out hdr dcs udl ud s s' : octet dcs -> octet udl -> Forall octet ud ->
  finish (coding_taken dcs) (if coding_taken dcs =? 0 then header_septets (header_octets hdr ud) else 8 * header_octets hdr ud)
    udl (encode_bytes (py_to ud udl)) (skipn (Z.to_nat (header_octets hdr ud)) ud) s = (Ok tt, s') ->
  exists text, text_shown hdr dcs udl ud text /\ s' = set_d_text (Some text) s.
Proof.
  intros Hd Hl Hu. unfold finish.
  assert (C : coding_taken dcs = 0 \/ coding_taken dcs = 4 \/ coding_taken dcs = 8).
  { unfold coding_taken. cbn zeta. destruct (_ =? 0); [auto|]. destruct (_ =? 2); auto. }
  destruct C as [C|[C|C]]; rewrite C; cbn [Z.eqb Pos.eqb]; intros H.
  - apply bind_ok in H as (t & s1 & H1 & H). apply lift_ok in H1 as (H1 & ->).
    rewrite unpack_msg_hex in H1 by now apply Forall_py_to. injection H1 as <-.
    apply bind_ok in H as (u & s1 & H1 & H). apply lift_ok in H1 as (H1 & ->).
    apply gsm_decode_reads in H1. apply assign_ok in H. exists u. split; [|exact H].
    apply ts_gsm; [exact C|]. cbn zeta. rewrite septets_unpacked in H1 by now apply Forall_py_to.
    unfold py_to, py_slice in H1.
    assert (P : 0 <= header_septets (header_octets hdr ud)).
    { unfold header_septets, header_octets. destruct hdr; [destruct ud as [|n r]|]; try lia.
      pose proof (Forall_inv Hu) as On. unfold octet in On. lia. }
    rewrite <- Z2Nat.inj_sub by exact P. exact H1.
  - apply assign_ok in H. eexists. split; [apply ts_octets; exact C|exact H].
  - apply bind_ok in H as (t & s1 & H1 & H). apply lift_ok in H1 as (H1 & ->). apply assign_ok in H.
    exists t. split; [|exact H].
    assert (Hr : Forall octet (skipn (Z.to_nat (header_octets hdr ud)) ud)) by now apply Forall_skipn.
    destruct (Z.eq_dec (zlen (skipn (Z.to_nat (header_octets hdr ud)) ud) mod 2) 0) as [E|E].
    + destruct (be16_exists _ Hr E) as (us & Eu & U). rewrite Eu, ucs2_chars_be16 in H1 by exact U.
      injection H1 as ->. now apply ts_wide.
    + rewrite ucs2_odd in H1 by (assumption || lia). discriminate H1.
Qed.

Lemma data_shown fo dcs data s s' : octet fo -> octet dcs -> Forall octet data ->
  process_message fo (coding_taken dcs) data s = (Ok tt, s') ->
  exists udl ud text, data = udl :: ud /\ text_shown (udhi fo) dcs udl ud text /\
    if udhi fo
    then exists k more u, ud = k :: more /\ from_bytes (firstn (Z.to_nat k) more) = Ok u /\
           s' = set_d_text (Some text) (set_d_udh (Some u) s)
    else s' = set_d_text (Some text) s.
Proof.
  intros Hf Hd Hu H. destruct data as [|udl ud]; [discriminate H|].
  pose proof (Forall_inv Hu) as Ol. apply Forall_inv_tail in Hu.
  exists udl, ud. pose proof (udhi_bit fo Hf) as B. destruct (udhi fo) eqn:U.
  - destruct ud as [|n r].
    { exfalso. unfold process_message in H. rewrite st_bind_eq in H. cbn [st_lift pop0] in H. cbn zeta in H.
      rewrite B in H. rewrite !st_bind_eq in H. cbn [st_lift pop0] in H. discriminate H. }
    pose proof (Forall_inv Hu) as On.
    rewrite process_header in H by (assumption || (unfold octet in On; lia)).
    unfold py_to at 1 in H. destruct (from_bytes (firstn (Z.to_nat n) r)) as [u|e] eqn:E; [|discriminate H].
    replace (n + 1) with (1 + n) in H by lia.
    assert (X : skipn (Z.to_nat (header_octets true (n :: r))) (n :: r) = py_from r n).
    { cbn [header_octets]. unfold octet in On. replace (Z.to_nat (1 + n)) with (S (Z.to_nat n)) by lia. reflexivity. }
    destruct (text_out true dcs udl (n :: r) (set_d_udh (Some u) s) s' Hd Ol Hu) as (text & T & ->).
    { rewrite X. cbn [header_octets]. rewrite <- H. do 2 f_equal. destruct (coding_taken dcs =? 0); lia. }
    exists text. split; [reflexivity|]. split; [exact T|]. exists n, r, u. auto.
  - rewrite process_plain in H by exact B.
    destruct (text_out false dcs udl ud s s' Hd Ol Hu) as (text & T & ->).
    { cbn [header_octets]. change (Z.to_nat 0) with O. cbn [skipn]. rewrite <- H. do 2 f_equal.
      destruct (coding_taken dcs =? 0); reflexivity. }
    exists text. auto.
Qed.

(** * The message *)

Lemma pop_step {B} (l : list Z) (f : Z * list Z -> ST deliver B) s b s' :
  st_bind (st_lift (pop0 l)) f s = (Ok b, s') -> exists x r, l = x :: r /\ f (x, r) s = (Ok b, s').
Proof.
  intros H. apply bind_ok in H as ([x r] & s1 & H1 & H). apply lift_ok in H1 as (H1 & ->).
  apply pop_ok in H1. eauto.
Qed.
Lemma set_step {B} g (f : unit -> ST deliver B) s b s' :
  st_bind (assign g) f s = (Ok b, s') -> f tt (g s) = (Ok b, s').
Proof. intros H. exact H. Qed.

Lemma header_out_shown h u : Forall octet h -> from_bytes h = Ok u -> header_shown h (Some u).
Proof.
  intros Ho E. destruct (C106_exact h Ho) as (A & _). destruct (A u E) as (els & F & R & V).
  exists u, els. auto.
Qed.

Lemma cut_at (l : list Z) k x r : skipn (Z.to_nat k) l = x :: r -> 0 <= k -> Z.of_nat (length (firstn (Z.to_nat k) l)) = k.
Proof.
  intros E Hk. rewrite firstn_length. pose proof (skipn_length (Z.to_nat k) l) as L. rewrite E in L. cbn [length] in L. lia.
Qed.

Lemma message_out fo r s s' : octet fo -> Forall octet r ->
  d_type s = None -> d_sr s = None -> d_udh s = None ->
  decode_deliver fo r s = (Ok tt, s') ->
  message_shown fo r s' /\ d_strict s' = d_strict s /\ d_pdu s' = d_pdu s /\ d_csca s' = d_csca s /\ d_mtype s' = d_mtype s.
Proof.
  intros Hf Ho N1 N2 N3 H. unfold decode_deliver in H.
  apply pop_step in H as (n & r1 & -> & H). cbn zeta in H. apply pop_step in H as (ty & q & -> & H). cbn zeta in H.
  pose proof (Forall_inv Ho) as On. pose proof (Forall_inv (Forall_inv_tail Ho)) as Ot.
  apply Forall_inv_tail, Forall_inv_tail in Ho.
  assert (P : 0 <= (n + 1) / 2) by (unfold octet in On; lia).
  rewrite addr_octets_spec in H by (unfold octet in On; lia).
  apply bind_ok in H as (snd & s1 & H1 & H). apply lift_ok in H1 as (H1 & ->).
  apply sender_out in H1; [|exact Ot|now apply Forall_py_to]. apply set_step in H.
  apply pop_step in H as (pid & q1 & E1 & H). apply set_step in H. apply pop_step in H as (dcs & q2 & -> & H).
  apply set_step in H. apply set_step in H. apply pop_step in H as (oz & q3 & E2 & H).
  apply bind_ok in H as (t & s1 & H2 & H). apply lift_ok in H2 as (H2 & ->). apply set_step in H.
  unfold py_to, py_from in *.
  assert (Oq : Forall octet (skipn (Z.to_nat ((n + 1) / 2)) q)) by now apply Forall_skipn.
  rewrite E1 in Oq. pose proof (Forall_inv (Forall_inv_tail Oq)) as Od. apply Forall_inv_tail, Forall_inv_tail in Oq.
  rewrite coding_taken_fmt in H by exact Od.
  assert (Oz : Forall octet (skipn (Z.to_nat 6) q2)) by now apply Forall_skipn. rewrite E2 in Oz.
  apply (data_shown fo dcs q3 _ _ Hf Od (Forall_inv_tail Oz)) in H as (udl & ud & text & -> & T & H).
  pose proof (cut_at _ _ _ _ E1 P) as L1. pose proof (cut_at q2 6 _ _ E2 ltac:(lia)) as L2.
  assert (Ots : Forall octet (firstn (Z.to_nat 6) q2)) by now apply Forall_firstn.
  assert (St : stamp (firstn (Z.to_nat 6) q2) t).
  { destruct (strptime_only _ _ Ots ltac:(lia) H2) as (t' & St).
    destruct (strptime_stamp _ _ St Ots) as (Et & _). congruence. }
  assert (Er : n :: ty :: q = n :: ty :: firstn (Z.to_nat ((n + 1) / 2)) q ++ pid :: dcs ::
                 firstn (Z.to_nat 6) q2 ++ oz :: udl :: ud).
  { rewrite <- E2, firstn_skipn, <- E1, firstn_skipn. reflexivity. }
  rewrite tz_minutes_spec in H by exact (Forall_inv Oz).
  replace (15 * zone_quarters oz * 60) with (900 * zone_quarters oz) in H by lia.
  split.
  - exists n, ty, (firstn (Z.to_nat ((n + 1) / 2)) q), pid, dcs, (firstn (Z.to_nat 6) q2), t, oz, udl, ud, snd, text.
    split; [exact Er|]. split; [exact L1|]. split; [exact St|]. split; [exact H1|]. split; [exact T|].
    destruct (udhi fo).
    + destruct H as (k & more & u & -> & Eu & ->). repeat (split; [reflexivity|]).
      split; [exact N1|]. split; [exact N2|]. exists k, more. split; [reflexivity|].
      apply header_out_shown; [|exact Eu]. apply Forall_firstn.
      exact (Forall_inv_tail (Forall_inv_tail (Forall_inv_tail Oz))).
    + subst s'. repeat (split; [reflexivity|]). split; [exact N1|]. split; [exact N2|exact N3].
  - destruct (udhi fo); [destruct H as (k & more & u & _ & _ & ->)|subst s']; repeat split.
Qed.

(** * The status report *)

Lemma encode_bytes_app a b : encode_bytes (a ++ b) = encode_bytes a ++ encode_bytes b.
Proof. unfold encode_bytes. now rewrite map_app, concat_app. Qed.

Lemma report_date_out l : Forall octet l ->
  exists t s, report_date (firstn 7 l) = (s, t) /\ date_shown (firstn 6 l) t s.
Proof.
  intros Ho. unfold report_date.
  assert (E : py_to (swap (encode_bytes (firstn 7 l))) 12 = swap (encode_bytes (firstn 6 l))).
  { unfold py_to. change (Z.to_nat 12) with 12%nat.
    destruct (Nat.le_gt_cases (length l) 6) as [L|L].
    { rewrite (firstn_all2 (n := 7)) by lia. rewrite (firstn_all2 (n := 6)) by lia. apply firstn_all2.
      rewrite swap_length, encode_bytes_length by exact Ho. lia. }
    do 7 (destruct l as [|? l]; [cbn in L; lia|]).
    cbn [firstn]. repeat (match goal with H : Forall octet (_ :: _) |- _ =>
      let A := fresh "O" in pose proof (Forall_inv H) as A; apply Forall_inv_tail in H end).
    rewrite !swap_hex_cons by assumption. reflexivity. }
  rewrite E. clear E. assert (O6 : Forall octet (firstn 6 l)) by now apply Forall_firstn.
  destruct (strptime (swap (encode_bytes (firstn 6 l)))) as [t|e] eqn:S.
  - assert (L : length (firstn 6 l) = 6%nat).
    { assert (X : length (swap (encode_bytes (firstn 6 l))) = 12%nat).
      { revert S. generalize (swap (encode_bytes (firstn 6 l))). intros x S.
        do 13 (destruct x as [|? x]; try discriminate S); try reflexivity. }
      rewrite swap_length, encode_bytes_length in X by exact O6. lia. }
    destruct (strptime_only _ _ O6 L S) as (t' & St). destruct (strptime_stamp _ _ St O6) as (S' & D & _).
    rewrite S in S'. injection S' as <-. do 2 eexists. split; [reflexivity|]. rewrite D. now apply ds_date.
  - do 2 eexists. split; [reflexivity|]. apply ds_none. intros t St.
    destruct (strptime_stamp _ _ St O6) as (S' & _). congruence.
Qed.

Lemma report_out_shown r s s' : Forall octet r -> d_pid s = None -> d_dcs s = None -> d_date s = None ->
  decode_status_report_pdu r s = (Ok tt, s') ->
  report_shown r s' /\ d_strict s' = d_strict s /\ d_pdu s' = d_pdu s /\ d_csca s' = d_csca s /\ d_mtype s' = d_mtype s.
Proof.
  intros Ho N1 N2 N3 H. unfold decode_status_report_pdu in H.
  apply pop_step in H as (mr & r1 & -> & H). apply set_step in H.
  apply pop_step in H as (n & r2 & -> & H). cbn zeta in H. apply pop_step in H as (ty & q & -> & H). cbn zeta in H.
  apply Forall_inv_tail in Ho. pose proof (Forall_inv Ho) as On.
  pose proof (Forall_inv (Forall_inv_tail Ho)) as Ot. apply Forall_inv_tail, Forall_inv_tail in Ho.
  rewrite addr_octets_spec in H by (unfold octet in On; lia).
  rewrite plus_shown in H by (exact Ot || now apply Forall_py_to).
  unfold py_to, py_from in H. set (k := Z.to_nat ((n + 1) / 2)) in *. change (Z.to_nat 7) with 7%nat in H.
  set (rest := skipn k q) in *.
  assert (Or : Forall octet rest) by now apply Forall_skipn.
  destruct (report_date_out rest Or) as (scts & s1 & E1 & D1). rewrite E1 in H.
  destruct (report_date_out (skipn 7 rest) ltac:(now apply Forall_skipn)) as (dt & s2 & E2 & D2). rewrite E2 in H.
  assert (E3 : pop0 (skipn 7 (skipn 7 rest)) =
               match nth_error rest 14 with Some x => Ok (x, skipn 15 rest) | None => Err IndexError end).
  { clear. do 15 (destruct rest as [|? rest]; [reflexivity|]). reflexivity. }
  rewrite E3 in H. clear E3.
  assert (G : report_shown (mr :: n :: ty :: q)
    (set_d_sr (Some (SReport (address_text ty (firstn k q)) scts dt (nth_error rest 14)))
    (set_d_type (Some 3) (set_d_fmt (Some 8) (set_d_text
      (Some (address_text ty (firstn k q) ++ str "|" ++ s1 ++ str "|" ++
             match nth_error rest 14 with None | Some 0 => s2 | _ => [] end))
      (set_d_number (Some (state_name (nth_error rest 14)))
      (set_d_date scts (set_d_udh (Some (from_status_report_ref mr)) s)))))))).
  { exists mr, n, ty, q, scts, s1, dt, s2. split; [reflexivity|]. cbn zeta. fold k. fold rest.
    split; [exact D1|]. split; [exact D2|]. split; [reflexivity|]. split; [exact N1|]. split; [exact N2|].
    repeat (split; [reflexivity|]). exists (from_status_report_ref mr). repeat split. }
  assert (X : s' = set_d_sr (Some (SReport (address_text ty (firstn k q)) scts dt (nth_error rest 14)))
    (set_d_type (Some 3) (set_d_fmt (Some 8) (set_d_text
      (Some (address_text ty (firstn k q) ++ str "|" ++ s1 ++ str "|" ++
             match nth_error rest 14 with None | Some 0 => s2 | _ => [] end))
      (set_d_number (Some (state_name (nth_error rest 14)))
      (set_d_date scts (set_d_udh (Some (from_status_report_ref mr)) s))))))).
  { clear G. destruct s as [x1 x2 x3 x4 x5 x6 x7 x8 x9 x10 x11 x12 x13].
    cbn in N1, N2, N3. subst.
    assert (C : forall x, match x with 0 => s2 | _ => [] end = (if x =? 0 then s2 else [])).
    { intros x. destruct x; reflexivity. }
    assert (C' : forall x, state_name (Some x) = if x =? 0 then str "SR-OK" else if x =? 1 then str "SR-UNKNOWN"
        else if x =? 48 then str "SR-STORED" else str "SR-UNKNOWN").
    { intros x. destruct (x =? 0) eqn:X0; [assert (x = 0) by lia; now subst|].
      destruct (x =? 1) eqn:X1; [assert (x = 1) by lia; now subst|].
      destruct (x =? 48) eqn:X2; [assert (x = 48) by lia; now subst|].
      unfold state_name. destruct x as [|p|p]; [discriminate X0| |reflexivity].
      do 6 (destruct p as [p|p|]; try reflexivity); discriminate X2. }
    destruct (nth_error rest 14) as [st|].
    - rewrite C, C'. destruct scts; injection H as <-; reflexivity.
    - destruct scts; injection H as <-; reflexivity. }
  rewrite X. split; [exact G|]. repeat split.
Qed.

(** * The whole *)

Lemma octets_shown o s s' : Forall octet o ->
  d_type s = None -> d_sr s = None -> d_udh s = None -> d_pid s = None -> d_dcs s = None -> d_date s = None ->
  st_bind (decode_smsc o) (fun data =>
    '(mtype, data) <~ st_lift (pop0 data) ;;
    _ <~ assign (set_d_mtype (Some mtype)) ;;
    let mt := Z.land mtype 3 in
    if mt =? 2 then decode_status_report_pdu data
    else if mt =? 1 then st_err ValueError
    else decode_deliver mtype data) s = (Ok tt, s') ->
  d_strict s' = d_strict s /\ d_pdu s' = d_pdu s /\
  exists fo r, behind_centre o (fo :: r) /\ centre_shown o (d_csca s') /\ d_mtype s' = Some fo /\
    message_type fo <> 1 /\
    if message_type fo =? 2 then report_shown r s' else message_shown fo r s'.
Proof.
  intros Ho N1 N2 N3 N4 N5 N6 H. apply bind_ok in H as (data & s1 & H1 & H).
  assert (G : exists c, centre_shown o c /\ s1 = set_d_csca c s /\ behind_centre o data).
  { unfold decode_smsc in H1. apply pop_step in H1 as (l & r & -> & H1). destruct (0 <? l) eqn:L.
    - apply pop_step in H1 as (ty & q & -> & H1). cbn zeta in H1. apply set_step in H1.
      pose proof (plus_shown ty (py_to q (l - 1)) (Forall_inv (Forall_inv_tail Ho))
        (Forall_py_to octet (l - 1) q (Forall_inv_tail (Forall_inv_tail Ho)))) as P.
      exists (Some (address_text ty (firstn (Z.to_nat (l - 1)) q))). unfold py_to, py_from in *. rewrite <- P.
      split; [rewrite P; apply cs_some; lia|].
      destruct (Z.land (Z.shiftr ty 4) 7 =? 1); [apply set_step in H1|]; injection H1 as <- <-;
        (split; [reflexivity|apply bc_some; lia]).
    - pose proof (Forall_inv Ho) as Ol. unfold octet in Ol. assert (l = 0) by lia. subst l.
      apply set_step in H1. injection H1 as <- <-. exists None.
      split; [constructor|]. split; [reflexivity|constructor]. }
  destruct G as (c & C & -> & B).
  apply pop_step in H as (fo & r & -> & H). apply set_step in H. cbn zeta in H.
  assert (Or : Forall octet (fo :: r)).
  { clear - B Ho. destruct B; [now apply Forall_inv_tail in Ho|].
    apply Forall_skipn. now apply Forall_inv_tail, Forall_inv_tail in Ho. }
  pose proof (Forall_inv Or) as Of. apply Forall_inv_tail in Or. rewrite mti_bits in H by exact Of.
  destruct (message_type fo =? 2) eqn:E2; [|destruct (message_type fo =? 1) eqn:E1].
  - apply report_out_shown in H as (R & A1 & A2 & A3 & A4); [|assumption..].
    split; [exact A1|]. split; [exact A2|]. exists fo, r. rewrite A3, A4, E2.
    split; [exact B|]. split; [exact C|]. split; [reflexivity|]. split; [lia|exact R].
  - discriminate H.
  - apply message_out in H as (R & A1 & A2 & A3 & A4); [|assumption..].
    split; [exact A1|]. split; [exact A2|]. exists fo, r. rewrite A3, A4, E2.
    split; [exact B|]. split; [exact C|]. split; [reflexivity|]. split; [lia|exact R].
Qed.

Lemma array_numbers s l : zlen s mod 2 = 0 -> to_array s = Ok l -> numbers s l /\ Forall octet l.
Proof.
  intros L. unfold to_array. pose proof (numbers_out s L) as N.
  destruct (mapM (py_int 16) (chunks2 s)) as [x|e]; cbn [bind]; [|discriminate].
  destruct N as (N1 & _ & _). destruct (forallb (fun b => (0 <=? b) && (b <? 256)) x) eqn:F; [|].
  - intros H. injection H as <-. split; [exact N1|]. apply Forall_forall. intros y Hy.
    rewrite forallb_forall in F. specialize (F y Hy). unfold octet. lia.
  - intros H. discriminate H.
Qed.
