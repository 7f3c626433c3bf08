(** Proofs about [SmsDeliver] on PDUs that are cut short. *)
From Coq Require Import Lia ZifyBool ZifyNat.
From Verif Require Import Py PyFacts SpecGsm SpecPack SpecAddress SpecTime SpecSubmit SpecDeliver
  SpecCut Utils Gsm GsmFacts PackFacts NumberFacts Submit SubmitClaims SubmitFacts
  ToPduFacts Udh UdhFacts Deliver DeliverFacts.
Ltac Zify.zify_post_hook ::= Z.div_mod_to_equations.
Open Scope Z_scope.

(** * Lists *)

Lemma app_cut {A} (p q a b : list A) : p ++ q = a ++ b ->
  (exists p', p = a ++ p' /\ b = p' ++ q) \/
  (exists a', a = p ++ a' /\ a' <> [] /\ q = a' ++ b).
Proof.
  revert p. induction a as [|x a IH]; intros p E.
  - left. now exists p.
  - destruct p as [|y p].
    + right. exists (x :: a). split; [reflexivity|]. split; [discriminate|exact E].
    + injection E as -> E. destruct (IH p E) as [(p' & -> & ->)|(a' & -> & H & ->)].
      * left. now exists p'.
      * right. now exists a'.
Qed.

Lemma py_from_short {A} (l : list A) n : zlen l <= n -> py_from l n = [].
Proof. intros H. unfold py_from. apply skipn_all2. unfold zlen in H. lia. Qed.

Lemma py_to_short {A} (l : list A) n : zlen l <= n -> py_to l n = l.
Proof. intros H. unfold py_to. apply firstn_all2. unfold zlen in H. lia. Qed.

(** * Too short to have user data *)

Definition index_error {A} (r : res A * deliver) : Prop := fst r = Err IndexError.

Lemma smsc_cut smsc sc p a s : smsc_field smsc sc -> sc = p ++ a -> a <> [] ->
  exists s', decode_smsc p s = (Err IndexError, s') \/ decode_smsc p s = (Ok [], s').
Proof.
  intros H E Ha. unfold decode_smsc. destruct smsc as [[ty ds]|]; cbn [smsc_field] in H.
  - destruct H as (os & _ & Es). rewrite E in Es. clear E.
    destruct p as [|l [|y os1]].
    + eexists. left. reflexivity.
    + cbn [app] in Es. pose proof (f_equal (hd 0) Es) as Eh. cbn [hd] in Eh.
      rewrite Eh. rewrite st_bind_eq. cbn [st_lift pop0].
      destruct (0 <? 1 + Z.of_nat (length os)) eqn:E0; [|lia]. eexists. left. reflexivity.
    + cbn [app] in Es. pose proof (f_equal (hd 0) Es) as E1. cbn [hd] in E1.
      apply (f_equal (@tl Z)) in Es. cbn [tl] in Es. injection Es as -> <-. subst l.
      rewrite st_bind_eq. cbn [st_lift pop0].
      destruct (0 <? 1 + Z.of_nat (length (os1 ++ a))) eqn:E0; [|lia].
            rewrite st_bind_eq. cbn [st_lift pop0]. cbn zeta.
      rewrite st_bind_eq. cbn [assign st_upd]. rewrite st_bind_eq.
      rewrite py_from_short by (rewrite app_length; unfold zlen; lia).
      destruct (Z.land (Z.shiftr ty 4) 7 =? 1); cbn [assign st_upd st_ret];
        eexists; right; reflexivity.
  - rewrite E in H. destruct p as [|x [|]]; [eexists; left; reflexivity| |];
      cbn [app] in H; injection H as -> H; [now subst|discriminate].
Qed.

Lemma deliver_cut fo n ty os pid dcs ts oz t p q s :
  octet oz -> Forall octet ts -> Forall octet os ->
  addr_octets n = zlen os -> stamp ts t ->
  p ++ q = n :: ty :: os ++ pid :: dcs :: ts ++ [oz] ->
  index_error (decode_deliver fo p s).
Proof.
  intros Oz Ots Oos Hn Hts E. unfold index_error, decode_deliver.
  destruct (strptime_stamp ts t Hts Ots) as (Sd & _ & Sl & _).
  destruct p as [|x [|y p]]; [reflexivity|reflexivity|].
  cbn [app] in E. injection E as -> -> E.
  rewrite st_bind_eq. cbn [st_lift pop0]. cbn zeta.
  rewrite st_bind_eq. cbn [st_lift pop0]. rewrite Hn.
  apply app_cut in E as [(p1 & -> & E)|(a & Ea & _ & _)].
  2: { rewrite Ea in *. apply Forall_app in Oos as [O1 _].
       rewrite py_from_short, py_to_short
         by (rewrite zlen_app; pose proof (zlen_nonneg a); lia).
       destruct (sender_total (Z.land (Z.shiftr ty 4) 7) p O1) as [snd Es].
       rewrite st_bind_eq. cbn [st_lift]. rewrite Es. reflexivity. }
  rewrite py_to_app, py_from_app by reflexivity.
  destruct (sender_total (Z.land (Z.shiftr ty 4) 7) os Oos) as [snd Es].
  rewrite st_bind_eq. cbn [st_lift]. rewrite Es.
  rewrite st_bind_eq. cbn [assign st_upd].
  destruct p1 as [|a [|b p1]]; [reflexivity|reflexivity|].
  cbn [app] in E. injection E as <- <- E. symmetry in E.
  do 5 (rewrite st_bind_eq; cbn [assign st_upd st_lift pop0]).
  apply app_cut in E as [(p2 & -> & E)|(a & Ea & _ & _)].
  2: { rewrite py_from_short.
       - reflexivity.
       - rewrite Ea, zlen_app in Sl. pose proof (zlen_nonneg a). lia. }
  rewrite py_to_app, py_from_app by (symmetry; exact Sl).
  destruct p2 as [|z p2]; [reflexivity|].
  destruct p2; [|destruct p2; discriminate].
  cbn [app] in E. injection E as <- <-.
  rewrite st_bind_eq; cbn [st_lift pop0]. rewrite st_bind_eq; cbn [st_lift]. rewrite Sd.
  reflexivity.
Qed.

(** The steps of [_set_pdu] before the service centre address. *)
Lemma set_pdu_start pdu o st : reads_hex pdu o ->
  set_pdu pdu st = st_bind (decode_smsc o) (fun data =>
    '(mtype, data) <~ st_lift (pop0 data) ;;
    _ <~ assign (set_d_mtype (Some mtype)) ;;
    let mt := Z.land mtype 3 in
    if mt =? 2 then decode_status_report_pdu data
    else if mt =? 1 then st_err ValueError
    else decode_deliver mtype data) (set_d_pdu (Some pdu) st).
Proof.
  intros Hx. pose proof (reads_hex_length _ _ Hx) as Hlen. unfold set_pdu.
  rewrite st_bind_eq. cbn [st_get].
  replace (negb (zlen pdu mod 2 =? 0)) with false by lia. rewrite andb_false_r. cbn zeta iota.
  replace (negb (zlen pdu mod 2 =? 0)) with false by lia. cbn iota.
  rewrite st_bind_eq. cbn [assign st_upd].
  rewrite st_bind_eq. cbn [st_lift]. rewrite (to_array_hex _ _ Hx). reflexivity.
Qed.

Lemma new_deliver_err pdu strict :
  index_error (set_pdu pdu (deliver0 strict)) -> new_deliver pdu strict = Err IndexError.
Proof.
  unfold index_error, new_deliver. destruct (set_pdu pdu (deliver0 strict)) as [[]]; cbn;
    [discriminate|congruence].
Qed.

Lemma sender_length name snd oa : sender_field name snd oa ->
  exists n ty os, oa = n :: ty :: os /\ addr_octets n = zlen os.
Proof.
  intros [ty ds f _ (os & Hs & ->)|ty text f (_ & g & os & _ & (_ & Hp & _) & ->)].
  - do 3 eexists. split; [reflexivity|]. rewrite addr_octets_spec by lia.
    now rewrite (semi_octets_length _ _ Hs).
  - do 3 eexists. split; [reflexivity|]. rewrite addr_octets_spec by lia.
    unfold zlen. rewrite Hp. unfold octets_for. lia.
Qed.

Lemma cut_rejected pdu p q strict smsc sc fo name snd oa pid dcs ts t oz udl ud :
  reads_hex pdu p -> smsc_field smsc sc -> message_type fo = 0 ->
  sender_field name snd oa ->
  stamp ts t -> Forall octet (p ++ q) ->
  p ++ q = deliver_octets sc fo oa pid dcs ts oz udl ud -> (length ud < length q)%nat ->
  new_deliver pdu strict = Err IndexError.
Proof.
  intros Hx Hsc Hmt Hsf Hts Ho Eo Hl.
  destruct (sender_length _ _ _ Hsf) as (n & ty & os & -> & Hn).
  rewrite Eo in Ho. unfold deliver_octets in *. cbn [app] in *.
  repeat match goal with
  | H : Forall octet (_ ++ _) |- _ => apply Forall_app in H as [? H]
  | H : Forall octet (_ :: _) |- _ =>
      let A := fresh "O" in pose proof (Forall_inv H) as A; apply Forall_inv_tail in H
  end.
  apply new_deliver_err. unfold index_error. rewrite (set_pdu_start _ _ _ Hx).
  apply app_cut in Eo as [(p1 & -> & E)|(a & Ea & Hne & _)].
  2: { rewrite st_bind_eq.
       destruct (smsc_cut smsc sc p a (set_d_pdu (Some pdu) (deliver0 strict)) Hsc Ea Hne)
         as (s' & [-> | ->]); reflexivity. }
  rewrite st_bind_eq, (smsc_stage smsc sc) by assumption.
  destruct p1 as [|x p1]; [reflexivity|]. cbn [app] in E. injection E as <- E.
  rewrite st_bind_eq. cbn [st_lift pop0]. rewrite st_bind_eq. cbn [assign st_upd].
  rewrite mti_bits by assumption. rewrite Hmt. cbn [Z.eqb]. cbn zeta iota.
  assert (exists q', p1 ++ q' = n :: ty :: os ++ pid :: dcs :: ts ++ [oz]) as (q' & E').
  { exists (firstn (length q - S (length ud)) q).
    rewrite <- (firstn_app_2 (length q - S (length ud)) p1 q), <- E.
    replace (n :: ty :: os ++ pid :: dcs :: ts ++ oz :: udl :: ud) with
      ((n :: ty :: os ++ pid :: dcs :: ts ++ [oz]) ++ udl :: ud)
      by (cbn [app]; rewrite <- !app_assoc; cbn [app]; rewrite <- !app_assoc; reflexivity).
    match goal with |- firstn ?k (?l ++ _) = _ => assert (k = length l)%nat as Hk end.
    { apply (f_equal (@length Z)) in E. rewrite !app_length in E. cbn [length] in *.
      rewrite ?app_length in *. cbn [length] in *. rewrite ?app_length in *. cbn [length] in *.
      rewrite ?app_length in *. cbn [length] in *. lia. }
    rewrite Hk, firstn_app, firstn_all, Nat.sub_diag, firstn_O, app_nil_r. reflexivity. }
  apply (deliver_cut fo n ty os pid dcs ts oz t p1 q'); assumption.
Qed.

(** * Cut in the user data *)

Lemma unpack_loop_all l : forall count last len,
  0 <= count <= 6 -> len + zlen (unpack_all l count last) < 160 ->
  unpack_loop l count last len = unpack_all l count last.
Proof.
  induction l as [|b l IH]; intros count last len Hc Hl; [reflexivity|].
  cbn [unpack_loop unpack_all] in *.
  set (out := Z.shiftl (Z.land b (Z.shiftr 127 count)) count + last) in *.
  destruct (count =? 6) eqn:E6; rewrite ?zlen_cons in Hl;
    match goal with H : context [zlen ?x] |- _ => pose proof (zlen_nonneg x) end;
    (destruct (160 <=? len + 1) eqn:E; [lia|]).
  - replace ((count + 1) mod 7) with 0 by lia. rewrite IH by lia. reflexivity.
  - replace ((count + 1) mod 7) with (count + 1) by lia. rewrite IH by lia. reflexivity.
Qed.

(** The complete septets in the first octets of a packed text. *)
Lemma unpack_cut p q s v : Forall octet p -> Forall septet s -> zlen s <= 160 ->
  le_value 256 p + 256 ^ zlen p * q = le_value 128 s + 128 ^ zlen s * v ->
  8 * zlen p / 7 < zlen s ->
  unpack_msg2 p = firstn (Z.to_nat (8 * zlen p / 7)) s.
Proof.
  intros Hp Hs Hn Ev Hl. pose proof (zlen_nonneg p) as Hp0.
  destruct (unpack_all_spec p Hp 0 0) as (Ha & Hla & R & HR); [lia|cbn; lia|].
  unfold unpack_msg2. rewrite unpack_loop_all by lia.
  assert (length (unpack_all p 0 0) = Z.to_nat (8 * zlen p / 7)) as Hln
    by (unfold zlen in *; lia).
  rewrite <- Hln. symmetry.
  apply (le_value_prefix 128 (unpack_all p 0 0) s (R + 2 ^ (8 * zlen p - 7 * zlen (unpack_all p 0 0)) * q) v);
    try assumption; [lia|unfold zlen in *; lia|].
  rewrite <- Ev. rewrite Z.pow_0_r, Z.mul_1_l, Z.add_0_l in HR. rewrite HR.
  rewrite (pow_split (zlen (unpack_all p 0 0)) (zlen p)) by (try apply zlen_nonneg; lia).
  ring.
Qed.

Lemma starts_refl l : starts l l.
Proof. exists []. now rewrite app_nil_r. Qed.

(** Reading the first septets of a text. *)
Lemma decode_cut text g k : gsm_text text g ->
  exists t, gsm_decode (firstn k g) = Ok t /\ shown text (firstn k g) t.
Proof.
  intros (codes & H & ->).
  assert (exists t, reads None (firstn k (concat codes)) t /\
    shown text (firstn k (concat codes)) t) as (t & Hr & Hs).
  { revert k. induction H as [|u c us cs Hc Hcs IH]; intros k.
    - exists []. rewrite firstn_nil. split; [constructor|]. exists []. split; [now exists []|].
      left. split; [|reflexivity]. exists []. split; [constructor|reflexivity].
    - cbn [concat]. destruct k as [|k].
      + exists []. split; [constructor|]. exists []. split; [now exists (u :: us)|].
        left. split; [|reflexivity]. exists []. split; [constructor|reflexivity].
      + assert (forall k', firstn (S k) (c ++ concat cs) = c ++ firstn k' (concat cs) ->
                exists t, reads None (firstn (S k) (c ++ concat cs)) t /\
                  shown (u :: us) (firstn (S k) (c ++ concat cs)) t) as Step.
        { intros k' ->. destruct (IH k') as (t & Ht & whole & (r & Hw) & Hcase).
          exists (u :: t). split.
          - destruct Hc as [g Hg Hne|g Hg]; cbn [app]; now constructor.
          - exists (u :: whole). split; [exists r; cbn [app]; now rewrite Hw|].
            destruct Hcase as [((cc & F & E) & ->)|(g & E & (cc & F & Eg) & ->)].
            + left. split; [|reflexivity]. exists (c :: cc).
              split; [now constructor|]. cbn [concat]. now rewrite E.
            + right. exists (c ++ g). split; [rewrite E; apply app_assoc|].
              split; [|reflexivity]. exists (c :: cc). split; [now constructor|].
              cbn [concat]. now rewrite Eg. }
        destruct Hc as [g Hg Hne|g Hg].
        * apply (Step k). reflexivity.
        * destruct k as [|k]; [|apply (Step k); reflexivity].
          exists [0xA0]. cbn [app firstn]. split; [constructor|].
          exists []. split; [now exists (u :: us)|]. right. exists [].
          split; [reflexivity|]. split; [|reflexivity]. exists [].
          split; [constructor|reflexivity]. }
  exists t. split; [|exact Hs].
  unfold gsm_decode. apply (decode_reads Strict) in Hr. now rewrite Hr.
Qed.

(** The septets of a text behind a header. *)
Lemma header_septet_list hd s o : Forall octet hd -> Forall septet s ->
  packed_with_header hd s o ->
  exists pre, Forall septet pre /\ zlen pre = header_septets (zlen hd) /\
    le_value 256 o = le_value 128 (pre ++ s).
Proof.
  intros Hh Hs (Ho & Hl & Ev). fold (zlen hd) in *.
  set (hs := header_septets (zlen hd)) in *.
  assert (0 <= hs) as Hhs by (unfold hs, header_septets; pose proof (zlen_nonneg hd); lia).
  set (pre := digits_from 128 (le_value 256 hd) 0 (Z.to_nat hs)).
  assert (Forall septet pre) as Hp by (apply digits_from_range; lia).
  assert (zlen pre = hs) as Hpl by (unfold zlen, pre; rewrite digits_from_length; lia).
  destruct (le_value_bound 256 hd ltac:(lia) Hh) as [B1 B2].
  assert (le_value 128 pre = le_value 256 hd) as Hpv.
  { unfold pre. rewrite digits_from_value by lia. rewrite Z.pow_0_r, Z.div_1_r.
    rewrite Z2Nat.id by lia. apply Z.mod_small. split; [assumption|].
    eapply Z.lt_le_trans; [exact B2|].
    change 128 with (2 ^ 7). change 256 with (2 ^ 8).
    pose proof (zlen_nonneg hd).
    rewrite <- !Z.pow_mul_r by lia. apply Z.pow_le_mono_r; [lia|].
    unfold hs, header_septets. lia. }
  exists pre. split; [assumption|]. split; [assumption|].
  rewrite le_value_app, Hpv, Ev, Hpl by lia.
  replace (2 ^ (7 * hs)) with (128 ^ hs)
    by (change 128 with (2 ^ 7); rewrite <- Z.pow_mul_r by lia; reflexivity). ring.
Qed.

Lemma ucs2_odd l : Forall octet l -> zlen l mod 2 = 1 -> ucs2_chars l = Err IndexError.
Proof.
  intros Ho Hl. destruct (ucs2_chars l) as [u|e] eqn:E.
  - exfalso. clear Ho. revert u E Hl.
    assert (forall n (l : list Z), (length l <= n)%nat -> forall u, ucs2_chars l = Ok u ->
              zlen l mod 2 = 1 -> False) as G.
    { clear l. induction n as [|n IH]; intros l Hn u E Hl.
      - destruct l; [cbn in Hl; lia|cbn in Hn; lia].
      - destruct l as [|a [|b r]]; [cbn in Hl; lia|discriminate|].
        cbn [ucs2_chars] in E. destruct (py_int 16 _); [|discriminate]. cbn [bind] in E.
        destruct (py_unichr _); [|discriminate]. cbn [bind] in E.
        destruct (ucs2_chars r) as [v|] eqn:Er; [|discriminate].
        apply (IH r) with (u := v); [cbn in Hn; lia|exact Er|].
        rewrite !zlen_cons in Hl. lia. }
    intros u E Hl. exact (G (length l) l (le_n _) u E Hl).
  - now rewrite (ucs2_chars_errors _ _ Ho E).
Qed.

Lemma be16_cut us p q : be16 us = p ++ q -> zlen p mod 2 = 0 ->
  p = be16 (firstn (Z.to_nat (zlen p / 2)) us).
Proof.
  revert p. induction us as [|u us IH]; intros p E Hl.
  - destruct p; [|discriminate]. reflexivity.
  - cbn [be16] in E. destruct p as [|a [|b p]]; [reflexivity|cbn in Hl; lia|].
    cbn [app] in E.
    assert (Z.to_nat (zlen (a :: b :: p) / 2) = S (Z.to_nat (zlen p / 2))) as ->
      by (rewrite !zlen_cons; pose proof (zlen_nonneg p); lia).
    cbn [firstn be16].
    pose proof (f_equal (hd 0) E) as E1. pose proof (f_equal (fun l => hd 0 (tl l)) E) as E2.
    apply (f_equal (fun l => tl (tl l))) in E. cbn in E1, E2, E. subst a b.
    rewrite <- (IH p E); [reflexivity|]. rewrite !zlen_cons in Hl. lia.
Qed.

(** The end of [_process_message], and what leads to it. *)
Definition finish (fmt headlen msgl : Z) (msg rest : list Z) : ST deliver unit :=
  if fmt =? 0 then
    t <~ st_lift (unpack_msg msg) ;;
    t <~ st_lift (gsm_decode (py_slice t headlen msgl)) ;;
    assign (set_d_text (Some t))
  else if fmt =? 4 then assign (set_d_text (Some rest))
  else if fmt =? 8 then
    t <~ st_lift (ucs2_chars rest) ;; assign (set_d_text (Some t))
  else st_ret tt.

Lemma process_plain mtype fmt udl p o : negb (Z.land mtype 64 =? 0) = false ->
  process_message mtype fmt (udl :: p) o =
  finish fmt 0 udl (encode_bytes (py_to p udl)) p o.
Proof.
  intros H. unfold process_message. rewrite st_bind_eq. cbn [st_lift pop0]. cbn zeta. rewrite H.
  reflexivity.
Qed.

Lemma process_header mtype fmt udl n p o : negb (Z.land mtype 64 =? 0) = true -> 0 <= n ->
  process_message mtype fmt (udl :: n :: p) o =
  match from_bytes (py_to p n) with
  | Err e => (Err e, o)
  | Ok u => finish fmt (if fmt =? 0 then header_septets (n + 1) else (n + 1) * 8) udl
              (encode_bytes (py_to (n :: p) udl)) (py_from p n) (set_d_udh (Some u) o)
  end.
Proof.
  intros H Hn. unfold process_message. rewrite st_bind_eq. cbn [st_lift pop0]. cbn zeta. rewrite H.
  rewrite !st_bind_eq. cbn [st_lift pop0].
  rewrite st_bind_eq. cbn [st_lift]. destruct (from_bytes (py_to p n)) as [u|e]; [|reflexivity].
  rewrite st_bind_eq. cbn [assign st_upd st_ret].
  replace ((n + 1) * 8) with (8 * (n + 1)) by lia. rewrite round_up7_spec by lia.
  reflexivity.
Qed.

Lemma slice_firstn (l : list Z) k h n : 0 <= h -> k <= n ->
  py_slice (firstn (Z.to_nat k) l) h n = firstn (Z.to_nat (k - h)) (skipn (Z.to_nat h) l).
Proof.
  intros Hh Hk. unfold py_slice. rewrite skipn_firstn_comm, firstn_firstn. f_equal. lia.
Qed.

Lemma process_cut mtype hdr coding text udl ud p q :
  deliver_ud hdr coding text udl ud -> Forall octet ud -> ud = p ++ q -> q <> [] ->
  zlen (header_octets hdr) <= zlen p ->
  negb (Z.land mtype 64 =? 0) = match hdr with Some _ => true | None => false end ->
  coding <> 8 \/ (zlen p - zlen (header_octets hdr)) mod 2 = 0 ->
  exists u t, header_view hdr u /\
    kept_text coding (zlen (header_octets hdr)) (zlen p) text t /\ forall o,
    process_message mtype coding (udl :: p) o =
    (Ok tt, set_d_text (Some t)
              match u with Some u => set_d_udh (Some u) o | None => o end).
Proof.
  intros H Ho Eud Hq Hh Hm Hc.
  assert (Forall octet p) as Op by (rewrite Eud in Ho; now apply Forall_app in Ho).
  assert (0 < zlen q) as Hq0.
  { destruct q; [congruence|]. rewrite zlen_cons. pose proof (zlen_nonneg q). lia. }
  pose proof (zlen_nonneg p) as Hp0.
  assert (zlen ud = zlen p + zlen q) as Hlu by (rewrite Eud; apply zlen_app).
  destruct H as [coding text udl ud H|els text g ud hd hs Hok Hg Hl Hp
                |els text hd Hok Hx Hl|els text hd Hok Hx Hl].
  - exists None. cbn [header_octets] in *. change (zlen (@nil Z)) with 0 in *.
    remember (p ++ q) as w eqn:Ew. subst ud. inversion H as [? g ? Hg Hl Hp| |? ? ? E1 E2 E3 Eud]; subst.
    + pose proof (gsm_text_septets _ _ Hg) as Hs. fold (zlen g) in *.
      destruct (decode_cut text g (Z.to_nat (8 * zlen p / 7)) Hg) as (t & Et & Ht).
      destruct Hp as (_ & Hpl & Hpv). fold (zlen (p ++ q)) in Hpl. fold (zlen g) in Hpl.
      unfold octets_for in Hpl. rewrite le_value_app in Hpv by lia.
      exists t. split; [exact I|]. split.
      { unfold kept_text. cbn [Z.eqb]. exists g. split; [exact Hg|].
        change (header_septets 0) with 0. rewrite Z.sub_0_r. exact Ht. }
      intros o. rewrite process_plain by exact Hm. unfold finish. cbn [Z.eqb].
      rewrite st_bind_eq. cbn [st_lift]. rewrite py_to_short by lia.
      rewrite unpack_msg_hex by exact Op.
      rewrite (unpack_cut p (le_value 256 q) g 0) by (try assumption; lia).
      rewrite st_bind_eq. cbn [st_lift]. rewrite slice_firstn by lia.
      cbn [Z.to_nat skipn]. rewrite Z.sub_0_r, Et. reflexivity.
    + exists p. split; [exact I|]. split.
      { unfold kept_text. cbn [Z.eqb Pos.eqb]. rewrite Z.sub_0_r.
        unfold zlen. rewrite Nat2Z.id, firstn_app, firstn_all, Nat.sub_diag, firstn_O, app_nil_r.
        reflexivity. }
      intros o. rewrite process_plain by exact Hm. reflexivity.
    + destruct Hc as [?|Hc]; [congruence|]. rewrite Z.sub_0_r in Hc.
      pose proof (be16_cut _ _ _ Eud Hc) as Ep.
      exists (firstn (Z.to_nat (zlen p / 2)) text). split; [exact I|]. split.
      { unfold kept_text. cbn [Z.eqb Pos.eqb]. now rewrite Z.sub_0_r. }
      intros o. rewrite process_plain by exact Hm. unfold finish. cbn [Z.eqb Pos.eqb].
      rewrite st_bind_eq. cbn [st_lift]. rewrite Ep at 1. rewrite ucs2_chars_be16; [reflexivity|].
      now apply Forall_firstn.
  - pose proof (gsm_text_septets _ _ Hg) as Hs. pose proof (serial_octets _ Hok) as Hse.
    fold (zlen g) in *. pose proof (zlen_nonneg g) as Hg0.
    change (header_octets (Some els)) with hd in *.
    assert (zlen hd = 1 + zlen (serial els)) as Hhl by (unfold hd; rewrite zlen_cons; lia).
    pose proof (zlen_nonneg (serial els)) as Hse0.
    change (Z.of_nat (length hd)) with (zlen hd) in hs.
    assert (0 <= hs) as Hhs by (unfold hs, header_septets; lia).
    assert (Forall octet hd) as Hhd.
    { constructor; [|exact Hse]. unfold octet. unfold hs, header_septets in Hl.
      change (Z.of_nat (length (serial els))) with (zlen (serial els)). lia. }
    destruct (packed_header_prefix _ _ _ Hhd Hp) as (r & Er).
    assert (exists p1, p = hd ++ p1) as (p1 & Ep).
    { rewrite Er in Eud. symmetry in Eud.
      apply app_cut in Eud as [(p' & -> & _)|(a & Ea & Ha & _)]; [now exists p'|].
      exfalso. rewrite Ea, zlen_app in Hh. destruct a; [congruence|].
      rewrite zlen_cons in Hh. pose proof (zlen_nonneg a). lia. }
    destruct (header_septet_list hd g ud Hhd Hs Hp) as (pre & Hpre & Hprel & Hpv).
    fold hs in Hprel.
    destruct Hp as (_ & Hpl & _). fold (zlen ud) in Hpl. fold (zlen hd) in Hpl. fold hs in Hpl.
    fold (zlen g) in Hpl. unfold octets_for in Hpl.
    rewrite Eud, le_value_app in Hpv by lia.
    destruct (from_bytes_serial els Hok) as (u & Eu & Hu).
    destruct (decode_cut text g (Z.to_nat (8 * zlen p / 7 - hs)) Hg) as (t & Et & Ht).
    exists (Some u), t. split; [exact Hu|]. split.
    { unfold kept_text. cbn [Z.eqb]. exists g. split; [exact Hg|]. exact Ht. }
    intros o. rewrite Ep at 1. unfold hd at 1. cbn [app].
    change (Z.of_nat (length (serial els))) with (zlen (serial els)).
    rewrite process_header by (try exact Hm; exact Hse0).
    rewrite py_to_app by reflexivity. rewrite Eu.
    unfold finish. cbn [Z.eqb].
    replace (zlen (serial els) :: serial els ++ p1) with p by (rewrite Ep; reflexivity).
    rewrite st_bind_eq. cbn [st_lift]. rewrite py_to_short by lia.
    rewrite unpack_msg_hex by exact Op.
    rewrite (unpack_cut p (le_value 256 q) (pre ++ g) 0);
      [|exact Op|apply Forall_app; auto|rewrite zlen_app; lia|lia|rewrite zlen_app; lia].
    rewrite st_bind_eq. cbn [st_lift].
    replace (header_septets (zlen (serial els) + 1)) with hs
      by (unfold hs; f_equal; lia).
    rewrite slice_firstn by lia.
    replace (skipn (Z.to_nat hs) (pre ++ g)) with g.
    2: { rewrite <- Hprel. unfold zlen. rewrite Nat2Z.id, skipn_app, skipn_all, Nat.sub_diag.
         reflexivity. }
    rewrite Et. reflexivity.
  - destruct (from_bytes_serial els Hok) as (u & Eu & Hu).
    change (header_octets (Some els)) with hd in *.
    assert (exists p1, p = hd ++ p1) as (p1 & Ep).
    { symmetry in Eud.
      apply app_cut in Eud as [(p' & -> & _)|(a & Ea & Ha & _)]; [now exists p'|].
      exfalso. rewrite Ea, zlen_app in Hh. destruct a; [congruence|].
      rewrite zlen_cons in Hh. pose proof (zlen_nonneg a). lia. }
    exists (Some u), p1. split; [exact Hu|]. split.
    { unfold kept_text. cbn [Z.eqb Pos.eqb]. rewrite Ep, zlen_app.
      rewrite Ep, <- app_assoc in Eud. apply app_inv_head in Eud. rewrite Eud.
      replace (zlen hd + zlen p1 - zlen hd) with (zlen p1) by lia.
      unfold zlen. rewrite Nat2Z.id, firstn_app, firstn_all, Nat.sub_diag, firstn_O, app_nil_r.
      reflexivity. }
    intros o. replace p with (Z.of_nat (length (serial els)) :: serial els ++ p1)
      by (rewrite Ep; reflexivity).
    rewrite process_header by (try exact Hm; lia).
    rewrite py_to_app, py_from_app by reflexivity. rewrite Eu. reflexivity.
  - destruct (from_bytes_serial els Hok) as (u & Eu & Hu).
    change (header_octets (Some els)) with hd in *.
    assert (exists p1, p = hd ++ p1) as (p1 & Ep).
    { symmetry in Eud.
      apply app_cut in Eud as [(p' & -> & _)|(a & Ea & Ha & _)]; [now exists p'|].
      exfalso. rewrite Ea, zlen_app in Hh. destruct a; [congruence|].
      rewrite zlen_cons in Hh. pose proof (zlen_nonneg a). lia. }
    destruct Hc as [?|Hc]; [congruence|].
    rewrite Ep, <- app_assoc in Eud. apply app_inv_head in Eud.
    assert (zlen p - zlen hd = zlen p1) as Hp1 by (rewrite Ep, zlen_app; lia).
    rewrite Hp1 in *. pose proof (be16_cut _ _ _ Eud Hc) as Ep1.
    exists (Some u), (firstn (Z.to_nat (zlen p1 / 2)) text). split; [exact Hu|]. split.
    { unfold kept_text. cbn [Z.eqb Pos.eqb]. now rewrite Hp1. }
    intros o. replace p with (Z.of_nat (length (serial els)) :: serial els ++ p1)
      by (rewrite Ep; reflexivity).
    rewrite process_header by (try exact Hm; lia).
    rewrite py_to_app, py_from_app by reflexivity. rewrite Eu.
    unfold finish. cbn [Z.eqb Pos.eqb]. rewrite st_bind_eq. cbn [st_lift].
    rewrite Ep1 at 1. rewrite ucs2_chars_be16; [reflexivity|]. now apply Forall_firstn.
Qed.

Lemma deliver_ud_coding hdr coding text udl ud : deliver_ud hdr coding text udl ud ->
  coding = 0 \/ coding = 4 \/ coding = 8.
Proof. intros [c x y z []|? ? ? ? ? ?|? ? ?|? ? ?]; auto. Qed.

Lemma header_ud els coding text udl ud : deliver_ud (Some els) coding text udl ud ->
  (exists r, ud = header_octets (Some els) ++ r) /\
  zlen (serial els) < 140 /\ zlen ud <= udl /\ udl <= 160 /\
  (coding = 0 -> header_septets (zlen (header_octets (Some els))) <= udl).
Proof.
  intros H. pose proof (zlen_nonneg (serial els)) as Hs0.
  inversion H as [|e x g u hd hs Hok Hg Hl Hp|e x hd Hok Hx Hl|e x hd Hok Hx Hl]; subst.
  - unfold header_octets. fold hd. pose proof (zlen_nonneg g) as Hg0.
    assert (zlen hd = 1 + zlen (serial els)) as Hhl by (unfold hd; rewrite zlen_cons; lia).
    change (Z.of_nat (length hd)) with (zlen hd) in hs. fold (zlen g) in *.
    assert (8 * zlen hd <= 7 * hs <= 8 * zlen hd + 6) as Hhs
      by (unfold hs, header_septets; lia).
    clearbody hs.
    destruct (packed_header_prefix hd g ud) as (r & Er); [|exact Hp|].
    { unfold hd. constructor; [unfold octet; fold (zlen (serial els)); lia|now apply serial_octets]. }
    split; [now exists r|]. destruct Hp as (_ & Hpl & _). fold (zlen ud) in Hpl.
    fold (zlen hd) in Hpl. fold (zlen g) in Hpl. unfold octets_for, header_septets in Hpl.
    unfold header_septets. lia.
  - unfold header_octets. fold hd. split; [now exists text|].
    assert (zlen hd = 1 + zlen (serial els)) as Hhl by (unfold hd; rewrite zlen_cons; lia).
    rewrite app_length in Hl. fold (zlen (hd ++ text)). rewrite zlen_app.
    rewrite Nat2Z.inj_add in Hl. fold (zlen hd) (zlen text) in Hl.
    pose proof (zlen_nonneg text). split; [lia|]. split; [lia|]. split; [lia|discriminate].
  - unfold header_octets. fold hd. split; [now exists (be16 text)|].
    assert (zlen hd = 1 + zlen (serial els)) as Hhl by (unfold hd; rewrite zlen_cons; lia).
    rewrite app_length in Hl. fold (zlen (hd ++ be16 text)). rewrite zlen_app.
    rewrite Nat2Z.inj_add in Hl. fold (zlen hd) (zlen (be16 text)) in Hl.
    pose proof (zlen_nonneg (be16 text)). split; [lia|]. split; [lia|]. split; [lia|discriminate].
Qed.

Lemma process_odd mtype hdr text udl ud p q o :
  deliver_ud hdr 8 text udl ud -> Forall octet ud -> ud = p ++ q ->
  zlen (header_octets hdr) <= zlen p ->
  negb (Z.land mtype 64 =? 0) = match hdr with Some _ => true | None => false end ->
  (zlen p - zlen (header_octets hdr)) mod 2 = 1 ->
  index_error (process_message mtype 8 (udl :: p) o).
Proof.
  intros H Ho Eud Hh Hm Hc. unfold index_error.
  assert (Forall octet p) as Op by (rewrite Eud in Ho; now apply Forall_app in Ho).
  inversion H as [c x y z Hs| | |els x hd Hok Hx Hl]; subst hdr.
  - rewrite process_plain by exact Hm. unfold finish. cbn [Z.eqb Pos.eqb].
    rewrite st_bind_eq. cbn [st_lift]. change (zlen (header_octets None)) with 0 in Hc.
    rewrite ucs2_odd; [reflexivity|exact Op|now rewrite Z.sub_0_r in Hc].
  - change (header_octets (Some els)) with hd in *.
    assert (exists p1, p = hd ++ p1) as (p1 & Ep).
    { destruct (header_ud _ _ _ _ _ H) as ((r & Er) & _). rewrite Eud in Er.
      apply app_cut in Er as [(p' & -> & _)|(a & Ea & Ha & _)]; [now exists p'|].
      exfalso. change hd with (header_octets (Some els)) in Hh. rewrite Ea, zlen_app in Hh.
      destruct a; [congruence|]. rewrite zlen_cons in Hh. pose proof (zlen_nonneg a). lia. }
    destruct (from_bytes_serial els Hok) as (u & Eu & Hu).
    replace p with (Z.of_nat (length (serial els)) :: serial els ++ p1)
      by (rewrite Ep; reflexivity).
    rewrite process_header by (try exact Hm; lia).
    rewrite py_to_app, py_from_app by reflexivity. rewrite Eu.
    unfold finish. cbn [Z.eqb Pos.eqb]. rewrite st_bind_eq. cbn [st_lift].
    rewrite ucs2_odd; [reflexivity| |].
    + rewrite Ep in Op. now apply Forall_app in Op.
    + rewrite Ep, zlen_app in Hc. lia.
Qed.

(** What can be shown of a text. *)
Definition shorter (coding : Z) (text t : list Z) : Prop :=
  starts t text \/ (coding = 0 /\ exists w, starts w text /\ t = w ++ [0xA0]).

Lemma kept_shorter coding h m text t : coding = 0 \/ coding = 4 \/ coding = 8 ->
  kept_text coding h m text t -> shorter coding text t.
Proof.
  unfold kept_text. intros [->|[-> | ->]]; cbn [Z.eqb Pos.eqb].
  - intros (g & _ & w & Hw & [[_ ->]|(g' & _ & _ & ->)]); [now left|].
    right. split; [reflexivity|]. now exists w.
  - intros ->. left. eexists. symmetry. apply firstn_skipn.
  - intros ->. left. eexists. symmetry. apply firstn_skipn.
Qed.

Lemma process_any mtype hdr coding text udl ud p q o o' :
  deliver_ud hdr coding text udl ud -> Forall octet ud -> ud = p ++ q -> q <> [] ->
  negb (Z.land mtype 64 =? 0) = match hdr with Some _ => true | None => false end ->
  process_message mtype coding (udl :: p) o = (Ok tt, o') ->
  exists t u, shorter coding text t /\ o' = set_d_text (Some t) (set_d_udh u o).
Proof.
  intros H Ho Eud Hq Hm Ep.
  assert (Forall octet p) as Op by (rewrite Eud in Ho; now apply Forall_app in Ho).
  pose proof (deliver_ud_coding _ _ _ _ _ H) as Hcod.
  destruct (Z.le_gt_cases (zlen (header_octets hdr)) (zlen p)) as [Hh|Hh].
  - assert (coding <> 8 \/ (zlen p - zlen (header_octets hdr)) mod 2 = 0) as Hc.
    { destruct (Z.eq_dec coding 8) as [->|]; [|now left]. right.
      destruct (Z.eq_dec ((zlen p - zlen (header_octets hdr)) mod 2) 0) as [|Hne]; [assumption|].
      pose proof (process_odd mtype hdr text udl ud p q o H Ho Eud Hh Hm ltac:(lia)) as X.
      unfold index_error in X. rewrite Ep in X. discriminate. }
    destruct (process_cut mtype hdr coding text udl ud p q H Ho Eud Hq Hh Hm Hc)
      as (u & t & _ & Ht & E).
    rewrite E in Ep. apply (f_equal snd) in Ep. cbn [snd] in Ep. subst o'.
    exists t, (match u with Some u => Some u | None => d_udh o end).
    split; [now apply kept_shorter in Ht|]. destruct u, o; reflexivity.
  - destruct hdr as [els|]; [|cbn in Hh; pose proof (zlen_nonneg p); lia].
    destruct (header_ud _ _ _ _ _ H) as ((r & Er) & Hs & Hl1 & Hl2 & Hhs).
    assert (zlen (header_octets (Some els)) = 1 + zlen (serial els)) as Hhl
      by (unfold header_octets; rewrite zlen_cons; lia).
    destruct p as [|n p].
    { unfold process_message in Ep. rewrite st_bind_eq in Ep. cbn [st_lift pop0] in Ep.
      cbn zeta in Ep. rewrite Hm in Ep. discriminate. }
    rewrite Er in Eud. cbn [header_octets app] in Eud.
    pose proof (f_equal (hd 0) Eud) as En. cbn [hd] in En. fold (zlen (serial els)) in En.
    subst n. rewrite zlen_cons in Hh.
    rewrite process_header in Ep by (try exact Hm; apply zlen_nonneg).
    destruct (from_bytes _) as [u|e]; [|discriminate].
    exists [], (Some u). split; [left; now exists text|].
    rewrite py_from_short in Ep by lia.
    destruct Hcod as [->|[-> | ->]]; unfold finish in Ep; cbn [Z.eqb Pos.eqb] in Ep.
    + rewrite st_bind_eq in Ep. cbn [st_lift] in Ep.
      rewrite py_to_short in Ep
        by (pose proof (zlen_nonneg q); rewrite zlen_cons; rewrite Er, zlen_app, Hhl in Hl1;
            pose proof (zlen_nonneg r); lia).
      rewrite unpack_msg_hex in Ep by exact Op.
      assert (length (unpack_msg2 (zlen (serial els) :: p)) <=
              Z.to_nat (header_septets (zlen (serial els) + 1)))%nat as Hlen.
      { destruct (unpack_all_spec _ Op 0 0) as (_ & Hla & _); [lia|cbn; lia|].
        unfold unpack_msg2. pose proof (zlen_nonneg p). rewrite zlen_cons in Hla.
        rewrite unpack_loop_all by lia. unfold header_septets. unfold zlen at 1 in Hla. lia. }
      unfold py_slice in Ep. rewrite skipn_all2 in Ep by exact Hlen. rewrite firstn_nil in Ep.
      apply (f_equal snd) in Ep. exact (eq_sym Ep).
    + apply (f_equal snd) in Ep. exact (eq_sym Ep).
    + apply (f_equal snd) in Ep. exact (eq_sym Ep).
Qed.

(** Everything before the user data. *)
Lemma set_pdu_process pdu smsc sc fo n ty os snd pid dcs ts oz t rest st :
  reads_hex pdu (sc ++ [fo] ++ (n :: ty :: os) ++ [pid; dcs] ++ ts ++ oz :: rest) ->
  smsc_field smsc sc -> message_type fo = 0 ->
  addr_octets n = zlen os -> sender_of (type_of_number ty) os = Ok snd -> stamp ts t ->
  set_pdu pdu st = process_message fo (fmt_of_dcs dcs) rest
    (Deliver (d_strict st) (Some pdu) (d_udh st) (Some snd) (d_text st)
       (Some (fmt_of_dcs dcs)) (Some dcs) (Some pid) (smsc_text smsc) (d_type st)
       (Some (t - 900 * zone_quarters oz)) (Some fo) (d_sr st)).
Proof.
  intros Hx Hsc Hmt Hn Hsnd Hts.
  pose proof (reads_hex_octets _ _ Hx) as Ho.
  rewrite (set_pdu_start _ _ _ Hx). clear Hx. cbn [app] in *.
  repeat match goal with
  | H : Forall octet (_ ++ _) |- _ => apply Forall_app in H as [? H]
  | H : Forall octet (_ :: _) |- _ =>
      let A := fresh "O" in pose proof (Forall_inv H) as A; apply Forall_inv_tail in H
  end.
  rewrite st_bind_eq, (smsc_stage smsc sc) by assumption.
  rewrite st_bind_eq. cbn [st_lift pop0]. rewrite st_bind_eq. cbn [assign st_upd].
  rewrite mti_bits by assumption. rewrite Hmt. cbn [Z.eqb]. cbn zeta iota.
  rewrite (deliver_stage fo n ty os snd pid dcs ts oz t) by assumption.
  reflexivity.
Qed.

(** * Status reports *)

Lemma semi_cut ds os k : semi_octets ds os -> (k <= length os)%nat ->
  semi_octets (firstn (2 * k) ds) (firstn k os).
Proof.
  intros H. revert k. induction H; intros k Hk.
  - destruct k; [constructor|cbn in Hk; lia].
  - destruct k as [|[|k]]; [constructor|now constructor|cbn in Hk; lia].
  - destruct k; [constructor|].
    replace (2 * S k)%nat with (S (S (2 * k))) by lia. cbn [firstn].
    constructor; try assumption. apply IHsemi_octets. cbn in Hk. lia.
Qed.

Lemma report_date_short l : Forall octet l -> zlen l < 6 -> report_date l = ([], None).
Proof.
  intros Ho Hl. unfold report_date.
  assert (length (py_to (swap (encode_bytes l)) 12) < 12)%nat as H.
  { unfold py_to. rewrite firstn_length, swap_length, encode_bytes_length by exact Ho.
    unfold zlen in Hl. lia. }
  destruct (py_to (swap (encode_bytes l)) 12)
    as [|? [|? [|? [|? [|? [|? [|? [|? [|? [|? [|? [|? ?]]]]]]]]]]]]; try reflexivity.
  cbn in H. lia.
Qed.

Lemma report_date_full ts l t : stamp ts t -> Forall octet (ts ++ l) ->
  report_date (py_to (ts ++ l) 7) = (stamp_text ts, Some t).
Proof.
  intros Hts Ho. apply Forall_app in Ho as [Ho Hl].
  destruct (strptime_stamp ts t Hts Ho) as (Sd & St & Sl & Sn).
  unfold report_date.
  assert (py_to (swap (encode_bytes (py_to (ts ++ l) 7))) 12 = swap (encode_bytes ts)) as ->.
  { destruct Hts as (oy & om & od & oh & oi & os & -> & _). cbn [app].
    repeat (match goal with H : Forall octet (_ :: _) |- _ =>
      let A := fresh "O" in pose proof (Forall_inv H) as A; apply Forall_inv_tail in H end).
    destruct l as [|x l].
    - unfold py_to at 2. change (Z.to_nat 7) with 7%nat. cbn [firstn].
      rewrite !swap_hex_cons by assumption. reflexivity.
    - unfold py_to at 2. change (Z.to_nat 7) with 7%nat. cbn [firstn].
      pose proof (Forall_inv Hl). rewrite !swap_hex_cons by assumption. reflexivity. }
  rewrite Sd, St. reflexivity.
Qed.

(** A time stamp that may be cut short. *)
Lemma report_date_cut ts t r q l : stamp ts t -> Forall octet r -> r ++ q = ts ++ l ->
  report_date (py_to r 7) = (if 6 <=? zlen r then (stamp_text ts, Some t) else ([], None)).
Proof.
  intros Hts Ho E.
  assert (zlen ts = 6) as Hl by (destruct Hts as (? & ? & ? & ? & ? & ? & -> & _); reflexivity).
  apply app_cut in E as [(r' & -> & _)|(a & -> & Ha & _)].
  - rewrite zlen_app, Hl. pose proof (zlen_nonneg r').
    destruct (6 <=? 6 + zlen r') eqn:E6; [|lia]. now apply report_date_full.
  - rewrite zlen_app in Hl. destruct a as [|x a]; [congruence|]. rewrite zlen_cons in Hl.
    pose proof (zlen_nonneg a). destruct (6 <=? zlen r) eqn:E6; [lia|].
    apply report_date_short.
    + now apply Forall_py_to.
    + rewrite py_to_short by lia. lia.
Qed.

Lemma cut_rest {A} (p q a b : list A) : p ++ q = a ++ b ->
  exists q', py_from p (zlen a) ++ q' = b.
Proof.
  intros E. apply app_cut in E as [(r & -> & ->)|(a' & -> & _ & _)].
  - exists q. rewrite py_from_app by reflexivity. reflexivity.
  - exists b. rewrite py_from_short by (rewrite zlen_app; pose proof (zlen_nonneg a'); lia).
    reflexivity.
Qed.

Lemma zlen_from {A} (l : list A) n : 0 <= n -> zlen (py_from l n) = Z.max 0 (zlen l - n).
Proof. intros H. unfold zlen, py_from. rewrite skipn_length. lia. Qed.

(** A status report of which the octets up to the type of the recipient's number
    are there, and [p] of the rest, without the status. *)
Lemma report_cut strict pdu smsc sc fo mr ty ds os ts1 oz1 t1 ts2 oz2 t2 p q :
  reads_hex pdu (sc ++ [fo; mr; zlen ds; ty] ++ p) ->
  smsc_field smsc sc -> message_type fo = 2 -> semi_octets ds os ->
  stamp ts1 t1 -> stamp ts2 t2 ->
  p ++ q = os ++ ts1 ++ [oz1] ++ ts2 ++ [oz2] ->
  exists d, new_deliver pdu strict = Ok d /\
    d_number d = Some (str "SR-UNKNOWN") /\
    d_sr d = Some (SReport (number_text ty (firstn (Z.to_nat (2 * zlen p)) ds))
      (if zlen os + 6 <=? zlen p then Some t1 else None)
      (if zlen os + 13 <=? zlen p then Some t2 else None) None) /\
    d_date d = (if zlen os + 6 <=? zlen p then Some t1 else None).
Proof.
  intros Hx Hsc Hmt Hos Hts1 Hts2 E.
  pose proof (reads_hex_octets _ _ Hx) as Ho.
  unfold new_deliver. rewrite (set_pdu_start _ _ _ Hx). clear Hx.
  rewrite st_bind_eq, (smsc_stage smsc sc) by (try assumption; now apply Forall_app in Ho).
  apply Forall_app in Ho as [_ Ho]. cbn [app] in *.
  pose proof (Forall_inv Ho) as Ofo.
  pose proof (Forall_inv (Forall_inv_tail (Forall_inv_tail (Forall_inv_tail Ho)))) as Oty.
  do 4 apply Forall_inv_tail in Ho.
  rewrite st_bind_eq. cbn [st_lift pop0]. rewrite st_bind_eq. cbn [assign st_upd].
  rewrite mti_bits by assumption. rewrite Hmt. change (2 =? 2) with true. cbn zeta iota.
  unfold decode_status_report_pdu.
  do 4 (rewrite st_bind_eq; cbn [assign st_upd st_lift pop0]; cbn zeta).
  rewrite addr_octets_spec by apply zlen_nonneg.
  rewrite <- (semi_octets_length _ _ Hos), type_bits by assumption.
  assert (py_to p (zlen os) = firstn (length p) os) as Ep.
  { unfold py_to. unfold zlen. rewrite Nat2Z.id.
    assert (firstn (length os) (firstn (length p) (p ++ q)) =
            firstn (length p) (firstn (length os) (os ++ ts1 ++ oz1 :: ts2 ++ [oz2]))) as X.
    { rewrite E, !firstn_firstn. f_equal. lia. }
    rewrite firstn_app, firstn_all, Nat.sub_diag, firstn_O, app_nil_r in X.
    rewrite X, firstn_app, firstn_all, Nat.sub_diag, firstn_O, app_nil_r. reflexivity. }
  assert (swap_number (encode_bytes (py_to p (zlen os))) =
          map (fun d => 48 + d) (firstn (Z.to_nat (2 * zlen p)) ds)) as ->.
  { rewrite Ep. destruct (Nat.le_gt_cases (length p) (length os)) as [Hle|Hgt].
    - pose proof (semi_cut ds os (length p) Hos Hle) as Hc.
      rewrite (semi_hex _ _ Hc). do 2 f_equal. unfold zlen. lia.
    - rewrite !firstn_all2; [now apply semi_hex| |lia].
      pose proof (semi_octets_length _ _ Hos). unfold zlen in *. lia. }
  destruct (cut_rest p q os _ E) as (q1 & E1).
  pose proof (zlen_from p (zlen os) (zlen_nonneg os)) as L1.
  pose proof (Forall_py_from octet (zlen os) p Ho) as O1.
  set (r1 := py_from p (zlen os)) in *. clearbody r1.
  rewrite (report_date_cut ts1 t1 r1 q1 _ Hts1 O1 E1).
  replace (ts1 ++ oz1 :: ts2 ++ [oz2]) with ((ts1 ++ [oz1]) ++ ts2 ++ [oz2]) in E1
    by now rewrite <- app_assoc.
  assert (forall ts t oz, stamp ts t -> zlen (ts ++ [oz]) = 7) as L7.
  { intros ts t oz (? & ? & ? & ? & ? & ? & -> & _). reflexivity. }
  destruct (cut_rest r1 q1 _ _ E1) as (q2 & E2). rewrite (L7 _ _ _ Hts1) in E2.
  pose proof (zlen_from r1 7 ltac:(lia)) as L2.
  pose proof (Forall_py_from octet 7 r1 O1) as O2.
  set (r2 := py_from r1 7) in *. clearbody r2.
  rewrite (report_date_cut ts2 t2 r2 q2 _ Hts2 O2 E2).
  assert (py_from r2 7 = []) as E3.
  { apply py_from_short. apply (f_equal (@zlen Z)) in E2.
    rewrite zlen_app, (L7 _ _ _ Hts2) in E2. pose proof (zlen_nonneg q2). lia. }
  replace (zlen os + 6 <=? zlen p) with (6 <=? zlen r1) by lia.
  replace (zlen os + 13 <=? zlen p) with (6 <=? zlen r2) by lia.
  unfold number_text.
  destruct (6 <=? zlen r1), (6 <=? zlen r2), (type_of_number ty =? 1); cbn iota beta;
    rewrite E3; eexists; (split; [reflexivity|]); repeat split.
Qed.

Lemma report_rejected strict pdu smsc sc fo mr n ty p q :
  reads_hex pdu p -> smsc_field smsc sc -> message_type fo = 2 -> Forall octet (p ++ q) ->
  p ++ q = sc ++ [fo; mr; n; ty] -> q <> [] ->
  new_deliver pdu strict = Err IndexError.
Proof.
  intros Hx Hsc Hmt Ho E Hq. apply new_deliver_err. unfold index_error.
  rewrite (set_pdu_start _ _ _ Hx). rewrite E in Ho. apply Forall_app in Ho as [Osc Ho].
  pose proof (Forall_inv Ho) as Ofo.
  apply app_cut in E as [(p1 & -> & E)|(a & Ea & Hne & _)].
  2: { rewrite st_bind_eq.
       destruct (smsc_cut smsc sc p a (set_d_pdu (Some pdu) (deliver0 strict)) Hsc Ea Hne)
         as (s' & [-> | ->]); reflexivity. }
  rewrite st_bind_eq, (smsc_stage smsc sc) by assumption.
  destruct p1 as [|x p1]; [reflexivity|]. cbn [app] in E. injection E as <- E.
  rewrite st_bind_eq. cbn [st_lift pop0]. rewrite st_bind_eq. cbn [assign st_upd].
  rewrite mti_bits by assumption. rewrite Hmt. cbn [Z.eqb Pos.eqb]. cbn zeta iota.
  destruct p1 as [|y [|z [|w p1]]]; [reflexivity|reflexivity|reflexivity|].
  cbn [app] in E. injection E as _ _ _ E. destruct p1; [cbn in E; congruence|discriminate].
Qed.

(** * Octets after the user data *)

(** The octets of the text in 8-bit data and UCS-2. *)
Definition plain_octets (coding : Z) (text : list Z) : list Z :=
  if coding =? 4 then text else be16 text.

Lemma plain_ud hdr coding text udl ud : deliver_ud hdr coding text udl ud -> coding <> 0 ->
  ud = header_octets hdr ++ plain_octets coding text /\ (coding = 8 -> Forall unit16 text).
Proof.
  intros [c x y z []|? ? ? ? ? ?|? ? ?|? ? ?] Hc; try congruence; split; auto; discriminate.
Qed.

Lemma process_more mtype hdr coding text udl ud more :
  deliver_ud hdr coding text udl ud -> coding <> 0 ->
  negb (Z.land mtype 64 =? 0) = match hdr with Some _ => true | None => false end ->
  exists u, header_view hdr u /\ forall o,
    process_message mtype coding (udl :: ud ++ more) o =
    finish coding 0 udl [] (plain_octets coding text ++ more)
      match u with Some u => set_d_udh (Some u) o | None => o end.
Proof.
  intros H Hc Hm. destruct (plain_ud _ _ _ _ _ H Hc) as [-> _].
  assert (forall fmt h msgl msg rest o, fmt <> 0 ->
            finish fmt h msgl msg rest o = finish fmt 0 udl [] rest o) as F.
  { intros fmt h msgl msg rest o Hf. unfold finish. destruct (fmt =? 0) eqn:E; [lia|reflexivity]. }
  destruct hdr as [els|].
  - assert (Forall element_ok els) as Hok by (inversion H; assumption).
    destruct (from_bytes_serial els Hok) as (u & Eu & Hu).
    exists (Some u). split; [exact Hu|]. intros o. unfold header_octets. cbn [app].
    rewrite process_header by (try exact Hm; lia).
    rewrite <- app_assoc, py_to_app, py_from_app by reflexivity. rewrite Eu. now apply F.
  - exists None. split; [exact I|]. intros o. cbn [header_octets app].
    rewrite process_plain by exact Hm. now apply F.
Qed.

Lemma be16_app a b : be16 (a ++ b) = be16 a ++ be16 b.
Proof. induction a as [|x a IH]; [reflexivity|]. cbn [be16 app]. now rewrite IH. Qed.

Lemma be16_exists l : Forall octet l -> zlen l mod 2 = 0 ->
  exists us, l = be16 us /\ Forall unit16 us.
Proof.
  enough (forall n (l : list Z), (length l <= n)%nat -> Forall octet l -> zlen l mod 2 = 0 ->
    exists us, l = be16 us /\ Forall unit16 us) as G by (intros; eapply G; eauto).
  clear l. induction n as [|n IH]; intros l Hn Ho Hl.
  - destruct l; [|cbn in Hn; lia]. exists []. now split.
  - destruct l as [|a [|b r]]; [exists []; now split|cbn in Hl; lia|].
    destruct (IH r) as (us & -> & Hu).
    + cbn in Hn. lia.
    + now do 2 apply Forall_inv_tail in Ho.
    + rewrite !zlen_cons in Hl. lia.
    + pose proof (Forall_inv Ho) as Oa. pose proof (Forall_inv (Forall_inv_tail Ho)) as Ob.
      unfold octet in Oa, Ob.
      exists (256 * a + b :: us). split.
      * cbn [be16]. f_equal; [lia|]. f_equal. lia.
      * constructor; [unfold unit16; lia|assumption].
Qed.
