(** Proofs about SmsSubmit. *)
From Coq Require Import Lia ZifyBool ZifyNat.
From Verif Require Import Py PyFacts SpecGsm SpecPack SpecAddress SpecTime SpecSubmit
  Gsm GsmFacts Utils PackFacts ValidityFacts Submit SubmitClaims NumberFacts SplitFacts.
Open Scope Z_scope.
Ltac Zify.zify_post_hook ::= Z.div_mod_to_equations.

Ltac foralls := repeat (apply Forall_cons || apply Forall_nil).

(** * Hexadecimal *)

Lemma hex_of_app a b : hex_of (a ++ b) = hex_of a ++ hex_of b.
Proof. induction a; cbn; congruence. Qed.

Lemma hex_of_length l : zlen (hex_of l) = 2 * zlen l.
Proof. induction l; cbn [hex_of]; [reflexivity|]. rewrite !zlen_cons, IHl. lia. Qed.

Lemma upper_hex l : Forall octet l -> py_upper (hex_of l) = hex_upper l.
Proof.
  unfold py_upper. induction 1 as [|b l Hb _ IH]; cbn [hex_of hex_upper map]; [reflexivity|].
  unfold octet in Hb. rewrite IH. f_equal; [|f_equal].
  - unfold up, hex_digit, hex_digit_upper. destruct (b / 16 <? 10) eqn:E.
    + now replace ((97 <=? 48 + b / 16) && (48 + b / 16 <=? 122)) with false by lia.
    + replace ((97 <=? 97 + (b / 16 - 10)) && (97 + (b / 16 - 10) <=? 122)) with true by lia. lia.
  - unfold up, hex_digit, hex_digit_upper. destruct (b mod 16 <? 10) eqn:E.
    + now replace ((97 <=? 48 + b mod 16) && (48 + b mod 16 <=? 122)) with false by lia.
    + replace ((97 <=? 97 + (b mod 16 - 10)) && (97 + (b mod 16 - 10) <=? 122)) with true by lia. lia.
Qed.

Lemma encode_str_hex l : Forall octet l -> encode_str l = hex_of l.
Proof. intros H. now rewrite hex_of_encode. Qed.

(** * The specification's reader on a composed PDU *)

Lemma read_semi_spec ds os : semi_octets ds os -> read_semi os = ds.
Proof.
  induction 1 as [|a Ha|a b ds os Ha Hb H IH]; [reflexivity| |].
  - cbn [read_semi]. replace ((a + 16 * 15) / 16) with 15 by lia.
    replace ((a + 16 * 15) mod 16) with a by lia. reflexivity.
  - cbn [read_semi]. replace ((a + 16 * b) / 16) with b by lia.
    replace ((a + 16 * b) mod 16) with a by lia.
    destruct os as [|o os']; [|now rewrite IH].
    inversion H; subst. now replace (b =? 15) with false by lia.
Qed.

(** [smsc_part sm v]: the leading octets [sm] say service centre [v]. *)
Definition smsc_part (sm : list Z) (v : option (Z * list Z)) : Prop :=
  (sm = [0] /\ v = None) \/
  exists ty ds os, semi_octets ds os /\ sm = 1 + zlen os :: ty :: os /\ v = Some (ty, ds).

Lemma parse_composed sm v fo mr dt ds os pid dcs vp udl ud :
  smsc_part sm v -> semi_octets ds os ->
  length vp = vp_octets ((fo / 8) mod 4) ->
  parse_submit (sm ++ fo :: mr :: zlen ds :: dt :: os ++ pid :: dcs :: vp ++ udl :: ud) =
  Some (SubmitPdu v (fo mod 4) (Z.odd (fo / 4)) ((fo / 8) mod 4) (Z.odd (fo / 32))
          (Z.odd (fo / 64)) (Z.odd (fo / 128)) mr (dt, ds) pid dcs vp udl ud).
Proof.
  intros Hs Hd Hv.
  assert (exists l r, sm = l :: r /\ l = zlen r /\
          match r with [] => None | ty :: q => Some (ty, read_semi q) end = v)
    as (l & r & -> & El & Ev).
  { destruct Hs as [[-> ->]|(ty & d2 & o2 & S & -> & ->)].
    - exists 0, []. auto.
    - exists (1 + zlen o2), (ty :: o2). split; [reflexivity|]. split; [now rewrite zlen_cons|].
      now rewrite (read_semi_spec _ _ S). }
  unfold parse_submit. cbn [app].
  assert (Z.to_nat l = length r) as -> by (subst l; unfold zlen; lia).
  rewrite firstn_app, Nat.sub_diag, firstn_all, firstn_O, app_nil_r.
  rewrite skipn_app, Nat.sub_diag, skipn_all. cbn [skipn app]. rewrite Ev.
  assert (Z.to_nat ((zlen ds + 1) / 2) = length os) as ->.
  { pose proof (semi_octets_length _ _ Hd). unfold zlen in *. lia. }
  rewrite firstn_app, Nat.sub_diag, firstn_all, firstn_O, app_nil_r.
  rewrite skipn_app, Nat.sub_diag, skipn_all. cbn [skipn app].
  rewrite (read_semi_spec _ _ Hd).
  assert (firstn (Z.to_nat (zlen ds)) ds = ds) as ->.
  { apply firstn_all2. unfold zlen. lia. }
  rewrite <- Hv.
  rewrite firstn_app, Nat.sub_diag, firstn_all, firstn_O, app_nil_r.
  rewrite skipn_app, Nat.sub_diag, skipn_all. cbn [skipn app]. reflexivity.
Qed.

Definition vpf_of (v : validity) : Z :=
  match v with NoValidity => 0 | Relative _ => 2 | Absolute _ => 3 end.

(** * The parts of a PDU *)

Lemma smsc_pdu_ok s : wf_submit s ->
  exists sm v, get_smsc_pdu s = Ok (hex_of sm) /\ smsc_part sm v /\
    smsc_of (s_csca s) v /\ Forall octet sm /\ exists r, sm = zlen r :: r.
Proof.
  intros (_ & Hc & _). unfold settable in Hc. unfold smsc_of.
  destruct (s_csca s) as [[|c n]|] eqn:E.
  - exists [0], None. unfold get_smsc_pdu. rewrite E.
    repeat split; [left; auto|repeat constructor; unfold octet; lia|exists []; reflexivity].
  - destruct Hc as (intl & ds & Hn).
    destruct (smsc_pdu_spec s intl ds _ E Hn) as (os & S & G).
    exists (1 + zlen os :: address_type intl :: os), (Some (address_type intl, map digit_value ds)).
    split; [exact G|]. split; [right; eauto 10|]. split; [eauto|].
    pose proof (semi_octets_length _ _ S) as Hos. unfold zlen in Hos at 2. rewrite map_length in Hos.
    destruct Hn as (_ & Hl & _).
    split; [|exists (address_type intl :: os); now rewrite zlen_cons].
    constructor; [unfold octet; lia|]. constructor; [unfold octet, address_type; destruct intl; lia|].
    eapply semi_octets_octet; eassumption.
  - exists [0], None. unfold get_smsc_pdu. rewrite E.
    repeat split; [left; auto|repeat constructor; unfold octet; lia|exists []; reflexivity].
Qed.

Lemma phone_pdu_ok s l : wf_submit s -> get_phone_pdu s = Ok l ->
  exists ds dt os, destination_of (s_number s) (dt, ds) /\ semi_octets ds os /\
    l = hex_of (zlen ds :: dt :: os) /\ Forall octet (zlen ds :: dt :: os).
Proof.
  intros (Hn & _) G. unfold settable in Hn. unfold destination_of.
  destruct (s_number s) as [[|c n]|] eqn:E.
  - unfold get_phone_pdu in G. rewrite E in G. discriminate.
  - destruct Hn as (intl & ds & Hn).
    destruct (phone_pdu_spec s intl ds _ E Hn) as (os & S & G'). rewrite G in G'.
    exists (map digit_value ds), (address_type intl), os.
    assert (zlen (map digit_value ds) = zlen ds) as -> by (unfold zlen; now rewrite map_length).
    split; [eauto|]. split; [exact S|]. split; [congruence|].
    destruct Hn as (_ & Hl & _).
    constructor; [unfold octet, zlen; lia|].
    constructor; [unfold octet, address_type; destruct intl; lia|].
    eapply semi_octets_octet; eassumption.
  - unfold get_phone_pdu in G. rewrite E in G. discriminate.
Qed.

Definition first_octet (vpf : Z) (srr udhi : bool) : Z :=
  1 + 8 * vpf + 32 * Z.b2z srr + 64 * Z.b2z udhi.

Lemma submit_octet s udhi :
  get_sms_submit_pdu s udhi = Ok (hex_of [first_octet (vpf_of (s_validity s)) (s_request_status s) udhi]).
Proof.
  unfold get_sms_submit_pdu, first_octet.
  destruct (s_validity s); destruct (s_request_status s); destruct udhi; reflexivity.
Qed.

Lemma first_octet_fields vpf srr udhi : vpf = 0 \/ vpf = 2 \/ vpf = 3 ->
  let fo := first_octet vpf srr udhi in
  octet fo /\ fo mod 4 = 1 /\ Z.odd (fo / 4) = false /\ (fo / 8) mod 4 = vpf /\
  Z.odd (fo / 32) = srr /\ Z.odd (fo / 64) = udhi /\ Z.odd (fo / 128) = false.
Proof.
  intros [->|[->| ->]]; destruct srr, udhi; cbn -[octet]; unfold octet; repeat split; lia.
Qed.

Lemma rand_id_ok s : Forall (fun i => 0 <= i < 255) (s_id_list s) ->
  exists i l, get_rand_id s = (Ok i, with_id_list l s) /\ 0 <= i < 255 /\
    Forall (fun i => 0 <= i < 255) l /\
    i :: l = match s_id_list s with [] => id_range | _ => s_id_list s end.
Proof.
  intros H. unfold get_rand_id. cbn [st_bind st_get].
  destruct (s_id_list s) as [|i l] eqn:E.
  - exists 0, (map Z.of_nat (seq 1 254)). split; [reflexivity|]. split; [lia|]. split; [|reflexivity].
    apply Forall_forall. intros x Hx. apply in_map_iff in Hx as (k & <- & Hk).
    apply in_seq in Hk. lia.
  - exists i, l. inversion H; subst. auto.
Qed.

Lemma tpmessref_ok s : Forall (fun i => 0 <= i < 255) (s_id_list s) ->
  exists mr l, get_tpmessref_pdu s = (Ok (hex_of [mr]), with_ref (Some mr) (with_id_list l s)) /\
    octet mr /\ Forall (fun i => 0 <= i < 255) l /\
    match s_ref s with
    | Some r => mr = r mod 256 /\ l = s_id_list s
    | None => mr :: l = match s_id_list s with [] => id_range | _ => s_id_list s end
    end.
Proof.
  intros H. unfold get_tpmessref_pdu. cbn [st_bind st_get].
  destruct (s_ref s) as [r|] eqn:E.
  - cbn [st_ret st_bind]. exists (r mod 256), (s_id_list s).
    rewrite !land_255. unfold st_lift, st_upd, st_bind, st_ret.
    rewrite py_chr_octet by (unfold is_octet; lia).
    rewrite encode_str_hex by (repeat constructor; unfold octet; lia).
    split; [destruct s; reflexivity|]. split; [unfold octet; lia|]. auto.
  - destruct (rand_id_ok s H) as (i & l & G & Hi & Hl & El).
    unfold st_bind. rewrite G. cbn [st_upd st_ret].
    rewrite land_255, Z.mod_small by lia. exists i, l. unfold st_lift.
    rewrite py_chr_octet by (unfold is_octet; lia).
    rewrite encode_str_hex by (repeat constructor; unfold octet; lia).
    split; [destruct s; reflexivity|]. split; [unfold octet; lia|]. auto.
Qed.

Lemma msgvp_ok v : validity_ok v ->
  (exists vp, get_msgvp_pdu v = Ok (hex_of vp) /\ Forall octet vp /\
     length vp = vp_octets (vpf_of v) /\
     validity_octets (validity_request v) (vpf_of v) vp) \/
  get_msgvp_pdu v = Err ValueError.
Proof.
  intros H. destruct v as [|t|d]; cbn [get_msgvp_pdu validity_octets validity_request vpf_of].
  - left. exists []. repeat split. constructor.
  - destruct (Z_le_dec (5 * 60 * 1000000) t) as [L1|L1];
    [destruct (Z_le_dec t (63 * 7 * 86400 * 1000000)) as [L2|L2]|].
    + left. destruct (relative_floor t (conj L1 L2)) as (v & E & Hv & Hp & Hm).
      exists [v]. rewrite E. cbn [bind]. rewrite py_chr_octet by (unfold is_octet; lia).
      cbn [bind]. assert (octet v) by (unfold octet; lia).
      rewrite encode_str_hex by (foralls; assumption).
      split; [reflexivity|]. split; [foralls; assumption|]. split; [reflexivity|].
      split; [reflexivity|]. exists v. split; [reflexivity|]. split; [assumption|]. split; [assumption|].
      intros w Hw. apply Hm. unfold octet in Hw. lia.
    + right. rewrite (proj1 (relative_error t)); [reflexivity|]. lia.
    + right. rewrite (proj1 (relative_error t)); [reflexivity|]. lia.
  - destruct H as [Hv Ho]. destruct (Z_le_dec 1900 (dt_year d)) as [L|L].
    + left. destruct d as [y mo dd hh mi ss off].
      cbn [dt_year dt_month dt_day dt_hour dt_minute dt_second dt_offset] in *.
      destruct (absolute_valid y mo dd hh mi ss off L Hv Ho)
        as (oy & om & od & oh & oi & os & oz & E & F & V).
      exists [oy; om; od; oh; oi; os; oz]. rewrite E. cbn [bind].
      rewrite mapM_py_chr by exact F. cbn [bind].
      split; [|split; [exact F|split; [reflexivity|]]].
      * rewrite <- encode_str_hex by exact F. cbn [map concat encode_str].
        unfold encode_str. cbn [map concat app]. rewrite !app_nil_r. reflexivity.
      * split; [reflexivity|]. exists oy, om, od, oh, oi, os, oz. split; [reflexivity|].
        destruct V as (V1 & V2 & V3 & V4 & V5 & V6 & V7). destruct off; auto 10.
    + right. unfold datetime_to_absolute_validity.
      now replace (dt_year d <? 1900) with true by lia.
Qed.

(** * User data *)

Lemma ucs2_char_ok n : unit16 n -> ucs2_char n = Ok [n / 256; n mod 256].
Proof.
  unfold unit16, ucs2_char. intros H. rewrite shiftr_8, land_255.
  rewrite !py_chr_octet by (unfold is_octet; lia). reflexivity.
Qed.

Lemma ucs2_char_err n : ~ unit16 n -> ucs2_char n = Err ValueError.
Proof.
  unfold unit16, ucs2_char. intros H. rewrite shiftr_8. unfold py_chr at 1.
  now replace ((0 <=? n / 256) && (n / 256 <? 256)) with false by lia.
Qed.

Lemma mapM_ucs2 l : Forall unit16 l ->
  exists nm, mapM ucs2_char l = Ok nm /\ concat nm = be16 l.
Proof.
  induction 1 as [|u l Hu _ (nm & E & C)]; cbn [mapM be16]; [exists []; auto|].
  rewrite ucs2_char_ok by assumption. cbn [bind]. rewrite E. cbn [bind].
  eexists. split; [reflexivity|]. cbn [concat app]. now rewrite C.
Qed.

Lemma mapM_ucs2_err l : ~ Forall unit16 l -> mapM ucs2_char l = Err ValueError.
Proof.
  induction l as [|u l IH]; intros H; [exfalso; apply H; constructor|]. cbn [mapM].
  destruct (Z_le_dec 0 u), (Z_lt_dec u 65536).
  1: { rewrite ucs2_char_ok by (unfold unit16; lia). cbn [bind]. rewrite IH; [reflexivity|].
       intros C. apply H. constructor; [unfold unit16; lia|assumption]. }
  all: rewrite ucs2_char_err by (unfold unit16; lia); reflexivity.
Qed.

Lemma be16_length l : zlen (be16 l) = 2 * zlen l.
Proof. induction l; cbn [be16]; [reflexivity|]. rewrite !zlen_cons, IHl. lia. Qed.

Lemma be16_octets l : Forall unit16 l -> Forall octet (be16 l).
Proof.
  induction 1 as [|u l Hu _ IH]; cbn [be16]; [constructor|].
  unfold unit16 in Hu. foralls; [unfold octet; lia|unfold octet; lia|assumption].
Qed.

Lemma be16_app a b : be16 (a ++ b) = be16 a ++ be16 b.
Proof. induction a; cbn; congruence. Qed.

Lemma septets_of_text us g : gsm_text us g -> Forall septet g.
Proof. apply gsm_text_septets. Qed.

(** One PDU, GSM alphabet. *)
Lemma message_gsm_single text g s :
  gsm_encode text = Ok g -> zlen g <= 160 ->
  exists ud, packed g ud /\ Forall octet (zlen g :: ud) /\
    message_ud 0 text s = (Ok [hex_of (zlen g :: ud)], with_text_gsm (Some g) s).
Proof.
  intros E Hl. pose proof E as Eg. apply gsm_encode_text in Eg as [_ Hg].
  destruct (pack_spec g (septets_of_text _ _ Hg) ltac:(lia)) as (ud & P & Ep).
  exists ud. split; [exact P|]. split.
  { constructor; [pose proof (zlen_nonneg g); unfold octet; lia|apply P]. }
  unfold message_ud. cbn [Z.eqb]. unfold st_bind, st_lift, st_upd, st_ret. rewrite E.
  unfold SEVENBIT_SIZE. replace (zlen g <=? 160) with true by lia. now rewrite Ep.
Qed.

(** One PDU, UCS-2. *)
Lemma message_ucs2_single text s : zlen (chars text) <= 70 ->
  message_ud 8 text s =
  if forallb (fun u => (0 <=? u) && (u <? 65536)) (chars text)
  then (Ok [hex_of (2 * zlen (chars text) :: be16 (chars text))], s)
  else (Err ValueError, s).
Proof.
  intros Hl. unfold message_ud. cbn [Z.eqb Pos.eqb].
  unfold UCS2_SIZE. replace (zlen (chars text) <=? 70) with true by lia.
  unfold st_bind, st_lift, pack_8bits_to_ucs2. cbn [bind].
  destruct (forallb _ (chars text)) eqn:F.
  - assert (Forall unit16 (chars text)) as Hu.
    { apply Forall_forall. intros u Hin. rewrite forallb_forall in F.
      specialize (F u Hin). unfold unit16. lia. }
    destruct (mapM_ucs2 _ Hu) as (nm & -> & C). cbn [bind].
    pose proof (zlen_nonneg (chars text)).
    rewrite py_chr_octet by (unfold is_octet; lia). cbn [bind]. rewrite C.
    rewrite encode_str_hex, Z.mul_comm; [reflexivity|].
    constructor; [unfold octet; lia|now apply be16_octets].
  - rewrite mapM_ucs2_err; [reflexivity|]. intros C.
    assert (forallb (fun u => (0 <=? u) && (u <? 65536)) (chars text) = true); [|congruence].
    apply forallb_forall. intros u Hin. rewrite Forall_forall in C. specialize (C u Hin).
    unfold unit16 in C. lia.
Qed.

(** One PDU, 8-bit data: a unicode text must be short enough for its length to
    be an ASCII character, a byte string is always accepted. *)
Lemma message_8bit_single text s : zlen (chars text) <= 140 ->
  Forall octet (chars text) ->
  message_ud 4 text s =
  if negb (is_uni text) || (zlen (chars text) <? 128)
  then (Ok [hex_of (zlen (chars text) :: chars text)], s)
  else (Err UnicodeError, s).
Proof.
  intros Hl Ho. unfold message_ud. cbn [Z.eqb Pos.eqb].
  unfold EIGHTBIT_SIZE. replace (zlen (chars text) <=? 140) with true by lia.
  unfold st_bind, st_lift, pack_8bits_to_8bit. cbn [bind].
  pose proof (zlen_nonneg (chars text)).
  rewrite py_chr_octet by (unfold is_octet; lia). cbn [bind].
  assert (Forall octet (zlen (chars text) :: chars text)) as Hoo.
  { constructor; [unfold octet; lia|assumption]. }
  unfold pystr_add. cbn [is_uni chars]. destruct (is_uni text) eqn:U; cbn [negb orb].
  - unfold is_ascii. cbn [forallb]. rewrite andb_true_r.
    destruct (zlen (chars text) <? 128) eqn:E; cbn [bind chars app]; [|reflexivity].
    now rewrite encode_str_hex.
  - cbn [bind chars app]. now rewrite encode_str_hex.
Qed.

(** * Parts *)

Lemma parts_loop_ok {A} (f : Z -> A -> res (list Z)) (Q : Z -> A -> list Z -> Prop) :
  forall msgs i,
  (forall k m, nth_error msgs k = Some m ->
     exists o, f (i + Z.of_nat k) m = Ok (hex_of o) /\ Q (i + Z.of_nat k) m o) ->
  exists os, parts_loop f i msgs = Ok (map hex_of os) /\ length os = length msgs /\
    forall k m o, nth_error msgs k = Some m -> nth_error os k = Some o ->
      Q (i + Z.of_nat k) m o.
Proof.
  induction msgs as [|m msgs IH]; intros i H.
  - exists []. split; [reflexivity|]. split; [reflexivity|]. intros k ? ? C. now destruct k.
  - destruct (H 0%nat m eq_refl) as (o & Eo & Qo). cbn [Z.of_nat] in *. rewrite Z.add_0_r in *.
    destruct (IH (i + 1)) as (os & E & L & HQ).
    { intros k m' Hk. destruct (H (S k) m' Hk) as (o' & Eo' & Qo').
      replace (i + 1 + Z.of_nat k) with (i + Z.of_nat (S k)) by lia. eauto. }
    exists (o :: os). cbn [parts_loop map length]. rewrite Eo. cbn [bind]. rewrite E.
    split; [reflexivity|]. split; [now rewrite L|].
    intros [|k] m' o' Hm Ho; cbn in Hm, Ho.
    + injection Hm as <-. injection Ho as <-. cbn [Z.of_nat]. now rewrite Z.add_0_r.
    + replace (i + Z.of_nat (S k)) with (i + 1 + Z.of_nat k) by lia. eauto.
Qed.

Lemma sms_ref_ok s : Forall (fun i => 0 <= i < 255) (s_id_list s) ->
  exists r l,
    (match s_rand_id s with None => get_rand_id | Some r => st_ret r end) s
      = (Ok r, with_id_list l s) /\
    Forall (fun i => 0 <= i < 255) l /\
    match s_rand_id s with
    | Some x => r = x /\ l = s_id_list s
    | None => 0 <= r < 255 /\
        r :: l = match s_id_list s with [] => id_range | _ => s_id_list s end
    end.
Proof.
  intros H. destruct (s_rand_id s) as [r|] eqn:E.
  - exists r, (s_id_list s). split; [destruct s; reflexivity|]. auto.
  - destruct (rand_id_ok s H) as (i & l & G & Hi & Hl & El). eauto 10.
Qed.

Lemma part_7bit_ok ref total i m :
  octet ref -> octet total -> octet i -> Forall septet m -> 1 <= zlen m <= 153 ->
  exists udl ud, part_7bit ref total i m = Ok (hex_of (udl :: ud)) /\
    part_ud 0 ref total i m udl ud /\ Forall octet (udl :: ud).
Proof.
  intros Hr Ht Hi Hm Hl. unfold part_7bit.
  rewrite !py_chr_octet by assumption. cbn [bind].
  assert (Forall octet [5; 0; 3; ref; total; i]) as Hh.
  { foralls; try assumption; unfold octet; lia. }
  destruct (pack_udh_spec m [5; 0; 3; ref; total; i] Hm eq_refl Hh ltac:(lia))
    as (o & P & E & _).
  exists (7 + zlen m), o. split; [exact E|]. split; [now constructor|].
  constructor; [unfold octet; lia|apply P].
Qed.

Lemma pystr_add_unicode h uni m : uni || is_ascii m = true ->
  pystr_add (PyStr true h) (PyStr uni m) = Ok (PyStr true (h ++ m)).
Proof.
  unfold pystr_add. cbn [is_uni chars]. destruct uni; [reflexivity|]. cbn [orb].
  now intros ->.
Qed.

Lemma part_ucs2_ok ref total i uni m :
  octet ref -> octet total -> octet i -> Forall unit16 m -> 1 <= zlen m <= 67 ->
  uni || is_ascii m = true ->
  exists udl ud,
    part_wide pack_8bits_to_ucs2 ref total i (PyStr uni m) = Ok (hex_of (udl :: ud)) /\
    part_ud 8 ref total i m udl ud /\ Forall octet (udl :: ud).
Proof.
  intros Hr Ht Hi Hm Hl Hu. unfold octet in *. unfold part_wide.
  rewrite !lor_shift8 by lia. change (5 * 256 + 0) with 1280.
  unfold py_unichr. change ((0 <=? 1280) && (1280 <? 1114112)) with true. cbn iota beta.
  replace ((0 <=? 3 * 256 + ref) && (3 * 256 + ref <? 1114112)) with true by lia.
  replace ((0 <=? total * 256 + i) && (total * 256 + i <? 1114112)) with true by lia.
  cbn [bind]. unfold pack_8bits_to_ucs2.
  set (hd := [1280; 3 * 256 + ref; total * 256 + i]).
  rewrite pystr_add_unicode by assumption.
  cbn [bind chars].
  assert (Forall unit16 (hd ++ m)) as Hum.
  { apply Forall_app. split; [|assumption]. unfold hd. foralls; unfold unit16; lia. }
  destruct (mapM_ucs2 _ Hum) as (nm & -> & C). cbn [bind].
  rewrite zlen_app. change (zlen hd) with 3.
  rewrite py_chr_octet by (unfold is_octet; lia). cbn [bind].
  assert (be16 hd = concat_header ref total i) as Eh.
  { unfold hd, concat_header. cbn [be16].
    replace ((3 * 256 + ref) / 256) with 3 by lia.
    replace ((3 * 256 + ref) mod 256) with ref by lia.
    replace ((total * 256 + i) / 256) with total by lia.
    replace ((total * 256 + i) mod 256) with i by lia. reflexivity. }
  assert (Forall octet (6 + 2 * zlen m :: concat_header ref total i ++ be16 m)) as Ho.
  { constructor; [unfold octet; lia|]. apply Forall_app.
    split; [unfold concat_header; foralls; unfold octet; lia|now apply be16_octets]. }
  exists (6 + 2 * zlen m), (concat_header ref total i ++ be16 m).
  split; [|split; [now constructor|exact Ho]].
  rewrite C, be16_app, Eh. rewrite <- encode_str_hex by exact Ho. 
  replace ((3 + zlen m) * 2) with (6 + 2 * zlen m) by lia. reflexivity.
Qed.

Lemma concat_zlen {A} (parts : list (list A)) w :
  Forall (fun p => zlen p <= w) parts -> zlen (concat parts) <= w * zlen parts.
Proof.
  induction 1 as [|p parts Hp _ IH]; cbn [concat]; [unfold zlen; cbn; lia|].
  rewrite zlen_app, zlen_cons. lia.
Qed.

Lemma Forall_concat_inv {A} (P : A -> Prop) parts :
  Forall P (concat parts) -> Forall (Forall P) parts.
Proof.
  induction parts as [|p parts IH]; cbn; intros H; [constructor|].
  apply Forall_app in H as [H1 H2]. constructor; auto.
Qed.

(** Several PDUs.  The parts, the reference and the user data of each. *)
Definition multipart (coding : Z) (ref : Z) (parts : list (list Z)) (os : list (list Z)) : Prop :=
  length os = length parts /\
  forall k m o, nth_error parts k = Some m -> nth_error os k = Some o ->
    exists udl ud, o = udl :: ud /\ Forall octet o /\
      part_ud coding ref (zlen parts) (1 + Z.of_nat k) m udl ud.

(** The reference used for the parts, and the ids left. *)
Definition drawn (s : submit) (ref : Z) (l : list Z) : Prop :=
  match s_rand_id s with
  | Some x => ref = x mod 256 /\ l = s_id_list s
  | None => ref :: l = match s_id_list s with [] => id_range | _ => s_id_list s end
  end.

Lemma split_7bit_ok g s parts :
  Forall (fun i => 0 <= i < 255) (s_id_list s) -> Forall septet g ->
  split_text g 153 = Ok parts -> zlen parts <= 255 ->
  exists ref l os, split_sms_message 0 (PyStr false g) s = (Ok (map hex_of os), with_id_list l s) /\
    multipart 0 ref parts os /\ drawn s ref l /\ octet ref /\
    Forall (fun i => 0 <= i < 255) l.
Proof.
  intros Hid Hg Ep Hp.
  destruct (split_text_spec g 153 ltac:(lia)) as (parts' & Ep' & Ec & Hlen).
  assert (parts' = parts) as -> by congruence. clear Ep'.
  destruct (sms_ref_ok s Hid) as (r & l & Er & Hl & Hr).
  unfold split_sms_message. cbn [Z.eqb]. cbn zeta. cbn [chars].
  change SEVENBIT_MP_SIZE with 153.
  unfold st_bind. unfold st_lift at 1. rewrite Ep. unfold st_get. rewrite Er.
  rewrite land_255.
  assert (Forall (Forall septet) parts) as Hs by (apply Forall_concat_inv; now rewrite Ec).
  destruct (parts_loop_ok (part_7bit (r mod 256) (zlen parts))
    (fun i m o => exists udl ud, o = udl :: ud /\ Forall octet o /\
       part_ud 0 (r mod 256) (zlen parts) i m udl ud) parts 1) as (os & E & L & Q).
  { intros k m Hk.
    assert (In m parts) as Hin by (eapply nth_error_In; eassumption).
    rewrite Forall_forall in Hlen, Hs.
    assert (k < length parts)%nat by (apply nth_error_Some; congruence).
    destruct (part_7bit_ok (r mod 256) (zlen parts) (1 + Z.of_nat k) m) as (udl & ud & E & P & O).
    - unfold octet. lia.
    - unfold octet, zlen in *. lia.
    - unfold octet, zlen in *. lia.
    - auto.
    - apply (Hlen m Hin).
    - exists (udl :: ud). split; [exact E|]. eauto. }
  exists (r mod 256), l, os. unfold st_lift. rewrite E. split; [reflexivity|].
  split; [split; assumption|]. unfold drawn, octet.
  destruct (s_rand_id s).
  - destruct Hr as [-> ->]. split; [auto|]. split; [lia|assumption].
  - destruct Hr as [Hr1 Hr2]. rewrite Z.mod_small by lia. split; [assumption|]. split; [lia|assumption].
Qed.

Lemma split_ucs2_ok uni t s parts :
  Forall (fun i => 0 <= i < 255) (s_id_list s) -> Forall unit16 t ->
  uni || is_ascii t = true ->
  split_text t 67 = Ok parts -> zlen parts <= 255 ->
  exists ref l os, split_sms_message 8 (PyStr uni t) s = (Ok (map hex_of os), with_id_list l s) /\
    multipart 8 ref parts os /\ drawn s ref l /\ octet ref /\
    Forall (fun i => 0 <= i < 255) l.
Proof.
  intros Hid Hg Ha Ep Hp.
  destruct (split_text_spec t 67 ltac:(lia)) as (parts' & Ep' & Ec & Hlen).
  assert (parts' = parts) as -> by congruence. clear Ep'.
  destruct (sms_ref_ok s Hid) as (r & l & Er & Hl & Hr).
  unfold split_sms_message. cbn [Z.eqb Pos.eqb]. cbn zeta. cbn [chars is_uni].
  change UCS2_MP_SIZE with 67.
  unfold st_bind. unfold st_lift at 1. rewrite Ep. unfold st_get. rewrite Er.
  rewrite land_255.
  assert (Forall (Forall unit16) parts) as Hs by (apply Forall_concat_inv; now rewrite Ec).
  assert (Forall (fun p => uni || is_ascii p = true) parts) as Has.
  { destruct uni; [apply Forall_forall; reflexivity|]. cbn [orb] in *.
    unfold is_ascii in *. rewrite forallb_forall in Ha.
    apply Forall_forall. intros p Hpin. apply forallb_forall. intros x Hx. apply Ha.
    rewrite <- Ec. apply in_concat. eauto. }
  destruct (parts_loop_ok (part_wide pack_8bits_to_ucs2 (r mod 256) (zlen parts))
    (fun i m o => exists udl ud, o = udl :: ud /\ Forall octet o /\
       part_ud 8 (r mod 256) (zlen parts) i (chars m) udl ud) (map (PyStr uni) parts) 1)
    as (os & E & L & Q).
  { intros k m Hk. rewrite nth_error_map in Hk.
    destruct (nth_error parts k) as [p|] eqn:Hkp; [|discriminate]. cbn in Hk. injection Hk as <-.
    assert (In p parts) as Hin by (eapply nth_error_In; eassumption).
    rewrite Forall_forall in Hlen, Hs, Has.
    assert (k < length parts)%nat by (apply nth_error_Some; congruence).
    destruct (part_ucs2_ok (r mod 256) (zlen parts) (1 + Z.of_nat k) uni p) as (udl & ud & E & P & O).
    - unfold octet. lia.
    - unfold octet, zlen in *. lia.
    - unfold octet, zlen in *. lia.
    - auto.
    - apply (Hlen p Hin).
    - auto.
    - exists (udl :: ud). split; [exact E|]. cbn [chars]. eauto. }
  exists (r mod 256), l, os. unfold st_lift. rewrite E. split; [reflexivity|].
  split.
  { split; [now rewrite L, map_length|]. intros k m o Hm Ho.
    apply (Q k (PyStr uni m) o); [|assumption]. rewrite nth_error_map, Hm. reflexivity. }
  unfold drawn, octet. destruct (s_rand_id s).
  - destruct Hr as [-> ->]. split; [auto|]. split; [lia|assumption].
  - destruct Hr as [Hr1 Hr2]. rewrite Z.mod_small by lia. split; [assumption|]. split; [lia|assumption].
Qed.

(** * The whole PDU *)

Definition fmt_state (s : submit) : submit :=
  with_dcs (Some (dcs_of (coding_of s) (s_klass s))) (with_fmt (Some (coding_of s)) s).

Lemma get_msg_pdu_eq s :
  get_msg_pdu s =
  match py_chr (dcs_of (coding_of s) (s_klass s)) with
  | Err e => (Err e, fmt_state s)
  | Ok c =>
      match get_msgvp_pdu (s_validity s) with
      | Err e => (Err e, fmt_state s)
      | Ok vp =>
          match message_ud (coding_of s) (s_text s) (fmt_state s) with
          | (Ok l, s') => (Ok (map (fun m => encode_str [c] ++ vp ++ m) l), s')
          | (Err e, s') => (Err e, s')
          end
      end
  end.
Proof.
  unfold get_msg_pdu, fmt_state, coding_of. unfold st_bind at 1. unfold st_get.
  destruct s as [n c k v rs rf ri il pid t tg [f|] d];
    cbn [s_fmt s_text s_klass s_validity];
    unfold st_bind, st_ret, st_upd, st_lift; cbn [s_fmt s_text s_klass s_validity];
    [|set (f := if is_gsm_text (Some t) then 0 else 8)];
    destruct (py_chr (dcs_of f k)); try reflexivity;
    destruct (get_msgvp_pdu v); try reflexivity;
    destruct (message_ud _ _ _) as [[]]; reflexivity.
Qed.

Lemma dcs_of_octet coding klass : coding = 0 \/ coding = 4 \/ coding = 8 ->
  match klass with None => True | Some k => 0 <= k <= 3 end ->
  dcs_of coding klass = dcs_octet coding klass /\ octet (dcs_octet coding klass).
Proof.
  intros Hc Hk. unfold dcs_octet, octet. destruct klass as [k|].
  - assert (k = 0 \/ k = 1 \/ k = 2 \/ k = 3) as Hk' by lia.
    destruct Hc as [->|[->| ->]]; destruct Hk' as [->|[->|[->| ->]]]; cbn; lia.
  - cbn. lia.
Qed.

Lemma message_ud_coding coding text s l s' :
  message_ud coding text s = (Ok l, s') -> coding = 0 \/ coding = 4 \/ coding = 8.
Proof.
  unfold message_ud. destruct (coding =? 0) eqn:E0; [lia|].
  destruct (coding =? 4) eqn:E4; [lia|]. destruct (coding =? 8) eqn:E8; [lia|]. discriminate.
Qed.

Lemma vpf_cases v : vpf_of v = 0 \/ vpf_of v = 2 \/ vpf_of v = 3.
Proof. destruct v; cbn; auto. Qed.

(** The state in which the user data is computed. *)
Definition ref_state (s : submit) (mr : Z) (l : list Z) : submit :=
  fmt_state (with_ref (Some mr) (with_id_list l s)).

Lemma coding_ref_state s mr l : coding_of (with_ref (Some mr) (with_id_list l s)) = coding_of s.
Proof. reflexivity. Qed.

(** [to_pdu] prefixes each user data with the same header fields. *)
Lemma to_pdu_decompose_full s : wf_submit s -> validity_ok (s_validity s) ->
  exists mr l,
    get_tpmessref_pdu s = (Ok (hex_of [mr]), with_ref (Some mr) (with_id_list l s)) /\
    octet mr /\ mr = message_ref s /\ Forall (fun i => 0 <= i < 255) l /\
    match s_ref s with
    | Some r => l = s_id_list s
    | None => mr :: l = match s_id_list s with [] => id_range | _ => s_id_list s end
    end /\
    match to_pdu s with
    | (Err e, _) => True
    | (Ok pdus, s') =>
        octet (s_pid s) /\ (coding_of s = 0 \/ coding_of s = 4 \/ coding_of s = 8) /\
        exists (mk : bool -> Z -> Z -> list Z -> pdu) ms,
          message_ud (coding_of s) (s_text s) (ref_state s mr l) = (Ok ms, s') /\
          pdus = match ms with
                 | [m] => [mk false 1 1 m]
                 | _ => map (fun p => mk true (zlen ms) (fst p) (snd p))
                            (combine (map (fun k => 1 + Z.of_nat k) (seq 0 (length ms))) ms)
                 end /\
          (forall udhi cnt seq m, p_cnt (mk udhi cnt seq m) = cnt /\ p_seq (mk udhi cnt seq m) = seq) /\
          (forall udhi cnt seq udl ud, Forall octet (udl :: ud) ->
            carries s (coding_of s) mr udhi udl ud (mk udhi cnt seq (hex_of (udl :: ud)))) /\
          (forall udhi, exists pre, forall cnt seq m, p_pdu (mk udhi cnt seq m) = pre ++ py_upper m)
    end.
Proof.
  intros Hwf Hv. pose proof Hwf as (_ & _ & Hk & Hid).
  destruct (tpmessref_ok s Hid) as (mr & l & Er & Hmr & Hl & Hd).
  exists mr, l. split; [exact Er|]. split; [exact Hmr|]. split.
  { unfold message_ref, next_id. destruct (s_ref s); [apply Hd|].
    destruct (s_id_list s); [injection Hd as -> _; reflexivity|injection Hd; auto]. }
  split; [exact Hl|]. split; [destruct (s_ref s); tauto|].
  unfold to_pdu. unfold st_bind, st_get, st_lift.
  destruct (smsc_pdu_ok s Hwf) as (sm & v & -> & Hsm & Hsv & Hso & smr & Esm).
  rewrite !submit_octet, Er.
  destruct (get_phone_pdu s) as [ph|e] eqn:Eph; [|exact I].
  destruct (phone_pdu_ok s ph Hwf Eph) as (ds & dt & os & Hdest & Hsemi & -> & Hpo).
  unfold get_tppid_pdu.
  destruct (py_chr (s_pid s)) as [pidc|e] eqn:Epid; cbn [bind]; [|exact I].
  apply py_chr_Ok in Epid as [-> Hpid].
  rewrite get_msg_pdu_eq. rewrite coding_ref_state. cbn [s_klass s_validity s_text with_ref with_id_list].
  destruct (py_chr (dcs_of (coding_of s) (s_klass s))) as [c|e] eqn:Ec; [|exact I].
  apply py_chr_Ok in Ec as [-> Hc].
  destruct (msgvp_ok (s_validity s) Hv) as [(vp & -> & Hvo & Hvl & Hvd)|E]; [|rewrite E; exact I].
  fold (ref_state s mr l).
  destruct (message_ud (coding_of s) (s_text s) (ref_state s mr l)) as [[ms|e] s'] eqn:Em; [|exact I].
  pose proof (message_ud_coding _ _ _ _ _ Em) as Hcoding.
  destruct (dcs_of_octet (coding_of s) (s_klass s) Hcoding Hk) as [Edcs Hdcs].
  rewrite Edcs in *.
  set (prefix := fun udhi : bool =>
    sm ++ [first_octet (vpf_of (s_validity s)) (s_request_status s) udhi] ++ [mr] ++
    (zlen ds :: dt :: os) ++ [s_pid s]).
  set (mk := fun udhi cnt seq m => mk_pdu
    (hex_of sm ++ hex_of [first_octet (vpf_of (s_validity s)) (s_request_status s) udhi] ++
     hex_of [mr] ++ hex_of (zlen ds :: dt :: os) ++ encode_str [s_pid s] ++
     (encode_str [dcs_octet (coding_of s) (s_klass s)] ++ hex_of vp ++ m))
    (zlen (hex_of sm) / 2) cnt seq).
  assert (octet (s_pid s) /\ (coding_of s = 0 \/ coding_of s = 4 \/ coding_of s = 8) /\
    forall udhi cnt seq udl ud, Forall octet (udl :: ud) ->
            carries s (coding_of s) mr udhi udl ud (mk udhi cnt seq (hex_of (udl :: ud)))) as (H1 & H2 & H3).
  { split; [exact Hpid|]. split; [exact Hcoding|]. intros udhi cnt seq udl ud Hud.
    pose proof (first_octet_fields (vpf_of (s_validity s)) (s_request_status s) udhi (vpf_cases _))
      as F. cbv zeta in F. destruct F as (F1 & F2 & F3 & F4 & F5 & F6 & F7).
    remember (first_octet (vpf_of (s_validity s)) (s_request_status s) udhi) as fo eqn:Efo.
    set (o := sm ++ fo :: mr :: zlen ds :: dt :: os ++ s_pid s ::
              dcs_octet (coding_of s) (s_klass s) :: vp ++ udl :: ud).
    assert (Forall octet o) as Ho.
    { unfold o. apply Forall_app. split; [exact Hso|]. inversion Hpo as [|? ? P1 P2]; subst.
      inversion P2 as [|? ? P3 P4]; subst.
      constructor; [exact F1|]. constructor; [exact Hmr|]. constructor; [exact P1|].
      constructor; [exact P3|]. apply Forall_app. split; [exact P4|].
      constructor; [exact Hpid|]. constructor; [exact Hdcs|]. apply Forall_app. auto. }
    assert (p_pdu (mk udhi cnt seq (hex_of (udl :: ud))) = hex_upper o /\
            p_length (mk udhi cnt seq (hex_of (udl :: ud))) = zlen o - zlen sm) as [M1 M2].
    { unfold mk. rewrite !encode_str_hex by (foralls; assumption).
      rewrite <- !hex_of_app.
      assert (sm ++ [fo] ++ [mr] ++ (zlen ds :: dt :: os) ++ [s_pid s] ++
        [dcs_octet (coding_of s) (s_klass s)] ++ vp ++ udl :: ud = o) as Eo.
      { unfold o. cbn [app]. reflexivity. }
      rewrite <- Efo. rewrite Eo. unfold mk_pdu. cbn [p_pdu p_length].
      rewrite upper_hex by exact Ho. split; [reflexivity|]. rewrite !hex_of_length. clear. lia. }
    exists o, v, (dt, ds), (vpf_of (s_validity s)), vp.
    split; [exact M1|]. split; [exact Ho|]. split.
    { unfold o. rewrite (parse_composed sm v) by (try assumption; rewrite F4; assumption).
      now rewrite F2, F3, F4, F5, F6, F7. }
    split; [exact Hsv|]. split; [exact Hdest|]. split; [exact Hvd|].
    rewrite M2. assert (hd 0 o = zlen smr) as -> by (unfold o; rewrite Esm; reflexivity).
    now rewrite Esm, zlen_cons. }
  assert (forall k msl, number_pdus (hex_of sm ++ hex_of [first_octet (vpf_of (s_validity s)) (s_request_status s) true] ++
     hex_of [mr] ++ hex_of (zlen ds :: dt :: os) ++ encode_str [s_pid s]) (zlen (hex_of sm) / 2) (zlen ms) (1 + Z.of_nat k)
     (map (fun m => encode_str [dcs_octet (coding_of s) (s_klass s)] ++ hex_of vp ++ m) msl) =
     map (fun p => mk true (zlen ms) (fst p) (snd p))
         (combine (map (fun k => 1 + Z.of_nat k) (seq k (length msl))) msl)) as Hnum.
  { intros k msl. revert k. induction msl as [|m msl IH]; intros k; [reflexivity|].
    cbn [map number_pdus length seq combine fst snd]. f_equal.
    - unfold mk. now rewrite <- !app_assoc.
    - replace (1 + Z.of_nat k + 1) with (1 + Z.of_nat (S k)) by lia. apply IH. }
  assert (forall udhi, exists pre, forall cnt seq m, p_pdu (mk udhi cnt seq m) = pre ++ py_upper m) as H4.
  { intros udhi. eexists. intros cnt seq m. unfold mk, mk_pdu, py_upper. cbn [p_pdu].
    rewrite !map_app, !app_assoc. reflexivity. }
  destruct ms as [|m [|m2 ms]].
  - split; [exact H1|]. split; [exact H2|]. exists mk, []. split; [reflexivity|].
    split; [reflexivity|]. split; [intros; split; reflexivity|auto].
  - split; [exact H1|]. split; [exact H2|]. exists mk, [m]. split; [reflexivity|].
    split; [reflexivity|]. split; [intros; split; reflexivity|auto].
  - split; [exact H1|]. split; [exact H2|]. exists mk, (m :: m2 :: ms). split; [reflexivity|].
    split; [|split; [intros; split; reflexivity|auto]].
    unfold st_ret.
    rewrite <- (Hnum 0%nat (m :: m2 :: ms)).
    assert (zlen (map (fun m => encode_str [dcs_octet (coding_of s) (s_klass s)] ++ hex_of vp ++ m) (m :: m2 :: ms)) = zlen (m :: m2 :: ms)) as <-
      by (unfold zlen; now rewrite map_length).
    reflexivity.
Qed.

Lemma to_pdu_decompose s : wf_submit s -> validity_ok (s_validity s) ->
  exists mr l,
    get_tpmessref_pdu s = (Ok (hex_of [mr]), with_ref (Some mr) (with_id_list l s)) /\
    octet mr /\ mr = message_ref s /\ Forall (fun i => 0 <= i < 255) l /\
    match s_ref s with
    | Some r => l = s_id_list s
    | None => mr :: l = match s_id_list s with [] => id_range | _ => s_id_list s end
    end /\
    match to_pdu s with
    | (Err e, _) => True
    | (Ok pdus, s') =>
        octet (s_pid s) /\ (coding_of s = 0 \/ coding_of s = 4 \/ coding_of s = 8) /\
        exists (mk : bool -> Z -> Z -> list Z -> pdu) ms,
          message_ud (coding_of s) (s_text s) (ref_state s mr l) = (Ok ms, s') /\
          pdus = match ms with
                 | [m] => [mk false 1 1 m]
                 | _ => map (fun p => mk true (zlen ms) (fst p) (snd p))
                            (combine (map (fun k => 1 + Z.of_nat k) (seq 0 (length ms))) ms)
                 end /\
          (forall udhi cnt seq m, p_cnt (mk udhi cnt seq m) = cnt /\ p_seq (mk udhi cnt seq m) = seq) /\
          forall udhi cnt seq udl ud, Forall octet (udl :: ud) ->
            carries s (coding_of s) mr udhi udl ud (mk udhi cnt seq (hex_of (udl :: ud)))
    end.
Proof.
  intros Hwf Hv. destruct (to_pdu_decompose_full s Hwf Hv) as (mr & l & A & B & C & D & E & H).
  exists mr, l. repeat (split; [assumption|]).
  destruct (to_pdu s) as [[pdus|e] s']; [|exact I].
  destruct H as (H1 & H2 & mk & ms & H3 & H4 & H5 & H6 & _). split; [exact H1|]. split; [exact H2|].
  exists mk, ms. auto.
Qed.

(** * What success says about the user data *)

Lemma parts_loop_inv {A} (f : Z -> A -> res (list Z)) : forall msgs i ps,
  parts_loop f i msgs = Ok ps ->
  length ps = length msgs /\
  forall k m, nth_error msgs k = Some m ->
    exists p, nth_error ps k = Some p /\ f (i + Z.of_nat k) m = Ok p.
Proof.
  induction msgs as [|m msgs IH]; intros i ps; cbn [parts_loop].
  - intros H. injection H as <-. split; [reflexivity|]. intros [|k] m C; discriminate C.
  - destruct (f i m) as [p|e] eqn:E; cbn [bind]; [|discriminate].
    destruct (parts_loop f (i + 1) msgs) as [qs|e] eqn:E2; cbn [bind]; [|discriminate].
    intros H. injection H as <-. destruct (IH _ _ E2) as [L Q].
    split; [cbn; now rewrite L|]. intros [|k] m' Hm; cbn in Hm |- *.
    + injection Hm as <-. exists p. rewrite Z.add_0_r. auto.
    + destruct (Q k m' Hm) as (p' & N & F). exists p'. split; [assumption|].
      replace (i + Z.pos (Pos.of_succ_nat k)) with (i + 1 + Z.of_nat k) by lia. assumption.
Qed.

Lemma part_7bit_inv ref total i m o : part_7bit ref total i m = Ok o -> octet total.
Proof.
  unfold part_7bit. destruct (py_chr ref); cbn [bind]; [|discriminate].
  destruct (py_chr total) eqn:E; cbn [bind]; [|discriminate].
  apply py_chr_Ok in E as [_ H]. intros _. exact H.
Qed.

Lemma part_wide_inv pack ref total i m o : 0 <= ref < 256 -> 0 <= i < 256 ->
  0 <= total ->
  part_wide pack ref total i m = Ok o ->
  pack m (Some (PyStr true [1280; 3 * 256 + ref; total * 256 + i])) = Ok o /\ total < 4352.
Proof.
  intros Hr Hi Ht. unfold part_wide. rewrite !lor_shift8 by lia.
  change (5 * 256 + 0) with 1280. unfold py_unichr.
  change ((0 <=? 1280) && (1280 <? 1114112)) with true. cbn iota beta. cbn [bind].
  replace ((0 <=? 3 * 256 + ref) && (3 * 256 + ref <? 1114112)) with true by lia. cbn [bind].
  destruct ((0 <=? total * 256 + i) && (total * 256 + i <? 1114112)) eqn:E; cbn [bind]; [|discriminate].
  intros H. split; [exact H|]. lia.
Qed.

Lemma mapM_ucs2_Ok l nm : mapM ucs2_char l = Ok nm -> Forall unit16 l.
Proof.
  intros H. destruct (Forall_dec unit16 (fun x => ltac:(unfold unit16; destruct (Z_le_dec 0 x), (Z_lt_dec x 65536);
    [left; lia|right; lia|right; lia|right; lia])) l) as [F|F]; [exact F|].
  rewrite mapM_ucs2_err in H by exact F. discriminate.
Qed.

Lemma pack_ucs2_inv hd uni m o :
  pack_8bits_to_ucs2 (PyStr uni m) (Some (PyStr true hd)) = Ok o ->
  uni || is_ascii m = true /\ Forall unit16 hd /\ Forall unit16 m.
Proof.
  unfold pack_8bits_to_ucs2.
  destruct (uni || is_ascii m) eqn:U.
  - rewrite pystr_add_unicode by exact U. cbn [bind chars].
    destruct (mapM ucs2_char (hd ++ m)) eqn:E; cbn [bind]; [|discriminate]. intros _.
    apply mapM_ucs2_Ok in E. apply Forall_app in E. tauto.
  - unfold pystr_add. cbn [is_uni chars]. apply orb_false_iff in U as [-> ->]. discriminate.
Qed.

Lemma pack_8bit_inv a b c uni m o :
  Forall octet m -> zlen m <= 134 ->
  pack_8bits_to_8bit (PyStr uni m) (Some (PyStr true [a; b; c])) = Ok o ->
  o = hex_of (3 + zlen m :: m) /\ Forall octet (3 + zlen m :: m).
Proof.
  intros Hm Hl. unfold pack_8bits_to_8bit.
  destruct (uni || is_ascii m) eqn:U.
  2: { unfold pystr_add at 1. cbn [is_uni chars]. apply orb_false_iff in U as [-> ->]. discriminate. }
  rewrite pystr_add_unicode by exact U. cbn [bind chars app].
  rewrite !zlen_cons. replace (1 + (1 + (1 + zlen m))) with (3 + zlen m) by lia.
  pose proof (zlen_nonneg m).
  rewrite py_chr_octet by (unfold is_octet; lia). cbn [bind].
  assert (Forall octet (3 + zlen m :: m)) as Ho by (constructor; [unfold octet; lia|exact Hm]).
  unfold pystr_add. cbn [is_uni chars]. destruct uni.
  - destruct (is_ascii [3 + zlen m]); [|discriminate]. cbn [bind chars app].
    intros E. split; [|exact Ho]. rewrite encode_str_hex in E by exact Ho. congruence.
  - cbn [bind chars app].
    intros E. split; [|exact Ho]. rewrite encode_str_hex in E by exact Ho. congruence.
Qed.

(** The user data the program emits for a part: in 8-bit coding the header is
    missing and the length counts three octets too many. *)
Definition emitted_ud (coding ref total i : Z) (m : list Z) (udl : Z) (ud : list Z) : Prop :=
  if coding =? 4 then udl = 3 + zlen m /\ ud = m
  else part_ud coding ref total i m udl ud /\ octet total.

Definition emitted (coding ref : Z) (parts os : list (list Z)) : Prop :=
  length os = length parts /\
  forall k m o, nth_error parts k = Some m -> nth_error os k = Some o ->
    exists udl ud, o = udl :: ud /\ Forall octet o /\
      emitted_ud coding ref (zlen parts) (1 + Z.of_nat k) m udl ud.

Lemma split_sms_message_eq coding text s : Forall (fun i => 0 <= i < 255) (s_id_list s) ->
  exists ref l parts,
    drawn s ref l /\ octet ref /\ Forall (fun i => 0 <= i < 255) l /\
    split_text (chars text) (part_capacity coding) = Ok parts /\
    concat parts = chars text /\ Forall (fun p => 1 <= zlen p <= part_capacity coding) parts /\
    split_sms_message coding text s =
    ((if coding =? 0 then parts_loop (part_7bit ref (zlen parts)) 1 parts
      else
       let pack := if coding =? 4 then pack_8bits_to_8bit else pack_8bits_to_ucs2 in
       parts_loop (part_wide pack ref (zlen parts)) 1 (map (PyStr (is_uni text)) parts)),
     with_id_list l s).
Proof.
  intros Hid. destruct (sms_ref_ok s Hid) as (r & l & Er & Hl & Hr).
  destruct (split_text_spec (chars text) (part_capacity coding)) as (parts & Ep & Ec & Hlen).
  { unfold part_capacity. destruct (coding =? 0), (coding =? 4); lia. }
  exists (r mod 256), l, parts. split; [|split; [unfold octet; lia|]].
  { unfold drawn. destruct (s_rand_id s); [destruct Hr as [-> ->]; auto|].
    destruct Hr as [Hr1 Hr2]. now rewrite Z.mod_small by lia. }
  split; [exact Hl|]. split; [exact Ep|]. split; [exact Ec|]. split; [exact Hlen|].
  unfold split_sms_message, st_bind. cbv zeta. unfold st_lift at 1.
  assert ((if coding =? 0 then SEVENBIT_MP_SIZE
           else if coding =? 4 then EIGHTBIT_MP_SIZE else UCS2_MP_SIZE) = part_capacity coding) as ->.
  { unfold part_capacity. destruct (coding =? 0), (coding =? 4); reflexivity. }
  rewrite Ep. unfold st_get. rewrite Er. rewrite land_255. reflexivity.
Qed.

Lemma first_part (parts : list (list Z)) :
  2 <= zlen parts -> exists m r, parts = m :: r.
Proof. destruct parts; [unfold zlen; cbn; lia|eauto]. Qed.

(** A text that needs splitting has at least two parts. *)
Lemma two_parts (parts : list (list Z)) w : 0 < w ->
  Forall (fun p => 1 <= zlen p <= w) parts -> w < zlen (concat parts) -> 2 <= zlen parts.
Proof.
  intros Hw H Hl. assert (zlen (concat parts) <= w * zlen parts) as B.
  { apply concat_zlen. eapply Forall_impl; [|exact H]. cbn. lia. }
  pose proof (zlen_nonneg parts). nia.
Qed.

Lemma os_exist (ps : list (list Z)) (Q : nat -> list Z -> Prop) :
  (forall k p, nth_error ps k = Some p -> exists o, p = hex_of o /\ Q k o) ->
  exists os, ps = map hex_of os /\ forall k o, nth_error os k = Some o -> Q k o.
Proof.
  revert Q. induction ps as [|p ps IH]; intros Q H.
  - exists []. split; [reflexivity|]. intros [|k] o C; discriminate C.
  - destruct (H 0%nat p eq_refl) as (o & -> & Ho).
    destruct (IH (fun k => Q (S k))) as (os & -> & Hos).
    { intros k q Hk. apply (H (S k) q Hk). }
    exists (o :: os). split; [reflexivity|]. intros [|k] x Hx; cbn in Hx; [congruence|eauto].
Qed.

Lemma drawn_fun s r1 l1 r2 l2 : drawn s r1 l1 -> drawn s r2 l2 -> r1 = r2 /\ l1 = l2.
Proof.
  unfold drawn. destruct (s_rand_id s).
  - intros [-> ->] [-> ->]. auto.
  - intros H1 H2. rewrite <- H2 in H1. injection H1. auto.
Qed.

Lemma split_sms_message_inv coding text s ps s' :
  coding = 0 \/ coding = 4 \/ coding = 8 ->
  Forall (fun i => 0 <= i < 255) (s_id_list s) ->
  (coding = 0 -> Forall septet (chars text)) ->
  (coding = 4 -> Forall octet (chars text)) ->
  part_capacity coding < zlen (chars text) ->
  split_sms_message coding text s = (Ok ps, s') ->
  exists ref parts l os,
    s' = with_id_list l s /\ ps = map hex_of os /\
    split_text (chars text) (part_capacity coding) = Ok parts /\
    2 <= zlen parts /\ concat parts = chars text /\
    Forall (fun p => 1 <= zlen p <= part_capacity coding) parts /\
    emitted coding ref parts os /\ drawn s ref l /\ octet ref /\
    Forall (fun i => 0 <= i < 255) l.
Proof.
  intros Hc Hid H0 H4 Hlong E.
  destruct (split_sms_message_eq coding text s Hid)
    as (ref & l & parts & Hd & Href & Hl & Esp & Ec & Hlen & Es).
  rewrite Es in E. injection E as E <-.
  assert (2 <= zlen parts) as H2.
  { apply (two_parts parts (part_capacity coding)); [|assumption|now rewrite Ec].
    unfold part_capacity. destruct (coding =? 0), (coding =? 4); lia. }
  destruct (first_part parts H2) as (m0 & r0 & Eparts).
  destruct text as [uni t]. cbn [chars is_uni] in *.
  destruct Hc as [->|[->| ->]]; cbn [Z.eqb Pos.eqb] in E; cbv zeta in E.
  - change (part_capacity 0) with 153 in *.
    destruct (parts_loop_inv _ _ _ _ E) as [L Q].
    assert (octet (zlen parts)) as Ho.
    { destruct (Q 0%nat m0) as (p & _ & F); [now rewrite Eparts|]. eapply part_7bit_inv; eassumption. }
    destruct (split_7bit_ok t s parts Hid (H0 eq_refl) Esp ltac:(unfold octet in Ho; lia))
      as (ref' & l' & os & E' & Hm & Hd' & Hr' & Hl').
    assert (split_sms_message 0 (PyStr false t) s = split_sms_message 0 (PyStr uni t) s) as EE by reflexivity.
    rewrite EE, Es in E'. injection E' as E' E''. cbn [Z.eqb] in E'.
    assert (ref' = ref /\ l' = l) as [-> ->].
    { eapply drawn_fun; eassumption. }
    exists ref, parts, l, os. split; [reflexivity|]. split; [congruence|].
    do 4 (split; [assumption|]). split; [|auto].
    destruct Hm as [Hm1 Hm2]. split; [exact Hm1|]. intros k m o Hk1 Hk2.
    destruct (Hm2 k m o Hk1 Hk2) as (udl & ud & A & B & C). exists udl, ud.
    split; [exact A|]. split; [exact B|]. split; [exact C|exact Ho].
  - change (part_capacity 4) with 134 in *.
    destruct (parts_loop_inv _ _ _ _ E) as [L Q]. rewrite map_length in L.
    assert (Forall (Forall octet) parts) as Hpo.
    { apply Forall_concat_inv. rewrite Ec. now apply H4. }
    assert (zlen parts < 4352) as Hb.
    { destruct (Q 0%nat (PyStr uni m0)) as (p & _ & F); [now rewrite Eparts|].
      apply part_wide_inv in F; [tauto|exact Href|cbn; lia|lia]. }
    destruct (os_exist ps (fun k o => forall m, nth_error parts k = Some m ->
       o = 3 + zlen m :: m /\ Forall octet o)) as (os & -> & Hos).
    { intros k p Hp. assert (k < length parts)%nat as Hk.
      { rewrite <- L. apply nth_error_Some. congruence. }
      destruct (nth_error parts k) as [m|] eqn:Hm; [|apply nth_error_None in Hm; lia].
      destruct (Q k (PyStr uni m)) as (p' & Hp' & F); [now rewrite nth_error_map, Hm|].
      assert (p' = p) as -> by congruence.
      assert (In m parts) as Hin by (eapply nth_error_In; eassumption).
      rewrite Forall_forall in Hpo, Hlen.
      assert (pack_8bits_to_8bit (PyStr uni m)
         (Some (PyStr true [1280; 3 * 256 + ref; Z.lor (Z.shiftl (zlen parts) 8) (1 + Z.of_nat k)])) = Ok p) as G.
      { unfold part_wide in F.
        rewrite !lor_shift8 in F by (unfold octet in Href; lia).
        unfold py_unichr in F. unfold octet in Href.
        change (5 * 256 + 0) with 1280 in F.
        change ((0 <=? 1280) && (1280 <? 1114112)) with true in F. cbn iota beta in F. cbn [bind] in F.
        replace ((0 <=? 3 * 256 + ref) && (3 * 256 + ref <? 1114112)) with true in F by lia. cbn [bind] in F.
        destruct ((0 <=? Z.lor (Z.shiftl (zlen parts) 8) (1 + Z.of_nat k)) && _); [|discriminate].
        exact F. }
      apply pack_8bit_inv in G; [|auto|apply (Hlen m Hin)].
      exists (3 + zlen m :: m). split; [apply G|].
      intros m' Em. injection Em as <-. split; [reflexivity|apply G]. }
    exists ref, parts, l, os. split; [reflexivity|]. split; [reflexivity|].
    do 4 (split; [assumption|]). split; [|auto].
    split; [now rewrite map_length in L|]. intros k m o Hk1 Hk2.
    destruct (Hos k o Hk2 m Hk1) as [-> Ho]. exists (3 + zlen m), m. split; [reflexivity|].
    split; [exact Ho|]. cbn. auto.
  - change (part_capacity 8) with 67 in *.
    destruct (parts_loop_inv _ _ _ _ E) as [L Q]. rewrite map_length in L.
    assert (octet (zlen parts)) as Ho.
    { destruct (Q 0%nat (PyStr uni m0)) as (p & _ & F); [now rewrite Eparts|].
      apply part_wide_inv in F; [|exact Href|cbn; lia|lia]. destruct F as [F _].
      apply pack_ucs2_inv in F as (_ & F & _).
      do 2 apply Forall_inv_tail in F. apply Forall_inv in F.
      clear - F H2. unfold unit16, octet in *. lia. }
    assert (forall m, In m parts -> uni || is_ascii m = true /\ Forall unit16 m) as Hall.
    { intros m Hin. apply In_nth_error in Hin as (k & Hk).
      assert (k < length parts)%nat by (apply nth_error_Some; congruence).
      destruct (Q k (PyStr uni m)) as (p & _ & F); [now rewrite nth_error_map, Hk|].
      apply part_wide_inv in F; [|exact Href|unfold octet, zlen in *; lia|lia]. destruct F as [F _].
      apply pack_ucs2_inv in F. tauto. }
    assert (Forall unit16 t) as Hu.
    { rewrite <- Ec. apply Forall_concat. apply Forall_forall. intros m Hin. now apply Hall. }
    assert (uni || is_ascii t = true) as Ha.
    { destruct uni; [reflexivity|]. cbn [orb] in *. unfold is_ascii. apply forallb_forall.
      intros x Hx. rewrite <- Ec in Hx. apply in_concat in Hx as (m & Hin & Hx).
      apply Hall in Hin as [Hin _]. unfold is_ascii in Hin. rewrite forallb_forall in Hin. auto. }
    destruct (split_ucs2_ok uni t s parts Hid Hu Ha Esp ltac:(unfold octet in Ho; lia))
      as (ref' & l' & os & E' & Hm & Hd' & Hr' & Hl').
    rewrite Es in E'. injection E' as E' E''. cbn [Z.eqb] in E'.
    assert (ref' = ref /\ l' = l) as [-> ->].
    { eapply drawn_fun; eassumption. }
    exists ref, parts, l, os. split; [reflexivity|]. split; [congruence|].
    do 4 (split; [assumption|]). split; [|auto].
    destruct Hm as [Hm1 Hm2]. split; [exact Hm1|]. intros k m o Hk1 Hk2.
    destruct (Hm2 k m o Hk1 Hk2) as (udl & ud & A & B & C). exists udl, ud.
    split; [exact A|]. split; [exact B|]. split; [exact C|exact Ho].
Qed.

(** Effect on the object of computing the user data. *)
Definition gsm_state (coding : Z) (text : pystr) (s : submit) : submit :=
  if coding =? 0
  then match gsm_encode text with Ok g => with_text_gsm (Some g) s | Err _ => s end
  else s.

Lemma message_ud_inv coding text s ms s' :
  Forall (fun i => 0 <= i < 255) (s_id_list s) ->
  (coding = 4 -> Forall octet (chars text)) ->
  message_ud coding text s = (Ok ms, s') ->
  (exists udl ud n, ms = [hex_of (udl :: ud)] /\ message_size coding (chars text) n /\
     n <= capacity coding /\
     single_ud coding (chars text) udl ud /\ Forall octet (udl :: ud) /\
     s' = gsm_state coding text s) \/
  (exists ref parts l os n, ms = map hex_of os /\ message_size coding (chars text) n /\
     capacity coding < n /\
     2 <= zlen parts /\ parts_of coding (chars text) parts /\
     Forall (fun p => 1 <= zlen p <= part_capacity coding) parts /\
     emitted coding ref parts os /\ drawn s ref l /\ octet ref /\
     Forall (fun i => 0 <= i < 255) l /\ s' = with_id_list l (gsm_state coding text s)).
Proof.
  intros Hid H4 E. pose proof (message_ud_coding _ _ _ _ _ E) as Hc.
  unfold gsm_state, message_size.
  destruct Hc as [->|[->| ->]]; cbn [Z.eqb Pos.eqb].
  - unfold message_ud in E. cbn [Z.eqb] in E. unfold st_bind at 1, st_lift in E.
    destruct (gsm_encode text) as [g|e] eqn:Eg; [|discriminate].
    pose proof Eg as Eg'. apply gsm_encode_text in Eg' as [_ Hg].
    destruct (zlen g <=? 160) eqn:EL.
    + left. destruct (message_gsm_single text g s Eg ltac:(lia)) as (ud & P & O & E2).
      unfold message_ud in E2. cbn [Z.eqb] in E2. unfold st_bind at 1, st_lift in E2.
      rewrite Eg in E2. rewrite E in E2. injection E2 as -> ->.
      exists (zlen g), ud, (zlen g). split; [reflexivity|]. split; [eauto|]. cbn. split; [lia|].
      split; [apply (ud_gsm _ g); try assumption; unfold zlen in *; lia|]. auto.
    + right. unfold st_bind, st_upd, SEVENBIT_SIZE in E. rewrite EL in E.
      destruct (split_sms_message_inv 0 (PyStr false g) (with_text_gsm (Some g) s) ms s') as
        (ref & parts & l & os & Es & Em & Esp & H2 & Ec & Hs & He & Hd & Ho & Hl).
      * auto. * exact Hid. * intros _. eapply septets_of_text; eassumption. * discriminate.
      * cbn. lia. * exact E.
      * cbn [chars] in *. exists ref, parts, l, os, (zlen g). split; [exact Em|]. split; [eauto|].
        split; [cbn; lia|].
        split; [exact H2|]. split.
        { unfold parts_of. cbn. apply parts_texts; [now rewrite Ec|].
          eapply split_text_clean; [|eapply gsm_text_clean; eassumption|exact Esp]. cbn. lia. }
        auto 10.
  - unfold message_ud in E. cbn [Z.eqb Pos.eqb] in E. unfold EIGHTBIT_SIZE in E.
    destruct (zlen (chars text) <=? 140) eqn:EL.
    + left. pose proof (message_8bit_single text s ltac:(lia) (H4 eq_refl)) as E2.
      unfold message_ud in E2. cbn [Z.eqb Pos.eqb] in E2. unfold EIGHTBIT_SIZE in E2.
      rewrite EL, E in E2. destruct (negb (is_uni text) || (zlen (chars text) <? 128)); [|discriminate].
      injection E2 as -> ->. exists (zlen (chars text)), (chars text), (zlen (chars text)).
      split; [reflexivity|]. split; [reflexivity|]. split; [cbn; lia|]. split.
      { constructor; [auto|unfold zlen in *; lia]. }
      split; [|reflexivity].
      constructor; [pose proof (zlen_nonneg (chars text)); unfold octet; lia|auto].
    + right. destruct (split_sms_message_inv 4 text s ms s') as
        (ref & parts & l & os & Es & Em & Esp & H2 & Ec & Hs & He & Hd & Ho & Hl).
      * auto. * exact Hid. * discriminate. * auto.
      * cbn. lia. * exact E.
      * exists ref, parts, l, os, (zlen (chars text)). split; [exact Em|]. split; [reflexivity|].
        split; [cbn; lia|]. auto 12.
  - unfold message_ud in E. cbn [Z.eqb Pos.eqb] in E. unfold UCS2_SIZE in E.
    destruct (zlen (chars text) <=? 70) eqn:EL.
    + left. pose proof (message_ucs2_single text s ltac:(lia)) as E2.
      unfold message_ud in E2. cbn [Z.eqb Pos.eqb] in E2. unfold UCS2_SIZE in E2.
      rewrite EL, E in E2.
      destruct (forallb (fun u => (0 <=? u) && (u <? 65536)) (chars text)) eqn:F; [|discriminate].
      assert (Forall unit16 (chars text)) as Hu.
      { apply Forall_forall. intros u Hin. rewrite forallb_forall in F.
        specialize (F u Hin). unfold unit16. lia. }
      injection E2 as -> ->. exists (2 * zlen (chars text)), (be16 (chars text)), (zlen (chars text)).
      split; [reflexivity|]. split; [reflexivity|]. split; [cbn; lia|]. split.
      { constructor; [auto|unfold zlen in *; lia]. }
      split; [|reflexivity].
      constructor; [pose proof (zlen_nonneg (chars text)); unfold octet; lia|now apply be16_octets].
    + right. destruct (split_sms_message_inv 8 text s ms s') as
        (ref & parts & l & os & Es & Em & Esp & H2 & Ec & Hs & He & Hd & Ho & Hl).
      * auto. * exact Hid. * discriminate. * discriminate.
      * cbn. lia. * exact E.
      * exists ref, parts, l, os, (zlen (chars text)). split; [exact Em|]. split; [reflexivity|].
        split; [cbn; lia|]. auto 12.
Qed.

(** The main theorem about [to_pdu]. *)
Lemma to_pdu_inv s pdus s' :
  wf_submit s -> validity_ok (s_validity s) ->
  (coding_of s = 4 -> Forall octet (chars (s_text s))) ->
  to_pdu s = (Ok pdus, s') ->
  exists mr l1,
    get_tpmessref_pdu s = (Ok (hex_of [mr]), with_ref (Some mr) (with_id_list l1 s)) /\
    octet mr /\ mr = message_ref s /\ Forall (fun i => 0 <= i < 255) l1 /\
    match s_ref s with
    | Some r => l1 = s_id_list s
    | None => mr :: l1 = match s_id_list s with [] => id_range | _ => s_id_list s end
    end /\
    let s1 := gsm_state (coding_of s) (s_text s) (ref_state s mr l1) in
    ((exists p udl ud n,
       pdus = [p] /\ p_cnt p = 1 /\ p_seq p = 1 /\
       message_size (coding_of s) (chars (s_text s)) n /\ n <= capacity (coding_of s) /\
       single_ud (coding_of s) (chars (s_text s)) udl ud /\
       carries s (coding_of s) mr false udl ud p /\ s' = s1) \/
     (exists ref parts l n,
       message_size (coding_of s) (chars (s_text s)) n /\ capacity (coding_of s) < n /\
       2 <= zlen parts /\ zlen pdus = zlen parts /\
       parts_of (coding_of s) (chars (s_text s)) parts /\
       Forall (fun p => 1 <= zlen p <= part_capacity (coding_of s)) parts /\
       octet ref /\ drawn s1 ref l /\
       Forall (fun i => 0 <= i < 255) l /\ s' = with_id_list l s1 /\
       forall k p m, nth_error pdus k = Some p -> nth_error parts k = Some m ->
         p_cnt p = zlen parts /\ p_seq p = 1 + Z.of_nat k /\
         exists udl ud, emitted_ud (coding_of s) ref (zlen parts) (1 + Z.of_nat k) m udl ud /\
           carries s (coding_of s) mr true udl ud p)).
Proof.
  intros Hwf Hv H4 E.
  destruct (to_pdu_decompose s Hwf Hv) as (mr & l & Er & Hmr & Emr & Hl & Hd & H).
  exists mr, l. do 5 (split; [assumption|]). rewrite E in H.
  destruct H as (_ & Hc & mk & ms & Em & Ep & Hcs & Hcar). cbv zeta.
  destruct (message_ud_inv _ _ (ref_state s mr l) _ _ Hl H4 Em)
    as [(udl & ud & n & -> & Hn & Hn' & Hs & Ho & ->)|
        (ref & parts & l2 & os & n & -> & Hn & Hn' & H2 & Hp & Hsz & [He1 He2] & Hdr & Hr & Hl2 & ->)].
  - left. exists (mk false 1 1 (hex_of (udl :: ud))), udl, ud, n.
    split; [exact Ep|]. destruct (Hcs false 1 1 (hex_of (udl :: ud))) as [C1 C2].
    do 2 (split; [assumption|]). do 3 (split; [assumption|]). split; [now apply Hcar|reflexivity].
  - right. exists ref, parts, l2, n. do 3 (split; [assumption|]).
    assert (zlen (map hex_of os) = zlen parts) as Elen.
    { unfold zlen. rewrite map_length. congruence. }
    assert (pdus = map (fun p => mk true (zlen parts) (fst p) (snd p))
                    (combine (map (fun k => 1 + Z.of_nat k) (seq 0 (length (map hex_of os)))) (map hex_of os))) as Ep'.
    { destruct (map hex_of os) as [|m1 [|m2 ms]] eqn:Eo.
      - unfold zlen in *. cbn in Elen. lia.
      - unfold zlen in *. cbn in Elen. lia.
      - rewrite <- Elen. exact Ep. }
    split.
    { rewrite Ep'. unfold zlen. rewrite map_length, combine_length, !map_length, seq_length. lia. }
    do 3 (split; [assumption|]).
    split. { unfold drawn in *. unfold gsm_state. destruct (coding_of s =? 0); [|exact Hdr].
             destruct (gsm_encode (s_text s)); exact Hdr. }
    split; [assumption|]. split; [reflexivity|].
    intros k p m Hk Hm.
    assert (k < length os)%nat as Hko by (rewrite He1; apply nth_error_Some; congruence).
    destruct (nth_error os k) as [o|] eqn:Eok; [|apply nth_error_None in Eok; lia].
    destruct (He2 k m o Hm Eok) as (udl & ud & -> & Hoct & Hud).
    assert (nth_error (combine (map (fun k => 1 + Z.of_nat k) (seq 0 (length (map hex_of os)))) (map hex_of os)) k
            = Some (1 + Z.of_nat k, hex_of (udl :: ud))) as Enth.
    { assert (forall (A B : Type) (x : list A) (y : list B) j a b, nth_error x j = Some a ->
        nth_error y j = Some b -> nth_error (combine x y) j = Some (a, b)) as NC.
      { clear. induction x as [|a' x IH]; intros [|b' y] [|j] a b; cbn; try discriminate.
        - intros A1 B1. congruence.
        - apply IH. }
      apply NC.
      - rewrite nth_error_map, map_length. 
        rewrite (nth_error_nth' (seq 0 (length os)) 0%nat) by now rewrite seq_length.
        rewrite seq_nth by assumption. reflexivity.
      - rewrite nth_error_map, Eok. reflexivity. }
    rewrite Ep', nth_error_map, Enth in Hk. cbn [option_map fst snd] in Hk.
    assert (p = mk true (zlen parts) (1 + Z.of_nat k) (hex_of (udl :: ud))) as -> by congruence.
    destruct (Hcs true (zlen parts) (1 + Z.of_nat k) (hex_of (udl :: ud))) as [C1 C2].
    do 2 (split; [assumption|]). exists udl, ud. split; [exact Hud|]. now apply Hcar.
Qed.
