(** Which strings SmsDeliver takes for PDUs: C96, C97, C98. *)
From Coq Require Import Lia ZifyBool ZifyNat.
From Verif Require Import Py PyFacts SpecGsm SpecPack SpecAddress SpecTime SpecSubmit SpecDeliver
  Gsm Utils Udh Submit SubmitClaims SubmitFacts ToPduFacts Deliver DeliverFacts DeliverCutFacts PropSubmit.
Open Scope Z_scope.
Ltac Zify.zify_post_hook ::= Z.div_mod_to_equations.

(** * Only the octets matter *)

(** [m] does not look at the [pdu] attribute. *)
Definition blind {A} (m : ST deliver A) : Prop :=
  forall x o, m (set_d_pdu x o) = (fst (m o), set_d_pdu x (snd (m o))).

Lemma blind_bind {A B} (m : ST deliver A) (f : A -> ST deliver B) :
  blind m -> (forall a, blind (f a)) -> blind (st_bind m f).
Proof.
  intros Hm Hf x o. unfold st_bind. rewrite Hm. destruct (m o) as [[a|e] o1]; cbn [fst snd]; [|reflexivity].
  apply Hf.
Qed.
Ltac blind_with t := repeat
  (first [t | solve [intros ? ?; reflexivity] | apply blind_bind; [|intros]
         | match goal with |- blind (match ?x with _ => _ end) => destruct x end]).
Lemma blind_message mt f data : blind (process_message mt f data).
Proof. unfold process_message. blind_with ltac:(fail). Qed.
Lemma blind_deliver mt data : blind (decode_deliver mt data).
Proof. unfold decode_deliver. blind_with ltac:(apply blind_message). Qed.
Lemma blind_smsc data : blind (decode_smsc data).
Proof. unfold decode_smsc. blind_with ltac:(fail). Qed.
Lemma blind_report data : blind (decode_status_report_pdu data).
Proof.
  unfold decode_status_report_pdu. blind_with ltac:(fail).
Qed.

(** What [_set_pdu] does after the octets are known. *)
Definition decode_octets (o : list Z) : ST deliver unit :=
  data <~ decode_smsc o ;;
  '(mtype, data) <~ st_lift (pop0 data) ;;
  _ <~ assign (set_d_mtype (Some mtype)) ;;
  let mt := Z.land mtype 3 in
  if mt =? 2 then decode_status_report_pdu data
  else if mt =? 1 then st_err ValueError
  else decode_deliver mtype data.
Lemma blind_octets o : blind (decode_octets o).
Proof.
  unfold decode_octets. cbv zeta. blind_with ltac:(apply blind_smsc || apply blind_report || apply blind_deliver).
Qed.

Lemma set_pdu_array pdu o st : to_array pdu = Ok o -> zlen pdu mod 2 = 0 ->
  set_pdu pdu st = decode_octets o (set_d_pdu (Some pdu) st).
Proof.
  intros Ha Hl. unfold set_pdu.
  rewrite st_bind_eq. cbn [st_get].
  replace (negb (zlen pdu mod 2 =? 0)) with false by lia. rewrite andb_false_r. cbn zeta iota.
  replace (negb (zlen pdu mod 2 =? 0)) with false by lia. cbn iota.
  rewrite st_bind_eq. cbn [assign st_upd].
  rewrite st_bind_eq. cbn [st_lift]. rewrite Ha. reflexivity.
Qed.

(** The outcomes agree: the same exception, or objects that differ in nothing but
    the string they were made from. *)
Definition same_message (r r' : res deliver) : Prop :=
  match r, r' with
  | Ok d, Ok d' => d' = set_d_pdu (d_pdu d') d
  | Err e, Err e' => e = e'
  | _, _ => False
  end.

Lemma same_array pdu pdu' o strict : to_array pdu = Ok o -> to_array pdu' = Ok o ->
  zlen pdu mod 2 = 0 -> zlen pdu' mod 2 = 0 ->
  same_message (new_deliver pdu strict) (new_deliver pdu' strict).
Proof.
  intros A A' L L'. unfold new_deliver. rewrite (set_pdu_array _ _ _ A L), (set_pdu_array _ _ _ A' L').
  rewrite !blind_octets. destruct (decode_octets o (deliver0 strict)) as [[u|e] d]; cbn [fst snd same_message];
    destruct d; reflexivity.
Qed.

(** C96: two hexadecimal notations of the same octets, in any mixture of cases, give
    the same message, or the same exception. *)
Theorem C96_notation : forall pdu pdu' o strict, reads_hex pdu o -> reads_hex pdu' o ->
  same_message (new_deliver pdu strict) (new_deliver pdu' strict).
Proof.
  intros pdu pdu' o strict H H'. apply (same_array pdu pdu' o).
  - now apply to_array_hex.
  - now apply to_array_hex.
  - pose proof (reads_hex_length _ _ H). lia.
  - pose proof (reads_hex_length _ _ H'). lia.
Qed.
Print Assumptions C96_notation.

Definition sample_deliver : list Z := str "07911356131313F64004850120390011609232239180A006080400100201D7327BFD6EB340E2321BF46E83EA7790F59D1E97DBE1341B442F83C465763D3DA797E56537C81D0ECB41AB59CC1693C16031D96C064241E5656838AF03A96230982A269BCD462917C8FA4E8FCBED709A0D7ABBE9F6B0FB5C7683D27350984D4FABC9A0B33C4C4FCF5D20EBFB2D079DCB62793DBD06D9C36E50FB2D4E97D9A0B49B5E96BBCB".
Example C96_case : match new_deliver sample_deliver true,
    new_deliver (map (fun c => if (65 <=? c) && (c <=? 70) then c + 32 else c) sample_deliver) true with
  | Ok d, Ok d' => d_text d = d_text d' /\ d_text d <> Some [] /\ d_pdu d <> d_pdu d'
  | _, _ => False end.
Proof. vm_compute. repeat split; discriminate. Qed.

(** * Messages to be sent are not received messages *)

Lemma reads_hex_upper o : Forall octet o -> reads_hex (hex_upper o) o.
Proof.
  induction 1 as [|b o Hb _ IH]; cbn [hex_upper]; [constructor|].
  assert (forall d, 0 <= d < 16 -> hex_value (hex_digit_upper d) = Some d) as Hd.
  { intros d Hd. unfold hex_value, hex_digit_upper. destruct (d <? 10) eqn:E.
    - replace ((48 <=? 48 + d) && (48 + d <=? 57)) with true by lia. f_equal. lia.
    - replace ((48 <=? 65 + (d - 10)) && (65 + (d - 10) <=? 57)) with false by lia.
      replace ((97 <=? 65 + (d - 10)) && (65 + (d - 10) <=? 102)) with false by lia.
      replace ((65 <=? 65 + (d - 10)) && (65 + (d - 10) <=? 70)) with true by lia.
      f_equal. lia. }
  unfold octet in Hb. replace b with (16 * (b / 16) + b mod 16) at 3 by lia.
  constructor; [apply Hd; lia|apply Hd; lia|exact IH].
Qed.

Lemma land_3 n : Z.land n 3 = n mod 4.
Proof. change 3 with (Z.ones 2). rewrite Z.land_ones by lia. reflexivity. Qed.

(** C97: a PDU of message type 1, behind any service centre address, is refused. *)
Theorem C97_type_refused : forall pdu l sc fo rest strict,
  reads_hex pdu (l :: sc ++ fo :: rest) -> Z.of_nat (length sc) = l -> fo mod 4 = 1 ->
  new_deliver pdu strict = Err ValueError.
Proof.
  intros pdu l sc fo rest strict H L F. unfold new_deliver.
  rewrite (set_pdu_array pdu (l :: sc ++ fo :: rest));
    [|now apply to_array_hex|pose proof (reads_hex_length _ _ H); lia].
  assert (D : forall d, exists d', decode_smsc (l :: sc ++ fo :: rest) d = (Ok (fo :: rest), d')).
  { intros d. unfold decode_smsc. rewrite st_bind_eq. cbn [st_lift pop0].
    destruct sc as [|t sc].
    - cbn in L. subst l. cbn. eexists. reflexivity.
    - replace (0 <? l) with true by (cbn [length] in L; lia). cbn [app].
      rewrite st_bind_eq. cbn [st_lift pop0]. cbn zeta. rewrite st_bind_eq. cbn [assign st_upd].
      assert (P : py_from (sc ++ fo :: rest) (l - 1) = fo :: rest).
      { unfold py_from. replace (Z.to_nat (l - 1)) with (length sc) by (cbn [length] in L; lia).
        rewrite skipn_app, skipn_all, Nat.sub_diag. reflexivity. }
      rewrite P. rewrite st_bind_eq. destruct (_ =? 1); cbn; eexists; reflexivity. }
  destruct (D (set_d_pdu (Some pdu) (deliver0 strict))) as (d' & E).
  unfold decode_octets. rewrite st_bind_eq, E. rewrite st_bind_eq. cbn [st_lift pop0].
  rewrite st_bind_eq. cbn [assign st_upd]. cbn zeta. rewrite land_3, F. reflexivity.
Qed.
Print Assumptions C97_type_refused.

(** C97: so SmsDeliver refuses every PDU SmsSubmit makes. *)
Theorem C97_submit_refused : forall s pdus s' p strict,
  reachable s -> validity_ok (s_validity s) ->
  (coding_of s = 4 -> Forall octet (chars (s_text s))) ->
  to_pdu s = (Ok pdus, s') -> In p pdus -> new_deliver (p_pdu p) strict = Err ValueError.
Proof.
  intros s pdus s' p strict H Hv H4 E Hp.
  destruct (C22_submit_fields s pdus s' H Hv H4 E p Hp) as (udl & ud & o & smsc & da & vpf & vp & Ep & Ho & P & _).
  rewrite Ep. destruct o as [|l r]; [discriminate P|].
  unfold parse_submit in P. cbv zeta in P.
  destruct (skipn (Z.to_nat l) r) as [|fo r1] eqn:K; [discriminate P|].
  assert (Hf : fo mod 4 = 1).
  { destruct r1 as [|x1 [|x2 [|x3 r1]]]; try discriminate P.
    destruct (skipn (Z.to_nat ((x2 + 1) / 2)) r1) as [|x4 [|x5 r2]]; try discriminate P.
    destruct (skipn (vp_octets ((fo / 8) mod 4)) r2); [discriminate P|].
    apply (f_equal (option_map f_mti)) in P. cbn [option_map f_mti] in P. congruence. }
  assert (Hl : 0 <= l) by (apply Forall_inv in Ho; unfold octet in Ho; lia).
  assert (E2 : l :: r = l :: firstn (Z.to_nat l) r ++ fo :: r1) by (rewrite <- K, firstn_skipn; reflexivity).
  apply (C97_type_refused _ l (firstn (Z.to_nat l) r) fo r1).
  - rewrite <- E2. now apply reads_hex_upper.
  - rewrite firstn_length. assert (length (skipn (Z.to_nat l) r) <> 0)%nat by (rewrite K; discriminate).
    rewrite skipn_length in H0. lia.
  - exact Hf.
Qed.
Print Assumptions C97_submit_refused.
Example C97_case : match to_pdu (sample (PyStr true (str "hola"))) with
  | (Ok [p], _) => new_deliver (p_pdu p) false = Err ValueError | _ => False end.
Proof. vm_compute. reflexivity. Qed.

(** * Characters that are no hexadecimal digits *)

(** A blank, a tab or a line break. *)
Definition blank (c : Z) : Prop := c = 32 \/ 9 <= c <= 13.

(** Two characters that are taken for an octet although one of them is no
    hexadecimal digit. *)
Inductive stray_pair : Z -> Z -> Z -> Prop :=
| stray_before a b v : blank a -> hex_value b = Some v -> stray_pair a b v
| stray_behind a b v : hex_value a = Some v -> blank b -> stray_pair a b v
| stray_plus b v : hex_value b = Some v -> stray_pair 43 b v
| stray_minus : stray_pair 45 48 0.

Definition pair_octet (a b v : Z) : Prop :=
  (exists h l, hex_value a = Some h /\ hex_value b = Some l /\ v = 16 * h + l) \/ stray_pair a b v.

Lemma space_blank c : is_space c = true <-> blank c.
Proof. unfold is_space, blank. lia. Qed.

Lemma digit_hex c : match hex_value c with
  | Some v => digit_val c = Some v /\ 0 <= v < 16 /\ is_space c = false /\ c <> 43 /\ c <> 45 /\ c <> 120 /\ c <> 88 /\
      (v = 0 <-> c = 48)
  | None => match digit_val c with Some v => 16 <= v | None => True end
  end.
Proof.
  unfold hex_value, digit_val, is_space.
  destruct ((48 <=? c) && (c <=? 57)) eqn:E1; [repeat split; try lia; f_equal; lia|].
  destruct ((97 <=? c) && (c <=? 102)) eqn:E2.
  { replace ((97 <=? c) && (c <=? 122)) with true by lia. repeat split; try lia; f_equal; lia. }
  destruct ((65 <=? c) && (c <=? 70)) eqn:E3.
  { replace ((97 <=? c) && (c <=? 122)) with false by lia. replace ((65 <=? c) && (c <=? 90)) with true by lia.
    repeat split; try lia; f_equal; lia. }
  destruct ((97 <=? c) && (c <=? 122)) eqn:E4; [lia|]. destruct ((65 <=? c) && (c <=? 90)) eqn:E5; [lia|exact I].
Qed.

Lemma start_hex c r : starts_digit 16 (c :: r) = match hex_value c with Some _ => true | None => false end.
Proof.
  unfold starts_digit. pose proof (digit_hex c) as D. destruct (hex_value c) as [v|].
  - destruct D as (-> & D & _). lia.
  - destruct (digit_val c); [lia|reflexivity].
Qed.
Lemma parse_hex acc c r : parse_digits 16 acc (c :: r) =
  match hex_value c with Some v => parse_digits 16 (acc * 16 + v) r | None => (acc, c :: r) end.
Proof.
  cbn [parse_digits]. pose proof (digit_hex c) as D. destruct (hex_value c) as [v|].
  - destruct D as (-> & D & _). now replace (v <? 16) with true by lia.
  - destruct (digit_val c); [|reflexivity]. now replace (z <? 16) with false by lia.
Qed.

(** Two characters for [int(..., 16)]. *)
Lemma one_char c : py_int 16 [c] = match hex_value c with Some v => Ok v | None => Err ValueError end.
Proof.
  unfold py_int. pose proof (digit_hex c) as D. cbn [drop_space]. destruct (is_space c) eqn:S.
  { destruct (hex_value c); [destruct D as (_ & _ & D & _); discriminate D|reflexivity]. }
  destruct (c =? 43) eqn:P.
  { cbn. destruct (hex_value c); [lia|reflexivity]. }
  destruct (c =? 45) eqn:M.
  { cbn. destruct (hex_value c); [lia|reflexivity]. }
  cbn [drop_space]. rewrite S, start_hex, parse_hex. destruct (hex_value c); [|reflexivity].
  cbn [parse_digits drop_space]. f_equal. lia.
Qed.

Lemma two_chars a b : py_int 16 [a; b] =
  if is_space a then py_int 16 [b]
  else match hex_value a, hex_value b with
  | Some h, Some l => Ok (16 * h + l)
  | Some h, None => if is_space b then Ok h else Err ValueError
  | None, Some l => if a =? 43 then Ok l else if a =? 45 then Ok (- l) else Err ValueError
  | None, None => Err ValueError
  end.
Proof.
  pose proof (digit_hex a) as Da. pose proof (digit_hex b) as Db.
  destruct (is_space a) eqn:S.
  { unfold py_int. cbn [drop_space]. rewrite S. reflexivity. }
  unfold py_int. cbn [drop_space]. rewrite S.
  destruct (hex_value a) as [h|] eqn:Ha.
  - destruct Da as (_ & Hh & _ & D1 & D2 & D3 & D4 & _).
    replace (a =? 43) with false by lia. replace (a =? 45) with false by lia.
    cbn [drop_space]. rewrite S. cbn [starts_digit]. rewrite andb_false_r.
    rewrite start_hex, Ha, parse_hex, Ha, parse_hex. destruct (hex_value b) as [l|].
    + cbn [parse_digits drop_space]. f_equal; lia.
    + cbn [drop_space]. destruct (is_space b); [f_equal; lia|reflexivity].
  - destruct (a =? 43) eqn:P; [|destruct (a =? 45) eqn:M].
    + cbn [drop_space]. destruct (is_space b) eqn:Sb.
      { destruct (hex_value b); [destruct Db as (_ & _ & Db & _); discriminate Db|reflexivity]. }
      rewrite start_hex, parse_hex. destruct (hex_value b); [|reflexivity].
      cbn [parse_digits drop_space]. f_equal; lia.
    + cbn [drop_space]. destruct (is_space b) eqn:Sb.
      { destruct (hex_value b); [destruct Db as (_ & _ & Db & _); discriminate Db|reflexivity]. }
      rewrite start_hex, parse_hex. destruct (hex_value b); [|reflexivity].
      cbn [parse_digits drop_space]. f_equal; lia.
    + cbn [drop_space]. rewrite S. cbn [starts_digit]. rewrite andb_false_r.
      rewrite start_hex, Ha. destruct (hex_value b); reflexivity.
Qed.

Lemma pair_octet_exact a b v : (py_int 16 [a; b] = Ok v /\ octet v) <-> pair_octet a b v.
Proof.
  rewrite two_chars. pose proof (digit_hex a) as Da. pose proof (digit_hex b) as Db. unfold pair_octet, octet. split.
  - intros (H & Ho). destruct (is_space a) eqn:S.
    { rewrite one_char in H. destruct (hex_value b) as [l|] eqn:Hb; [|discriminate H].
      right. injection H as <-. apply stray_before; [now apply space_blank|exact Hb]. }
    destruct (hex_value a) as [h|] eqn:Ha.
    + destruct (hex_value b) as [l|] eqn:Hb.
      * left. exists h, l. injection H as <-. auto.
      * destruct (is_space b) eqn:Sb; [|discriminate H]. injection H as <-. right.
        apply stray_behind; [exact Ha|now apply space_blank].
    + destruct (hex_value b) as [l|] eqn:Hb; [|discriminate H].
      destruct (a =? 43) eqn:P.
      { assert (a = 43) by lia. subst a. right. injection H as <-. now apply stray_plus. }
      destruct (a =? 45) eqn:M; [|discriminate H]. assert (a = 45) by lia. subst a.
      assert (l = 0) by (injection H as <-; lia). subst l. destruct Db as (_ & _ & _ & _ & _ & _ & _ & Db).
      assert (b = 48) by (now apply Db). subst b. assert (v = 0) by (injection H as <-; lia). subst v. right. apply stray_minus.
  - intros [(h & l & Ha & Hb & ->)|H].
    + rewrite Ha, Hb in *. destruct Da as (_ & Hh & -> & _). destruct Db as (_ & Hl & _). split; [reflexivity|lia].
    + destruct H as [a b v Hs Hb|a b v Ha Hs|b v Hb|].
      * apply space_blank in Hs. rewrite Hs, one_char, Hb in *. destruct Db as (_ & Hl & _). split; [reflexivity|lia].
      * rewrite Ha in *. destruct Da as (_ & Hh & -> & _).
        apply space_blank in Hs. rewrite Hs. destruct (hex_value b).
        { destruct Db as (_ & _ & Db & _). congruence. }
        split; [reflexivity|lia].
      * change (is_space 43) with false. change (hex_value 43) with (@None Z). cbv iota. rewrite Hb in *.
        destruct Db as (_ & Hl & _). split; [reflexivity|lia].
      * split; [reflexivity|lia].
Qed.

(** The strings that are taken for the octets [o]. *)
Inductive taken_for : list Z -> list Z -> Prop :=
| taken_nil : taken_for [] []
| taken_cons a b v s o : pair_octet a b v -> taken_for s o -> taken_for (a :: b :: s) (v :: o).

Lemma array_exact : forall o s, zlen s mod 2 = 0 -> (to_array s = Ok o <-> taken_for s o).
Proof.
  assert (A : forall s o, to_array s = Ok o <-> mapM (py_int 16) (chunks2 s) = Ok o /\ Forall octet o).
  { intros s o. unfold to_array. destruct (mapM (py_int 16) (chunks2 s)) as [l|e]; cbn [bind].
    2:{ split; [discriminate|intros (X & _); discriminate X]. }
    destruct (forallb _ l) eqn:F.
    - rewrite forallb_forall in F. split; [|intros (X & _); exact X].
      intros X. split; [exact X|]. injection X as <-. apply Forall_forall. intros x Hx. specialize (F x Hx).
      unfold octet. lia.
    - split; [discriminate|]. intros (X & Y). injection X as ->.
      assert (forallb (fun b => (0 <=? b) && (b <? 256)) o = true); [|congruence].
      apply forallb_forall. rewrite Forall_forall in Y. intros x Hx. specialize (Y x Hx). unfold octet in Y. lia. }
  induction o as [|v o IH]; intros s L; rewrite A.
  - destruct s as [|a [|b s]].
    + split; [intros _; constructor|intros _; split; [reflexivity|constructor]].
    + cbn in L. discriminate L.
    + cbn [chunks2 mapM]. split; [|intros X; inversion X]. intros (X & _).
      destruct (py_int 16 [a; b]); [|discriminate X]. cbn [bind] in X.
      destruct (mapM _ _); discriminate X.
  - destruct s as [|a [|b s]].
    + split; [intros (X & _); discriminate X|intros X; inversion X].
    + cbn in L. discriminate L.
    + assert (L' : zlen s mod 2 = 0) by (rewrite !zlen_cons in L; lia).
      specialize (IH s L'). rewrite A in IH. cbn [chunks2 mapM]. split.
      * intros (X & Y). apply Forall_cons_iff in Y. destruct Y as (Y1 & Y2).
        destruct (py_int 16 [a; b]) as [w|] eqn:W; [|discriminate X]. cbn [bind] in X.
        destruct (mapM (py_int 16) (chunks2 s)) as [l|] eqn:M; [|discriminate X]. cbn [bind] in X.
        injection X as -> ->. constructor; [apply pair_octet_exact; auto|]. apply IH. auto.
      * intros X. inversion X as [|? ? ? ? ? P T]; subst. apply pair_octet_exact in P. destruct P as (P1 & P2).
        apply IH in T. destruct T as (T1 & T2). rewrite P1, T1. cbn [bind]. split; [reflexivity|constructor; assumption].
Qed.

Lemma pieces_hex : forall o, Forall octet o -> exists s, reads_hex s o.
Proof. intros o H. exists (hex_of o). now apply reads_hex_of. Qed.

(** C98 is false of the code, exactly: a string of even length with characters that
    are no hexadecimal digits is read like the hexadecimal notation of octets, and
    accepted just when that is, if every pair of its characters is taken for an
    octet; otherwise it is refused with ValueError or OverflowError. *)
Theorem C98_exact : forall pdu strict, zlen pdu mod 2 = 0 ->
  (forall o hex, taken_for pdu o -> reads_hex hex o ->
     same_message (new_deliver hex strict) (new_deliver pdu strict)) /\
  ((forall o, ~ taken_for pdu o) ->
     new_deliver pdu strict = Err ValueError \/ new_deliver pdu strict = Err OverflowError).
Proof.
  intros pdu strict L. split.
  - intros o hex T R. apply (same_array hex pdu o).
    + now apply to_array_hex.
    + now apply array_exact.
    + pose proof (reads_hex_length _ _ R). lia.
    + exact L.
  - intros N. unfold new_deliver, set_pdu. rewrite st_bind_eq. cbn [st_get].
    replace (negb (zlen pdu mod 2 =? 0)) with false by lia. rewrite andb_false_r. cbn zeta iota.
    replace (negb (zlen pdu mod 2 =? 0)) with false by lia. cbn iota.
    rewrite st_bind_eq. cbn [assign st_upd]. rewrite st_bind_eq. cbn [st_lift].
    destruct (to_array pdu) as [o|e] eqn:E.
    { exfalso. apply (N o). now apply array_exact. }
    assert (P : forall l e', mapM (py_int 16) l = Err e' -> e' = ValueError).
    { assert (Q : forall x e', py_int 16 x = Err e' -> e' = ValueError).
      { intros x e'. unfold py_int. destruct (match drop_space x with [] => _ | _ => _ end) as (sg, s2).
        destruct (starts_digit 16 _); [|congruence]. destruct (parse_digits 16 0 _) as (v, r).
        destruct (drop_space r); congruence. }
      induction l as [|x l IH]; intros e'; cbn [mapM]; [discriminate|].
      destruct (py_int 16 x) eqn:X; cbn [bind]; [|intros Y; apply (Q x); congruence].
      destruct (mapM (py_int 16) l) eqn:M; cbn [bind]; [discriminate|]. intros Y. apply IH. congruence. }
    unfold to_array in E. destruct (mapM (py_int 16) (chunks2 pdu)) as [l|e1] eqn:M; cbn [bind] in E.
    + destruct (forallb _ l); [discriminate E|]. right. congruence.
    + left. assert (e = ValueError) by (apply P in M; congruence). congruence.
Qed.
Print Assumptions C98_exact.

(** So a blank may stand for a leading zero anywhere in a PDU. *)
Theorem C98_blank_refuted : forall pre c post o d strict,
  reads_hex (pre ++ 48 :: c :: post) o -> zlen pre mod 2 = 0 ->
  new_deliver (pre ++ 48 :: c :: post) strict = Ok d ->
  exists d', new_deliver (pre ++ 32 :: c :: post) strict = Ok d' /\ d' = set_d_pdu (d_pdu d') d.
Proof.
  intros pre c post o d strict R L E.
  assert (T : taken_for (pre ++ 32 :: c :: post) o).
  { assert (G : forall n pre o, (length pre <= n)%nat -> zlen pre mod 2 = 0 -> reads_hex (pre ++ 48 :: c :: post) o ->
      taken_for (pre ++ 32 :: c :: post) o).
    { assert (F : forall s o, reads_hex s o -> taken_for s o).
      { induction 1; constructor; auto. left. eauto. }
      induction n as [|n IH]; intros p q Hn Hp X.
      - destruct p; [|cbn in Hn; lia]. cbn [app] in *. inversion X; subst. constructor; [|now apply F].
        right. apply stray_before; [left; reflexivity|]. rewrite H4. f_equal.
        assert (h = 0) by (vm_compute in H2; congruence). lia.
      - destruct p as [|x [|y p]].
        + apply (IH [] q); [cbn; lia|exact Hp|exact X].
        + cbn in Hp. discriminate Hp.
        + cbn [app] in *. inversion X; subst. constructor; [left; eauto|].
          apply IH; [cbn [length] in Hn; lia|rewrite !zlen_cons in Hp; lia|assumption]. }
    apply (G (length pre) pre o); auto. }
  assert (L2 : zlen (pre ++ 32 :: c :: post) mod 2 = 0).
  { pose proof (reads_hex_length _ _ R) as X. unfold zlen in *. rewrite app_length in *. cbn [length] in *. lia. }
  destruct (C98_exact (pre ++ 32 :: c :: post) strict L2) as (A & _).
  specialize (A o _ T R). rewrite E in A. cbn [same_message] in A.
  destruct (new_deliver (pre ++ 32 :: c :: post) strict) as [d'|]; [|contradiction]. exists d'. auto.
Qed.
Print Assumptions C98_blank_refuted.

(** A PDU whose first zero is a blank is read. *)
Example C98_case : match new_deliver sample_deliver true,
    new_deliver (32 :: tl sample_deliver) true with
  | Ok d, Ok d' => d_text d = d_text d' /\ d_text d <> Some [] /\ In 32 (match d_pdu d' with Some p => p | None => [] end)
  | _, _ => False end.
Proof. vm_compute. repeat split; try discriminate. left. reflexivity. Qed.
Example C98_case_refused : new_deliver (str "zz") true = Err ValueError /\ new_deliver (str "-1") true = Err OverflowError.
Proof. vm_compute. split; reflexivity. Qed.
