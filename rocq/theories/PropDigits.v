(** C107: senders with digits that are not decimal.  The digits are in SpecDigits.v. *)
From Coq Require Import Lia ZifyBool ZifyNat.
From Verif Require Import Py PyFacts SpecGsm SpecPack SpecAddress SpecTime SpecSubmit SpecDeliver
  SpecDigits Utils Gsm GsmFacts Submit SubmitClaims PackFacts NumberFacts SubmitFacts Udh UdhFacts Deliver DeliverFacts.
Open Scope Z_scope.
Ltac Zify.zify_post_hook ::= Z.div_mod_to_equations.

(** A digit as the code shows it: its hexadecimal notation. *)
Definition hex_sign (d : Z) : Z := if d <=? 9 then 48 + d else 97 + (d - 10).

Lemma hex_digit_sign a : 0 <= a <= 14 -> hex_digit a = hex_sign a /\ negb (hex_sign a =? 102) = true.
Proof. intros H. unfold hex_digit, hex_sign. destruct (a <? 10) eqn:E, (a <=? 9) eqn:E'; lia. Qed.

Lemma swap_number_all ds os : all_semi_octets ds os ->
  swap_number (hex_of os) = map hex_sign ds.
Proof.
  unfold swap_number. induction 1 as [|a Ha|a b ds os Ha Hb H IH]; [reflexivity| |].
  - cbn [hex_of]. replace ((a + 16 * 15) / 16) with 15 by lia.
    replace ((a + 16 * 15) mod 16) with a by lia.
    change (hex_digit 15) with 102. destruct (hex_digit_sign a Ha) as [-> E].
    cbn [filter]. change (negb (102 =? 102)) with false. cbn iota. rewrite E. reflexivity.
  - cbn [hex_of]. replace ((a + 16 * b) / 16) with b by lia.
    replace ((a + 16 * b) mod 16) with a by lia.
    destruct (hex_digit_sign a Ha) as [-> E]. destruct (hex_digit_sign b Hb) as [-> E'].
    cbn [filter]. rewrite E, E'. cbn [swap map]. now rewrite IH.
Qed.

Lemma all_semi_octet ds os : all_semi_octets ds os -> Forall octet os.
Proof. induction 1; repeat constructor; unfold octet in *; try lia; assumption. Qed.

Lemma all_semi_length ds os : all_semi_octets ds os -> zlen os = (zlen ds + 1) / 2.
Proof. unfold zlen. induction 1; cbn [length] in *; lia. Qed.

Lemma all_digits ds os : all_semi_octets ds os -> Forall (fun d => 0 <= d <= 14) ds.
Proof. induction 1; repeat constructor; try lia; assumption. Qed.

Lemma sender_all ty ds os : all_semi_octets ds os -> type_of_number ty <> 5 ->
  sender_of (type_of_number ty) os =
    Ok ((if type_of_number ty =? 1 then [43] else []) ++ map hex_sign ds) /\
  addr_octets (zlen ds) = zlen os.
Proof.
  intros H Ht. unfold sender_of. destruct (type_of_number ty =? 5) eqn:E; [lia|]. split.
  - rewrite <- hex_of_encode by (eapply all_semi_octet; eassumption).
    rewrite (swap_number_all _ _ H). now destruct (type_of_number ty =? 1).
  - rewrite addr_octets_spec by apply zlen_nonneg. symmetry. now apply all_semi_length.
Qed.

(** C107, exactly: the number of the sender is shown as it is written just when all its
    digits are decimal; every other digit is shown as a letter that means another digit
    or none, the asterisk as a, the number sign as b, and the letter a as c. *)
Theorem C107_exact : forall pdu o strict smsc sc fo ty ds oa pid dcs coding ts t oz hdr text udl ud,
  reads_hex pdu o -> smsc_field smsc sc -> message_type fo = 0 ->
  type_of_number ty <> 5 -> all_numeric_field ty ds oa ->
  common_scheme dcs -> alphabet dcs = Some coding -> stamp ts t ->
  udhi fo = match hdr with Some _ => true | None => false end ->
  deliver_ud hdr coding text udl ud ->
  o = deliver_octets sc fo oa pid dcs ts oz udl ud ->
  exists d, new_deliver pdu strict = Ok d /\ d_text d = Some text /\
    (d_number d = Some (written ty ds) <-> Forall (fun x => x <= 9) ds) /\
    d_number d = Some ((if type_of_number ty =? 1 then [43] else []) ++
      map (fun x => if x <=? 9 then 48 + x else nth (Z.to_nat (x - 10)) (str "abcde") 0) ds).
Proof.
  intros pdu o strict smsc sc fo ty ds oa pid dcs coding ts t oz hdr text udl ud
    Hx Hsc Hmt Ht (os & Hs & Ef) Hcs Ha Hts Hhd Hud Eo.
  pose proof (reads_hex_octets _ _ Hx) as Ho. rewrite Eo in Ho. unfold deliver_octets in Ho.
  assert (octet dcs) as Od.
  { rewrite !Forall_app in Ho. destruct Ho as (_ & _ & _ & Ho & _).
    exact (Forall_inv (Forall_inv_tail Ho)). }
  pose proof (fmt_scheme dcs Od Hcs) as Hf. rewrite Ha in Hf. injection Hf as ->.
  destruct (sender_all ty ds os Hs Ht) as [Es En]. fold (zlen ds) in Ef. subst oa.
  rewrite <- (app_nil_r ud) in Eo.
  destruct (set_pdu_deliver pdu o smsc sc fo (zlen ds) ty os _ pid dcs ts oz t hdr text
    udl ud [] Hx Eo Hsc (or_introl Hmt) En Es Hts Hud (or_intror eq_refl) Hhd) as (u & _ & E).
  pose proof (all_digits _ _ Hs) as Hd.
  unfold new_deliver. rewrite E. eexists. split; [reflexivity|]. split; [reflexivity|].
  cbn [d_number]. split.
  - unfold written. split.
    + intros Q. assert (map hex_sign ds = map digit_sign ds) as M.
      { destruct (type_of_number ty =? 1); injection Q as Q; exact Q. }
      clear - M Hd. induction Hd as [|x ds Hx Hd IH]; constructor; cbn [map] in M.
      * assert (hex_sign x = digit_sign x) as Q by congruence. clear - Q Hx.
        unfold hex_sign, digit_sign in Q. destruct (x <=? 9) eqn:E; [lia|].
        destruct (x =? 10) eqn:E1; [lia|]. destruct (x =? 11) eqn:E2; lia.
      * apply IH. congruence.
    + intros Q. do 2 f_equal. apply map_ext_in. intros x Hi.
      rewrite Forall_forall in Q. specialize (Q x Hi).
      unfold hex_sign, digit_sign. destruct (x <=? 9) eqn:E'; lia.
  - do 2 f_equal. apply map_ext_in. intros x Hi. rewrite Forall_forall in Hd. specialize (Hd x Hi).
    unfold hex_sign. destruct (x <=? 9) eqn:E'; [reflexivity|].
    assert (x = 10 \/ x = 11 \/ x = 12 \/ x = 13 \/ x = 14) as [->|[->|[->|[->| ->]]]] by lia; reflexivity.
Qed.
Print Assumptions C107_exact.
(** The sender *123#. *)
Example C107_case : all_numeric_field 0x81 [10; 1; 2; 3; 11] [5; 0x81; 0x1a; 0x32; 0xfb] /\
  written 0x81 [10; 1; 2; 3; 11] = str "*123#" /\
  match new_deliver (hex_of (deliver_octets [0] 4 [5; 0x81; 0x1a; 0x32; 0xfb] 0 0
    [0x01; 0x20; 0x81; 0x11; 0x13; 0x45] 0 2 [0xe8; 0x34])) true with
  | Ok d => d_number d = Some (str "a123b") /\ d_text d = Some (str "hi")
  | Err _ => False end.
Proof.
  split; [|split; [reflexivity|vm_compute; split; reflexivity]].
  exists [0x1a; 0x32; 0xfb]. split; [|reflexivity].
  apply (all_semi_two 10 1 [2; 3; 11] [0x32; 0xfb]); [lia|lia|].
  apply (all_semi_two 2 3 [11] [0xfb]); [lia|lia|]. apply (all_semi_one 11). lia.
Qed.

(** C107 fails for every sender with an asterisk or number sign and otherwise decimal
    digits: what is shown is how another number is written, with the letter a for the
    asterisk and b for the number sign. *)
Theorem C107_mistaken_refuted : forall pdu o strict smsc sc fo ty ds oa pid dcs coding ts t oz hdr text udl ud,
  reads_hex pdu o -> smsc_field smsc sc -> message_type fo = 0 ->
  type_of_number ty <> 5 -> all_numeric_field ty ds oa -> Forall (fun x => x <= 11) ds ->
  (In 10 ds \/ In 11 ds) ->
  common_scheme dcs -> alphabet dcs = Some coding -> stamp ts t ->
  udhi fo = match hdr with Some _ => true | None => false end ->
  deliver_ud hdr coding text udl ud ->
  o = deliver_octets sc fo oa pid dcs ts oz udl ud ->
  exists d ds', new_deliver pdu strict = Ok d /\ d_number d = Some (written ty ds') /\
    ds' <> ds /\ Forall (fun x => 0 <= x <= 14) ds'.
Proof.
  intros pdu o strict smsc sc fo ty ds oa pid dcs coding ts t oz hdr text udl ud
    Hx Hsc Hmt Ht Hoa H11 Hin Hcs Ha Hts Hhd Hud Eo.
  destruct (C107_exact pdu o strict smsc sc fo ty ds oa pid dcs coding ts t oz hdr text udl ud
    Hx Hsc Hmt Ht Hoa Hcs Ha Hts Hhd Hud Eo) as (d & Ed & _ & _ & N).
  destruct Hoa as (os & Hs & _). pose proof (all_digits _ _ Hs) as Hd.
  exists d, (map (fun x => if x <=? 9 then x else x + 2) ds). split; [exact Ed|].
  rewrite Forall_forall in H11, Hd. split; [|split].
  - rewrite N. unfold written. rewrite map_map. do 2 f_equal. apply map_ext_in. intros x Hi.
    specialize (H11 x Hi). specialize (Hd x Hi). cbv beta in H11, Hd. unfold digit_sign.
    destruct (x <=? 9) eqn:E; [now rewrite E|].
    assert (x = 10 \/ x = 11) as [->| ->] by lia; reflexivity.
  - intros Q. clear - Q Hin. induction ds as [|x ds IH]; [destruct Hin as [[]|[]]|].
    cbn [map] in Q. assert ((if x <=? 9 then x else x + 2) = x) as Q1 by congruence.
    destruct (x <=? 9) eqn:E; [|lia]. apply IH; [|congruence].
    destruct Hin as [[H|H]|[H|H]]; try lia; auto.
  - apply Forall_forall. intros y Hy. apply in_map_iff in Hy as (x & <- & Hi).
    specialize (H11 x Hi). specialize (Hd x Hi). cbv beta in H11, Hd. destruct (x <=? 9) eqn:E; lia.
Qed.
Print Assumptions C107_mistaken_refuted.
