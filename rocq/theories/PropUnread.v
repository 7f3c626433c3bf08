(** Which strings [SmsDeliver] refuses, and with which exception (C116).  The defects
    and their exceptions are listed in SpecUnread.v ([pdu_refused]). *)
From Coq Require Import Lia ZifyBool ZifyNat.
From Verif Require Import Py SpecPack SpecTime SpecDeliver SpecUdh SpecUnread
  Utils Udh Deliver DeliverFacts UnreadFacts.
Open Scope Z_scope.

(** C116: constructing an [SmsDeliver] raises [e] just when the string has a defect
    that leads to [e]. *)
Theorem C116_exact : forall pdu strict e,
  new_deliver pdu strict = Err e <-> pdu_refused strict pdu e.
Proof.
  intros pdu strict e. rewrite <- (agrees_iff _ _ (pdu_out pdu (deliver0 strict))). unfold new_deliver.
  destruct (set_pdu pdu (deliver0 strict)) as [[a|e'] o]; cbn [fst]; split; congruence.
Qed.
Print Assumptions C116_exact.

(** C116: so it is for assigning [pdu] of an object with any history. *)
Theorem C116_assign : forall pdu st e,
  (exists st', set_pdu pdu st = (Err e, st')) <-> pdu_refused (d_strict st) pdu e.
Proof.
  intros pdu st e. rewrite <- (agrees_iff _ _ (pdu_out pdu st)). destruct (set_pdu pdu st) as [r o]; cbn [fst]. split.
  - intros (st' & E). congruence.
  - intros ->. eauto.
Qed.
Print Assumptions C116_assign.

(** C116: and for user data headers alone. *)
Theorem C116_header : forall data e, Forall octet data ->
  (from_bytes data = Err e <-> header_broken data e).
Proof.
  intros data e H. apply (agrees_iff (from_bytes data, tt)). exact (from_bytes_out data H).
Qed.
Print Assumptions C116_header.

(** The header of a part of a message without the number of the part, behind an
    element that is left alone. *)
Example C116_header_case : header_broken [37; 2; 65; 66; 0; 3; 7; 2] ValueError.
Proof.
  apply hb_next; [repeat split; discriminate|]. apply hb_size. apply ws_parts8. vm_compute. discriminate.
Qed.

Lemma hex_numbers s o : reads_hex s o -> numbers s o.
Proof. induction 1; [constructor|]. constructor; [now apply pn_hex|assumption]. Qed.

(** The thirteenth month. *)
Example C116_month : pdu_refused true (str "000003214300000131100000000001" ++ str "41") ValueError.
Proof.
  apply pr_even; [reflexivity|].
  apply (rf_octets _ [0; 0; 3; 33; 67; 0; 0; 1; 49; 16; 0; 0; 0; 0; 1; 65]);
    [apply hex_numbers; apply (reads_hex_of [0; 0; 3; 33; 67; 0; 0; 1; 49; 16; 0; 0; 0; 0; 1; 65])| |].
  1,2: repeat (apply Forall_cons; [unfold octet; lia|]); apply Forall_nil.
  - apply (ur_deliver _ 0 [3; 33; 67; 0; 0; 1; 49; 16; 0; 0; 0; 0; 1; 65]); [constructor|left; reflexivity|].
    apply (bb_date 0 3 33 [67; 0] 0 1 [49; 16; 0; 0; 0; 0] 1 [65]); [reflexivity|reflexivity|].
    intros t (oy & om & od & oh & oi & os & E & _ & V & _). injection E as <- <- <- <- <- <-.
    cbn zeta in V. unfold valid_civil, swapped_bcd in V. cbn in V. lia.
Qed.
(** A negative octet. *)
Example C116_negative : pdu_refused false (str "-1000") OverflowError /\ new_deliver (str "-1000") false = Err OverflowError.
Proof.
  split; [|vm_compute; reflexivity]. apply (pr_dropped false (str "-100") 48); [reflexivity|reflexivity|].
  apply (rf_negative _ [-1; 0] (-1)); [|left; reflexivity|lia].
  apply ns_cons; [apply (pn_minus 49 1 eq_refl)|]. apply ns_cons; [apply (pn_hex 48 48 0 0 eq_refl eq_refl)|]. constructor.
Qed.
