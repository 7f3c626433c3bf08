(** C20: what exactly is sent of an 8-bit message that does not fit one PDU, and what
    becomes of it at the receiver. *)
From Coq Require Import Lia ZifyBool.
From Verif Require Import Py PyFacts SpecGsm SpecPack SpecAddress SpecTime SpecSubmit SpecDeliver DeliverClaims
  SpecUnread Utils Gsm GsmFacts Submit SubmitClaims SubmitFacts ToPduFacts Udh Deliver DeliverFacts DeliverCutFacts
  UnreadFacts PropDeliver PropUnread PropCutHeader PropSubmit.
Open Scope Z_scope.

(** C20, the PDUs: the text is cut into parts of at most 134 octets, and each of them
    is all the user data of its PDU, under a length that is three too large and with
    the header indicator set. *)
Theorem C20_exact : forall s pdus s', reachable s -> validity_ok (s_validity s) ->
  coding_of s = 4 -> Forall octet (chars (s_text s)) -> 140 < zlen (chars (s_text s)) ->
  to_pdu s = (Ok pdus, s') ->
  exists parts, concat parts = chars (s_text s) /\ zlen parts = zlen pdus /\
    Forall (fun part => 1 <= zlen part <= 134) parts /\
    forall k p part, nth_error pdus k = Some p -> nth_error parts k = Some part ->
      carries s 4 (message_ref s) true (3 + zlen part) part p.
Proof.
  intros s pdus s' Hr Hv Hc Ho Hl E.
  destruct (to_pdu_inv s pdus s' (reachable_wf _ Hr) Hv (fun _ => Ho) E)
    as (mr & l & _ & _ & -> & _ & _ & H).
  cbv zeta in H. rewrite Hc in H. unfold message_size, capacity in H. cbn [Z.eqb Pos.eqb] in H.
  destruct H as [(p & udl & ud & n & _ & _ & _ & En & Hn & _)|
                 (ref0 & parts & l2 & n & En & Hn & H2 & Hz & Hp & Hsz & _ & _ & _ & _ & Hall)].
  { unfold zlen in Hl. lia. }
  exists parts. split; [exact Hp|]. split; [congruence|]. split; [exact Hsz|].
  intros k p part Hk Em. destruct (Hall k p part Hk Em) as (_ & _ & udl & ud & Hud & C).
  unfold emitted_ud in Hud. cbn [Z.eqb Pos.eqb] in Hud. destruct Hud as [-> ->]. 
  exact C.
Qed.
Print Assumptions C20_exact.

(** C20, the receiver: a message delivered with such user data is refused when the
    octets behind the first, as many as that says, are no header.  Otherwise the text
    lacks these and the first octet, so it is not the part. *)
Theorem C20_received : forall pdu o strict udl n part,
  reads_hex pdu o -> delivers 4 true udl (n :: part) o ->
  let taken := firstn (Z.to_nat n) part in
  (forall e, header_broken taken e <-> new_deliver pdu strict = Err e) /\
  (forall d, new_deliver pdu strict = Ok d ->
     d_text d = Some (skipn (Z.to_nat n) part) /\ d_text d <> Some (n :: part)).
Proof.
  intros pdu o strict udl n part Hx (smsc & sc & fo & name & snd & oa & pid & dcs & ts & t & oz &
    Hsc & Hmt & Hhd & Hsf & Hnm & Hcs & Ha & Hts & ->) taken.
  destruct (sender_shown _ _ _ Hsf Hnm) as (x & Hs).
  pose proof (reads_hex_octets _ _ Hx) as Ho. unfold deliver_octets in Ho, Hx.
  destruct (sender_parts _ _ Hs) as (k & ty & os & -> & Hn & Es).
  cbn [app] in Ho.
  repeat match goal with
  | H : Forall octet (_ ++ _) |- _ => apply Forall_app in H as [? H]
  | H : Forall octet (_ :: _) |- _ =>
      let A := fresh "O" in pose proof (Forall_inv H) as A; apply Forall_inv_tail in H
  end.
  assert (fmt_of_dcs dcs = 4) as Ec.
  { assert (alphabet dcs = Some (fmt_of_dcs dcs)) by (apply fmt_scheme; assumption). congruence. }
  assert (Hm : negb (Z.land fo 64 =? 0) = true) by (now rewrite udhi_bit by assumption).
  assert (On : 0 <= n) by (unfold octet in *; lia).
  assert (R : new_deliver pdu strict =
    match from_bytes taken with
    | Err e => Err e
    | Ok u => Ok (set_d_text (Some (skipn (Z.to_nat n) part)) (set_d_udh (Some u)
        (Deliver strict (Some pdu) None (Some x) None (Some 4) (Some dcs) (Some pid) (smsc_text smsc) None
           (Some (t - 900 * zone_quarters oz)) (Some fo) None)))
    end).
  { unfold new_deliver.
    rewrite (set_pdu_process pdu smsc sc fo k ty os x pid dcs ts oz t (udl :: n :: part)) by assumption.
    rewrite Ec, process_header by assumption. unfold taken, py_to.
    destruct (from_bytes (firstn (Z.to_nat n) part)); reflexivity. }
  rewrite R. split.
  - intros e. rewrite <- (C116_header taken e) by (apply Forall_firstn; assumption).
    destruct (from_bytes taken); split; congruence.
  - intros d E. destruct (from_bytes taken) as [u|]; [|discriminate]. injection E as <-.
    split; [reflexivity|]. cbn. intros E. injection E as E.
    apply (f_equal (@length Z)) in E. rewrite skipn_length in E. cbn in E. lia.
Qed.
Print Assumptions C20_received.
(** 150 octets 65: the first part, sent as 134 of these, arrives as 68 of them. *)
Example C20_received_case :
  delivers 4 true 137 (repeat 65 134) (case_octets 68 4 137 (repeat 65 134)) /\
  (exists pdus s', to_pdu (with_fmt (Some 4) (sample (PyStr false (repeat 65 150)))) = (Ok pdus, s') /\
     zlen pdus = 2) /\
  match new_deliver (hex_of (case_octets 68 4 137 (repeat 65 134))) true with
  | Ok d => d_text d = Some (repeat 65 68)
  | Err _ => False
  end.
Proof.
  split; [|split].
  - apply (case_delivers 4 68 4); [reflexivity| |reflexivity]. left. cbn. lia.
  - do 2 eexists. split; [vm_compute; reflexivity|reflexivity].
  - vm_compute. reflexivity.
Qed.
