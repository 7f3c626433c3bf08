(** What [SmsDeliver] shows of any string it accepts (C122).  The pieces are in
    SpecShown.v, the two kinds of messages in ShownClaims.v; which strings are accepted
    is C116. *)
From Coq Require Import Lia ZifyBool ZifyNat.
From Verif Require Import Py PyFacts SpecGsm SpecPack SpecTime SpecDeliver SpecUnread Utils Udh Deliver DeliverFacts
  SpecShown ShownClaims ShownFacts.
Open Scope Z_scope.
Ltac Zify.zify_post_hook ::= Z.div_mod_to_equations.

(** C122: whatever the string, if an object is made of it then all its attributes are
    those written in the octets. *)
Theorem C122_shown : forall pdu strict d, new_deliver pdu strict = Ok d ->
  exists s o fo r, kept strict pdu s /\ numbers s o /\ Forall octet o /\
    behind_centre o (fo :: r) /\ message_type fo <> 1 /\
    d_strict d = strict /\ d_pdu d = Some s /\ centre_shown o (d_csca d) /\ d_mtype d = Some fo /\
    if message_type fo =? 2 then report_shown r d else message_shown fo r d.
Proof.
  intros pdu strict d H. unfold new_deliver in H.
  destruct (set_pdu pdu (deliver0 strict)) as [[[]|e] x] eqn:E; [|discriminate H]. injection H as ->.
  unfold set_pdu in E. apply bind_ok in E as (x & s1 & E1 & E). injection E1 as <- <-. cbn zeta in E.
  change (d_strict (deliver0 strict)) with strict in E.
  set (s := if negb strict && negb (zlen pdu mod 2 =? 0) then removelast pdu else pdu) in *.
  destruct (zlen s mod 2 =? 0) eqn:L; cbn [negb] in E; [|discriminate E].
  apply set_step in E. apply bind_ok in E as (o & s1 & E1 & E). apply lift_ok in E1 as (E1 & ->).
  apply array_numbers in E1; [|lia]. destruct E1 as (N & O).
  apply octets_shown in E as (A1 & A2 & fo & r & B & C & M & T & R); [|exact O|reflexivity..].
  exists s, o, fo, r. split.
  { subst s. destruct strict; cbn [negb andb] in *; [apply kept_all; unfold zlen in L; lia|].
    destruct (zlen pdu mod 2 =? 0) eqn:P; cbn [negb] in *; [apply kept_all; unfold zlen in P; lia|].
    destruct pdu as [|c q _] using rev_ind; [discriminate P|].
    rewrite removelast_last in *. apply kept_most; [reflexivity|unfold zlen in L; lia]. }
  split; [exact N|]. split; [exact O|]. split; [exact B|]. split; [exact T|]. split; [exact A1|].
  split; [exact A2|]. split; [exact C|]. split; [exact M|exact R].
Qed.
Print Assumptions C122_shown.

(** C122: unpacking any octets gives the complete septets in them, 161 at most, which
    is also what text and names are read from above. *)
Theorem C122_septets : forall os, Forall octet os -> unpack_msg2 os = septets_in os.
Proof. exact septets_unpacked. Qed.
Print Assumptions C122_septets.

(** A status report that ends in its first date: the recipient is +49, there is no
    date and no state. *)
Example C122_report_case : exists d, new_deliver (str "0002070291940120") true = Ok d /\
  d_number d = Some (str "SR-UNKNOWN") /\ d_text d = Some (str "+49||") /\ d_date d = None /\
  date_shown (firstn 6 [1; 32]) None [] /\ address_text 145 [148] = str "+49" /\
  centre_shown [0; 2; 7; 2; 145; 148; 1; 32] None.
Proof.
  eexists. split; [vm_compute; reflexivity|]. repeat (split; [reflexivity|]).
  split; [|split; [reflexivity|constructor]]. apply ds_none.
  intros t (oy & om & od & oh & oi & os & E & _). discriminate E.
Qed.

(** A message with a reserved coding (taken for 8-bit data), fillers within the number
    of the sender, and a length that says nothing about the text. *)
Example C122_message_case : exists d,
  new_deliver (str "0000068121F34300" ++ str "0C" ++ str "01208111134500" ++ str "094142") false = Ok d /\
  d_number d = Some (str "12433") /\ d_fmt d = Some 4 /\ d_text d = Some (str "AB") /\
  address_text 129 [33; 243; 67] = str "12433" /\ coding_taken 12 = 4.
Proof. eexists. split; [vm_compute; reflexivity|]. repeat split. Qed.
