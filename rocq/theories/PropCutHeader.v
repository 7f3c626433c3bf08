(** C85 for messages cut in the header of their user data. *)
From Coq Require Import Lia ZifyBool.
From Verif Require Import Py PyFacts SpecGsm SpecPack SpecAddress SpecTime SpecSubmit SpecDeliver DeliverClaims
  SpecCut SpecUdh SpecUnread Utils Gsm GsmFacts Submit SubmitClaims SubmitFacts ToPduFacts PackFacts Udh UdhFacts Deliver
  DeliverFacts DeliverCutFacts UnreadFacts PropDeliver PropUdh PropUnread.
Open Scope Z_scope.

(** The user data, cut in its header behind the octets [h] of that. *)
Lemma process_short mtype els coding text udl ud h q o :
  deliver_ud (Some els) coding text udl ud -> Forall octet ud ->
  ud = zlen (serial els) :: h ++ q -> zlen h < zlen (serial els) ->
  negb (Z.land mtype 64 =? 0) = true ->
  process_message mtype coding (udl :: zlen (serial els) :: h) o =
  match from_bytes h with
  | Err e => (Err e, o)
  | Ok u => (Ok tt, set_d_text (Some []) (set_d_udh (Some u) o))
  end.
Proof.
  intros H Ho Eud Hh Hm.
  pose proof (deliver_ud_coding _ _ _ _ _ H) as Hcod.
  destruct (header_ud _ _ _ _ _ H) as ((r & Er) & Hs & Hl1 & Hl2 & Hhs).
  assert (Forall octet (zlen (serial els) :: h)) as Op
    by (rewrite Eud in Ho; exact (proj1 (proj1 (Forall_app _ (_ :: h) q) Ho))).
  rewrite process_header by (try exact Hm; apply zlen_nonneg).
  rewrite py_to_short by lia.
  destruct (from_bytes h) as [u|e]; [|reflexivity].
  rewrite py_from_short by lia.
  destruct Hcod as [->|[-> | ->]]; unfold finish; cbn [Z.eqb Pos.eqb].
  - rewrite st_bind_eq. cbn [st_lift].
    rewrite py_to_short.
    2:{ rewrite Eud, zlen_cons, zlen_app in Hl1. pose proof (zlen_nonneg q). rewrite zlen_cons. lia. }
    rewrite unpack_msg_hex by exact Op.
    assert (length (unpack_msg2 (zlen (serial els) :: h)) <=
            Z.to_nat (header_septets (zlen (serial els) + 1)))%nat as Hlen.
    { destruct (unpack_all_spec _ Op 0 0) as (_ & Hla & _); [lia|cbn; lia|].
      unfold unpack_msg2. pose proof (zlen_nonneg h). rewrite zlen_cons in Hla.
      rewrite unpack_loop_all by lia. unfold header_septets. unfold zlen at 1 in Hla. lia. }
    unfold py_slice. rewrite skipn_all2 by exact Hlen. rewrite firstn_nil. reflexivity.
  - reflexivity.
  - reflexivity.
Qed.

(** A header of elements and a broken end. *)
Lemma broken_behind els r e : Forall element_ok els -> header_broken r e ->
  header_broken (serial els ++ r) e.
Proof.
  intros H B. induction els as [|[i d] els IH]; [exact B|].
  pose proof (element_right _ H) as R. cbn [serial app]. unfold zlen. rewrite <- app_assoc.
  apply hb_next.
  - rewrite Nat2Z.id, firstn_app, Nat.sub_diag, firstn_O, firstn_all, app_nil_r. exact (Forall_inv R).
  - rewrite Nat2Z.id, skipn_app, Nat.sub_diag, skipn_O, skipn_all. apply IH. exact (Forall_inv_tail H).
Qed.

(** The header object shows the elements [els]. *)
Definition shows_header (els : list element) (u : udh) : Prop :=
  concat_view u = concatenation els /\ ports_view u = port_addresses els /\
  forall i, d_get Z.eqb i (h_headers u) = element_data i els.

Lemma last_such_app p a b : last_such p (a ++ b) =
  match last_such p b with Some x => Some x | None => last_such p a end.
Proof.
  unfold last_such. rewrite rev_app_distr. induction (rev b) as [|x l IH]; [reflexivity|].
  cbn [app find]. destruct (p x); [reflexivity|exact IH].
Qed.

Lemma essence_ok els : Forall element_ok els -> map essence els = els.
Proof.
  induction 1 as [|[i d] els (_ & _ & _ & _ & H8 & _ & H5) _ IH]; [reflexivity|].
  cbn [map]. rewrite IH. unfold essence. destruct ((i =? 8) || (i =? 5)) eqn:E; [|reflexivity].
  rewrite firstn_all2; [reflexivity|]. apply Bool.orb_true_iff in E as [E|E]; lia.
Qed.

Lemma from_bytes_cut els i n d : Forall element_ok els -> octet i -> octet n -> Forall octet d ->
  Z.of_nat (length d) < n -> i <> 0 -> i <> 4 -> i <> 5 -> i <> 8 ->
  exists u, from_bytes (serial els ++ i :: n :: d) = Ok u /\ shows_header (els ++ [(i, d)]) u.
Proof.
  intros H Hi Hn Hd L H0 H4 H5 H8.
  assert (F : found (serial els ++ i :: n :: d) (els ++ [(i, d)]))
    by (apply found_serial, found_cut; exact L).
  assert (O : Forall octet (serial els ++ i :: n :: d)).
  { apply Forall_app. split; [now apply serial_octets|]. auto. }
  destruct (C106_exact _ O) as [A B]. destruct (B _ F) as (u & E).
  { apply Forall_app. split; [now apply element_right|]. constructor; [|constructor].
    unfold right_size. lia. }
  exists u. split; [exact E|]. destruct (A u E) as (els' & F' & _ & S).
  rewrite (found_det _ _ _ F' F) in S. rewrite map_snoc, essence_ok in S by exact H.
  unfold essence in S. replace ((i =? 8) || (i =? 5)) with false in S by lia. exact S.
Qed.

Lemma from_bytes_all els : Forall element_ok els ->
  exists u, from_bytes (serial els) = Ok u /\ shows_header els u.
Proof.
  intros H. pose proof (found_serial els [] [] found_none) as F. rewrite !app_nil_r in F.
  destruct (C106_exact _ (serial_octets els H)) as [A B].
  destruct (B _ F (element_right _ H)) as (u & E). exists u. split; [exact E|].
  destruct (A u E) as (els' & F' & _ & S). rewrite (found_det _ _ _ F' F) in S.
  rewrite essence_ok in S by exact H. exact S.
Qed.

Lemma from_bytes_broken data e : Forall octet data -> header_broken data e -> from_bytes data = Err e.
Proof. intros O. apply C116_header. exact O. Qed.

Lemma deliver_ud_ok els coding text udl ud : deliver_ud (Some els) coding text udl ud ->
  Forall element_ok els.
Proof. intros H. inversion H; assumption. Qed.

Lemma serial_app a b : serial (a ++ b) = serial a ++ serial b.
Proof.
  induction a as [|[i d] a IH]; [reflexivity|]. cbn [app serial]. rewrite IH, <- app_assoc. reflexivity.
Qed.

(** C85 for every cut in the header of the user data, [before], [(i, data)] and [after]
    being its elements.  Without the length of the header, or with the identifier of an
    element alone, the PDU is refused with IndexError.  Cut in the data of an element it is
    refused when that is about parts or ports.  In all other cases, between two elements or
    in the data of one of the others, it is accepted, with an empty text and just the
    elements that are there, the last with the data that is there. *)
Theorem C85_header_exact : forall pdu p q strict smsc sc fo snd oa pid dcs coding ts t oz
    before i data after text udl ud,
  reads_hex pdu (deliver_octets sc fo oa pid dcs ts oz udl p) ->
  smsc_field smsc sc -> message_type fo = 0 ->
  shown_as snd oa -> common_scheme dcs -> alphabet dcs = Some coding -> stamp ts t ->
  udhi fo = true ->
  let els := before ++ (i, data) :: after in
  deliver_ud (Some els) coding text udl ud -> Forall octet ud -> ud = p ++ q ->
  let accepted shown := exists d u, new_deliver pdu strict = Ok d /\
    d_csca d = smsc_text smsc /\ d_number d = Some snd /\ d_fmt d = Some coding /\
    d_date d = Some (t - 900 * zone_quarters oz) /\ d_text d = Some [] /\
    d_udh d = Some u /\ shows_header shown u in
  let refused e := new_deliver pdu strict = Err e in
  (p = [] -> refused IndexError) /\
  (p = zlen (serial els) :: serial before -> accepted before) /\
  (p = zlen (serial els) :: serial before ++ [i] -> refused IndexError) /\
  forall d lost, data = d ++ lost -> lost <> [] ->
    p = zlen (serial els) :: serial before ++ i :: zlen data :: d ->
    if (i =? 0) || (i =? 4) then refused ValueError
    else if (i =? 5) || (i =? 8) then refused IndexError
    else accepted (before ++ [(i, d)]).
Proof.
  intros pdu p q strict smsc sc fo snd oa pid dcs coding ts t oz before i data after text udl ud
    Hx Hsc Hmt Hs Hcs Ha Hts Hhd els Hud Oud Eud accepted refused.
  pose proof (deliver_ud_ok _ _ _ _ _ Hud) as Hok.
  pose proof (reads_hex_octets _ _ Hx) as Ho. unfold deliver_octets in Ho, Hx.
  destruct (sender_parts _ _ Hs) as (n & ty & os & -> & Hn & Es).
  cbn [app] in Ho.
  repeat match goal with
  | H : Forall octet (_ ++ _) |- _ => apply Forall_app in H as [? H]
  | H : Forall octet (_ :: _) |- _ =>
      let A := fresh "O" in pose proof (Forall_inv H) as A; apply Forall_inv_tail in H
  end.
  assert (coding = fmt_of_dcs dcs) as Ec.
  { assert (alphabet dcs = Some (fmt_of_dcs dcs)) by (apply fmt_scheme; assumption). congruence. }
  assert (Hm : negb (Z.land fo 64 =? 0) = true) by (now rewrite udhi_bit by assumption).
  assert (Hb : Forall element_ok before /\ element_ok (i, data)).
  { unfold els in Hok. apply Forall_app in Hok as [X Y]. split; [exact X|exact (Forall_inv Y)]. }
  destruct Hb as [Hb (Hi & Hd & Hl & K0 & K8 & K4 & K5)].
  assert (Hser : serial els = serial before ++ i :: zlen data :: data ++ serial after).
  { unfold els. rewrite serial_app. reflexivity. }
  assert (Hshort : forall h rest, p = zlen (serial els) :: h -> serial els = h ++ rest -> rest <> [] ->
    match from_bytes h with
    | Err e => refused e
    | Ok u => forall shown, shows_header shown u -> accepted shown
    end).
  { intros h rest Ep Eh Nr.
    assert (Lh : zlen h < zlen (serial els)).
    { rewrite Eh, zlen_app. destruct rest as [|x rest]; [contradiction|]. rewrite zlen_cons.
      pose proof (zlen_nonneg rest). lia. }
    pose proof (fun o => process_short fo els coding text udl ud h q o Hud Oud
      ltac:(rewrite Eud, Ep; reflexivity) Lh Hm) as P.
    unfold accepted, refused, new_deliver.
    rewrite (set_pdu_process pdu smsc sc fo n ty os snd pid dcs ts oz t (udl :: p)) by assumption.
    rewrite <- Ec, Ep, P. destruct (from_bytes h) as [u|e]; [|reflexivity].
    intros shown S. eexists. exists u. split; [reflexivity|].
    cbn. repeat (split; [reflexivity|]). exact S. }
  split; [|split; [|split]].
  - intros ->. apply new_deliver_err.
    rewrite (set_pdu_process pdu smsc sc fo n ty os snd pid dcs ts oz t [udl]) by assumption.
    unfold process_message. rewrite st_bind_eq. cbn [st_lift pop0]. cbn zeta. rewrite Hm.
    reflexivity.
  - intros Ep. specialize (Hshort _ _ Ep Hser ltac:(discriminate)).
    destruct (from_bytes_all before Hb) as (u & E & S). rewrite E in Hshort. exact (Hshort _ S).
  - intros Ep. specialize (Hshort (serial before ++ [i]) (zlen data :: data ++ serial after) Ep).
    rewrite (from_bytes_broken _ IndexError) in Hshort.
    + apply Hshort; [rewrite Hser, <- app_assoc; reflexivity|discriminate].
    + apply Forall_app. split; [now apply serial_octets|auto].
    + apply broken_behind; [exact Hb|constructor].
  - intros d lost Ed Nl Ep.
    assert (Ll : (length d < length data)%nat).
    { rewrite Ed, app_length. destruct lost; [contradiction|]. cbn. lia. }
    assert (Od : Forall octet d) by (rewrite Ed in Hd; now apply Forall_app in Hd).
    assert (On : octet (zlen data)) by (unfold octet, zlen; lia).
    specialize (Hshort (serial before ++ i :: zlen data :: d) (lost ++ serial after) Ep).
    specialize (Hshort ltac:(rewrite Hser, Ed, <- !app_assoc; reflexivity)
                       ltac:(destruct lost; [contradiction|discriminate])).
    assert (Oh : Forall octet (serial before ++ i :: zlen data :: d)).
    { apply Forall_app. split; [now apply serial_octets|auto]. }
    assert (W : forall e, wrong_size d i e -> refused e).
    { intros e W. rewrite (from_bytes_broken _ e Oh) in Hshort; [exact Hshort|].
      apply broken_behind; [exact Hb|]. apply hb_size. rewrite firstn_all2; [exact W|].
      unfold zlen. lia. }
    destruct (Z.eqb_spec i 0) as [E0|N0].
    { cbn [orb]. apply W. subst i. apply ws_parts8. lia. }
    destruct (Z.eqb_spec i 4) as [E4|N4].
    { cbn [orb]. apply W. subst i. apply ws_ports8. lia. }
    destruct (Z.eqb_spec i 5) as [E5|N5].
    { cbn [orb]. apply W. subst i. apply ws_ports16. lia. }
    destruct (Z.eqb_spec i 8) as [E8|N8].
    { cbn [orb]. apply W. subst i. apply ws_parts16. lia. }
    cbn [orb]. destruct (from_bytes_cut before i (zlen data) d) as (u & E & S); try assumption.
    { unfold zlen. lia. }
    rewrite E in Hshort. exact (Hshort _ S).
Qed.
Print Assumptions C85_header_exact.
(** A message indication of two octets behind the number of the part, and "Hi": cut
    after one octet of the indication, and in the number of the part. *)
Example C85_header_case :
  let ud := [9; 0; 3; 7; 2; 1; 1; 2; 128; 5; 72; 105] in
  deliver_ud (Some [(0, [7; 2; 1]); (1, [128; 5])]) 4 [72; 105] 12 ud /\
  match new_deliver (hex_of (case_octets 68 4 12 (firstn 9 ud))) true with
  | Ok d => d_text d = Some [] /\ exists u, d_udh d = Some u /\
      concat_view u = Some (7, 2, 1) /\ d_get Z.eqb 1 (h_headers u) = Some [128]
  | Err _ => False
  end /\
  new_deliver (hex_of (case_octets 68 4 12 (firstn 5 ud))) true = Err ValueError.
Proof.
  split; [|vm_compute; split; [split; [reflexivity|eexists; repeat split]|reflexivity]].
  apply (dud_8bit [(0, [7; 2; 1]); (1, [128; 5])] [72; 105]).
  - repeat constructor; unfold octet; cbn; lia.
  - repeat constructor; unfold octet; lia.
  - cbn. lia.
Qed.
