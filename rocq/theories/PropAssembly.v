(** Parts of several messages, C87. *)
From Coq Require Import Lia Permutation.
From Verif Require Import Py PyFacts SpecGsm SpecPack SpecAddress SpecTime SpecSubmit SpecDeliver
  SpecAssembly Gsm Utils Submit SubmitClaims Udh Deliver DeliverFacts SubmitFacts ToPduFacts
  AssemblyClaims AssemblyFacts PropSubmit PropDeliver.
Open Scope Z_scope.

(** What holds of C87: any number of messages in the GSM alphabet or UCS-2, each in
    several parts, with different reference numbers, delivered in any order and
    mixed in any way.  Every PDU is read, and for each reference number the parts
    make up the message sent with it and no other.  Missing: messages with the
    same reference number (refuted below) and 8-bit messages (C20). *)
Theorem C87_assembly_partial : forall sent order received strict,
  Forall (fun m => sent_in_parts (fst m) (snd m)) sent ->
  NoDup (map (fun m => parts_ref (fst m)) sent) ->
  Permutation order (flat_map (fun m => map (pair (fst m)) (snd m)) sent) ->
  Forall2 (fun q pdu => relayed (fst q) (snd q) pdu) order received ->
  exists ds, Forall2 (fun pdu d => new_deliver pdu strict = Ok d) received ds /\
    forall s pdus, In (s, pdus) sent ->
      forall text, assembled (parts_ref s) (flat_map arrival ds) text <-> text = chars (s_text s).
Proof.
  intros sent order received strict Hs N P F.
  destruct (assembly sent order received strict Hs N P F) as (ds & HD & HA).
  exists ds. split; [exact HD|]. intros s pdus Hin text. specialize (HA s pdus Hin). split.
  - intros H. exact (assembled_unique _ _ _ _ H HA).
  - intros ->. exact HA.
Qed.
Print Assumptions C87_assembly_partial.

(** C87 is false of the code: whatever the number and the text, a new object numbers
    its message with 1, so the parts of any two of them have the same reference. *)
Theorem C87_reference_refuted : forall number text s pdus k p pdu strict,
  new_submit number text = Ok s -> sent_in_parts s pdus ->
  nth_error pdus k = Some p -> relayed s p pdu ->
  exists d, new_deliver pdu strict = Ok d /\
    concat_data d = Some (1, zlen pdus, 1 + Z.of_nat k).
Proof.
  intros number text s pdus k p pdu strict Hn Hs Hk Hr.
  destruct (relayed_parts s pdus Hs) as (texts & _ & _ & HT).
  destruct (HT k p pdu strict Hk Hr) as (d & t & Ed & _ & Ea).
  destruct (new_reference _ _ _ Hn) as (_ & Er). rewrite Er in Ea.
  exists d. split; [exact Ed|]. unfold arrival in Ea.
  destruct (d_text d); [|discriminate]. destruct (concat_data d) as [[[r c] q]|]; [|discriminate].
  apply (f_equal (map (fun a => Some (a_ref a, a_count a, a_place a)))) in Ea.
  cbn [map a_ref a_count a_place] in Ea. apply (f_equal (hd None)) in Ea. exact Ea.
Qed.
Print Assumptions C87_reference_refuted.

(** What that costs: two pairs of different messages to one number give the same
    PDUs, so that no receiver can tell which pair was sent. *)
Theorem C87_mixed_refuted : exists number a b a' b' pa pb pa' pb',
  let pdus t l := exists s s', new_submit (Some number) t = Ok s /\ to_pdu s = (Ok l, s') in
  pdus a pa /\ pdus b pb /\ pdus a' pa' /\ pdus b' pb' /\
  Permutation (pa ++ pb) (pa' ++ pb') /\ a <> a' /\ a <> b'.
Proof.
  set (x1 := repeat 97 67). set (x2 := repeat 20013 10).
  set (y1 := repeat 98 67). set (y2 := repeat 20013 20).
  set (t x y := PyStr true (x ++ y)).
  set (run u := match new_submit (Some (str "+34600000000")) u with
                | Ok s => match to_pdu s with (Ok l, _) => l | _ => [] end | _ => [] end).
  assert (R : forall u, run u <> [] -> exists s s',
            new_submit (Some (str "+34600000000")) u = Ok s /\ to_pdu s = (Ok (run u), s')).
  { intros u. unfold run. destruct (new_submit _ u) as [s|]; [|congruence].
    destruct (to_pdu s) as [[l|] s'] eqn:E; [|congruence]. intros _. exists s, s'. auto. }
  exists (str "+34600000000"), (t x1 x2), (t y1 y2), (t x1 y2), (t y1 x2),
         (run (t x1 x2)), (run (t y1 y2)), (run (t x1 y2)), (run (t y1 x2)).
  cbv zeta.
  set (d0 := Pdu [] 0 0 0).
  assert (R' : forall u, length (run u) = 2%nat -> exists s s',
            new_submit (Some (str "+34600000000")) u = Ok s /\ to_pdu s = (Ok (run u), s')).
  { intros u Hu. apply R. intros X. rewrite X in Hu. discriminate. }
  do 4 (split; [apply R'; vm_compute; reflexivity|]).
  split; [|split; intros X; apply (f_equal (fun z => hd 0 (chars z) + zlen (chars z))) in X;
           vm_compute in X; discriminate X].
  assert (E : exists p q r u, run (t x1 x2) = [p; q] /\ run (t y1 y2) = [r; u] /\
            run (t x1 y2) = [p; u] /\ run (t y1 x2) = [r; q]).
  { exists (nth 0 (run (t x1 x2)) d0), (nth 1 (run (t x1 x2)) d0),
           (nth 0 (run (t y1 y2)) d0), (nth 1 (run (t y1 y2)) d0).
    repeat split; vm_compute; reflexivity. }
  destruct E as (p & q & r & u & -> & -> & -> & ->). cbn [app].
  apply perm_skip. apply Permutation_trans with (l' := [u; q; r]).
  - apply Permutation_sym. apply Permutation_trans with (l' := [q; u; r]); [apply perm_swap|].
    apply perm_skip, perm_swap.
  - apply perm_skip, perm_swap.
Qed.
Print Assumptions C87_mixed_refuted.

(** One object used again numbers its messages consecutively, modulo 255, so up to
    255 messages in a row sent with it have different reference numbers. *)
Theorem C87_same_object_partial : forall s pdus s' t,
  reachable s -> validity_ok (s_validity s) -> coding_of s = 0 \/ coding_of s = 8 ->
  s_rand_id s = None -> to_pdu s = (Ok pdus, s') -> zlen pdus <> 1 ->
  parts_ref (with_text t s') = (parts_ref s + 1) mod 255.
Proof.
  intros s pdus s' t H Hv Hc Hr E Hne.
  apply (next_reference s pdus s' t H Hv); [lia|exact E|exact Hne|exact Hr].
Qed.
Print Assumptions C87_same_object_partial.

(** Every part of such a message can be delivered, in a PDU from the number 12345. *)
Example C87_relayed : forall s pdus k p, sent_in_parts s pdus -> nth_error pdus k = Some p ->
  exists pdu, relayed s p pdu.
Proof.
  intros s pdus k p (H & Hv & Hc & (s' & E) & Hne) Hk.
  destruct (parts_run s pdus s' (reachable_wf _ H) Hv ltac:(lia) E Hne)
    as (_ & _ & _ & parts & Hl & _ & HK).
  assert (k < length pdus)%nat as Hlk by (apply nth_error_Some; congruence).
  destruct (nth_error parts k) as [m|] eqn:Em; [|apply nth_error_None in Em; lia].
  destruct (HK k p m Hk Em) as (udl & ud & C & _).
  pose proof (carried_octets _ _ _ _ _ _ _ C) as Ho.
  exists (hex_of (case_octets 0x44 (coding_of s) udl ud)), udl, ud, (case_octets 0x44 (coding_of s) udl ud).
  split; [exact C|]. split.
  - apply (case_delivers (coding_of s) 0x44); [reflexivity| |].
    + destruct Hc as [-> | ->]; left; cbn; lia.
    + destruct Hc as [-> | ->]; reflexivity.
  - apply reads_hex_of. unfold case_octets, deliver_octets. inversion Ho; subst.
    assert (Hdcs : octet (coding_of s)) by (destruct Hc as [-> | ->]; unfold octet; lia).
    cbn [app]. repeat (apply Forall_cons; [first [assumption|unfold octet; lia]|]). assumption.
Qed.

(** Two messages with different references. *)
Example C87_case :
  let a := with_rand_id (Some 7) (sample (PyStr true (repeat 97 170))) in
  let b := with_rand_id (Some 8) (sample (PyStr true (repeat 20013 80))) in
  (exists pa pb, sent_in_parts a pa /\ sent_in_parts b pb /\ zlen pa = 2 /\ zlen pb = 2) /\
  parts_ref a = 7 /\ parts_ref b = 8.
Proof.
  cbv zeta. split; [|split; reflexivity].
  assert (G : forall s n, reachable s -> validity_ok (s_validity s) ->
            (coding_of s = 0 \/ coding_of s = 8) -> n <> 1 ->
            match to_pdu s with (Ok l, _) => zlen l = n | _ => False end ->
            exists l, sent_in_parts s l /\ zlen l = n).
  { intros s n H Hv Hc Hn. destruct (to_pdu s) as [[l|e] s'] eqn:E; [|contradiction].
    intros Hl. exists l. split; [|exact Hl]. split; [exact H|]. split; [exact Hv|].
    split; [exact Hc|]. split; [eauto|]. congruence. }
  destruct (G (with_rand_id (Some 7) (sample (PyStr true (repeat 97 170)))) 2) as (pa & Ha & La);
    [apply r_rand_id, sample_reachable|exact I|left; vm_compute; reflexivity|lia|vm_compute; reflexivity|].
  destruct (G (with_rand_id (Some 8) (sample (PyStr true (repeat 20013 80)))) 2) as (pb & Hb & Lb);
    [apply r_rand_id, sample_reachable|exact I|right; vm_compute; reflexivity|lia|vm_compute; reflexivity|].
  exists pa, pb. auto.
Qed.
