(** Proofs about user data headers. *)
From Coq Require Import Lia ZifyBool ZifyNat.
From Verif Require Import Py PyFacts SpecPack SpecDeliver Udh.
Open Scope Z_scope.
Ltac Zify.zify_post_hook ::= Z.div_mod_to_equations.

Lemma last_such_snoc p els e :
  last_such p (els ++ [e]) = if p e then Some e else last_such p els.
Proof. unfold last_such. rewrite rev_app_distr. reflexivity. Qed.

(** What the object holds after the elements [els]. *)
Definition concat_view (u : udh) : option (Z * Z * Z) :=
  option_map (fun c => (c_ref c, c_cnt c, c_seq c)) (h_concat u).
Definition ports_view (u : udh) : option (Z * Z) :=
  option_map (fun p => (p_dest p, p_orig p)) (h_ports u).

Definition holds (els : list element) (u : udh) : Prop :=
  concat_view u = concatenation els /\ ports_view u = port_addresses els /\
  forall i, d_get Z.eqb i (h_headers u) = element_data i els.

Lemma udh_element_holds els u i d :
  holds els u -> element_ok (i, d) ->
  exists u', udh_element i d u = Ok u' /\ holds (els ++ [(i, d)]) u'.
Proof.
  intros (Hc & Hp & Hh) (_ & Hd & _ & O0 & O8 & O4 & O5). unfold udh_element. cbn zeta.
  assert (forall j, d_get Z.eqb j (d_set Z.eqb i d (h_headers u)) =
                    element_data j (els ++ [(i, d)])) as Hh'.
  { intros j. unfold element_data. rewrite last_such_snoc. cbn [fst].
    destruct (Z.eq_dec i j) as [->|Hne].
    - rewrite Z.eqb_refl. cbn. rewrite d_get_set_same by exact Zeqb_spec. reflexivity.
    - destruct (i =? j) eqn:E; [lia|]. rewrite d_get_set_other by (auto using Zeqb_spec).
      apply Hh. }
  unfold holds, concatenation, port_addresses. rewrite !last_such_snoc. cbn [fst].
  destruct (i =? 0) eqn:E0; [|destruct (i =? 8) eqn:E8; [|destruct (i =? 4) eqn:E4;
    [|destruct (i =? 5) eqn:E5]]].
  - assert (i = 0) by lia. subst i. specialize (O0 eq_refl).
    destruct d as [|a [|b [|c [|]]]]; try discriminate. cbn [bind h_concat h_ports h_headers].
    eexists. split; [reflexivity|]. cbn. auto.
  - assert (i = 8) by lia. subst i. specialize (O8 eq_refl).
    destruct d as [|a [|b [|c [|e [|]]]]]; try discriminate.
    pose proof (Forall_inv Hd) as Ha. pose proof (Forall_inv (Forall_inv_tail Hd)) as Hb.
    cbn [bind h_concat h_ports h_headers].
    eexists. split; [reflexivity|]. cbn [h_concat h_ports h_headers concat_view ports_view].
    split; [|auto]. unfold concat_view. cbn -[Z.lor Z.shiftl Z.mul Z.add]. unfold octet in *.
    rewrite lor_shift8 by lia. do 3 f_equal. lia.
  - assert (i = 4) by lia. subst i. specialize (O4 eq_refl).
    destruct d as [|a [|b [|]]]; try discriminate. cbn [bind h_concat h_ports h_headers].
    eexists. split; [reflexivity|]. cbn. auto.
  - assert (i = 5) by lia. subst i. specialize (O5 eq_refl).
    destruct d as [|a [|b [|c [|e [|]]]]]; try discriminate.
    pose proof (Forall_inv Hd) as Ha. pose proof (Forall_inv (Forall_inv_tail Hd)) as Hb.
    pose proof (Forall_inv (Forall_inv_tail (Forall_inv_tail Hd))) as Hc'.
    pose proof (Forall_inv (Forall_inv_tail (Forall_inv_tail (Forall_inv_tail Hd)))) as He.
    cbn [bind h_concat h_ports h_headers].
    eexists. split; [reflexivity|]. cbn [h_concat h_ports h_headers concat_view ports_view].
    split; [exact Hc|]. split; [|auto]. unfold ports_view. cbn -[Z.lor Z.shiftl Z.mul Z.add]. unfold octet in *.
    rewrite !lor_shift8 by lia. do 2 f_equal; lia.
  - cbn [bind orb]. eexists. split; [reflexivity|]. cbn. auto.
Qed.

Lemma udh_loop_serial els : forall done u fuel,
  Forall element_ok els ->
  (length (serial els) <= fuel)%nat -> holds done u ->
  exists u', udh_loop fuel (serial els) u = Ok u' /\ holds (done ++ els) u'.
Proof.
  induction els as [|[i d] els IH]; intros done u fuel Hok Hf Hh; cbn [serial] in *.
  - exists u. rewrite app_nil_r. destruct fuel; auto.
  - destruct fuel as [|fuel]; [cbn in Hf; lia|].
    cbn [udh_loop pop0 bind]. rewrite py_to_app, py_from_app by reflexivity.
    destruct (udh_element_holds done u i d Hh (Forall_inv Hok)) as (u1 & E & H1).
    rewrite E. cbn [bind].
    destruct (IH (done ++ [(i, d)]) u1 fuel (Forall_inv_tail Hok)) as (u2 & E2 & H2).
    { cbn [length] in Hf. rewrite app_length in Hf. lia. }
    { exact H1. }
    exists u2. split; [exact E2|]. now rewrite <- app_assoc in H2.
Qed.

Lemma from_bytes_serial els :
  Forall element_ok els ->
  exists u, from_bytes (serial els) = Ok u /\ holds els u.
Proof.
  intros Hok. apply (udh_loop_serial els [] udh_empty _ Hok (le_n _)).
  repeat split.
Qed.

Lemma serial_octets els : Forall element_ok els -> Forall octet (serial els).
Proof.
  induction 1 as [|[i d] els (Hi & Hd & Hl & _) _ IH]; cbn [serial]; [constructor|].
  constructor; [exact Hi|]. constructor; [unfold octet; lia|]. now apply Forall_app.
Qed.

(** * All octet strings *)

Lemma py_index_errors {A} (l : list A) i e : py_index l i = Err e -> e = IndexError.
Proof.
  unfold py_index. cbn zeta. destruct (i <? 0).
  - destruct (i + zlen l <? 0); [congruence|]. destruct (nth_error _ _); congruence.
  - destruct (i <? 0); [congruence|]. destruct (nth_error _ _); congruence.
Qed.

Lemma udh_element_errors i d u e : udh_element i d u = Err e ->
  e = IndexError \/ e = ValueError.
Proof.
  unfold udh_element. cbn zeta. intros H.
  destruct (i =? 0) eqn:E0.
  - destruct d as [|a [|b [|c [|]]]]; cbn [bind] in H; try (injection H as <-; auto).
    assert (i = 0) by lia. subst i. cbn in H. discriminate.
  - cbn [bind] in H.
    repeat match type of H with
    | (if ?b then _ else _) = _ => destruct b
    | bind ?m _ = _ => let E := fresh in destruct m eqn:E; cbn [bind] in H;
        [|injection H as <-; apply py_index_errors in E; auto]
    | Ok _ = Err _ => discriminate
    end.
    destruct d as [|a [|b [|]]]; try (injection H as <-; auto); discriminate.
Qed.

Lemma udh_loop_errors fuel : forall data u e, (length data <= fuel)%nat ->
  udh_loop fuel data u = Err e -> e = IndexError \/ e = ValueError.
Proof.
  induction fuel as [|fuel IH]; intros data u e Hf H.
  - destruct data; cbn in *; [discriminate|lia].
  - destruct data as [|i data]; cbn [udh_loop pop0 bind] in H; [discriminate|].
    destruct data as [|n data]; cbn [pop0 bind] in H; [injection H as <-; auto|].
    destruct (udh_element i (py_to data n) u) eqn:E; cbn [bind] in H.
    + eapply IH in H; [exact H|]. unfold py_from. rewrite skipn_length. cbn in Hf. lia.
    + injection H as <-. eapply udh_element_errors; eauto.
Qed.

Lemma from_bytes_errors data e : from_bytes data = Err e ->
  e = IndexError \/ e = ValueError.
Proof. apply udh_loop_errors. lia. Qed.
