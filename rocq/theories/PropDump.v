(** The dump of any data reads back as the data (C110). *)
From Coq Require Import Lia ZifyBool ZifyNat.
From Verif Require Import Py SpecDeliver SpecDump Dump PyFacts.
Ltac Zify.zify_post_hook ::= Z.div_mod_to_equations.
Open Scope Z_scope.

Lemma hexdigit_value d : 0 <= d < 16 -> hex_value (hexdigit d) = Some d.
Proof.
  intros H. unfold hex_value, hexdigit. destruct (d <? 10) eqn:E.
  - replace ((48 <=? 48 + d) && (48 + d <=? 57)) with true by lia. f_equal. lia.
  - replace ((48 <=? 87 + d) && (87 + d <=? 57)) with false by lia.
    replace ((97 <=? 87 + d) && (87 + d <=? 102)) with true by lia. f_equal. lia.
Qed.

Lemma hexdigit_no_line d : 0 <= d < 16 -> hexdigit d =? 10 = false.
Proof. intros H. unfold hexdigit. destruct (d <? 10) eqn:E; lia. Qed.

(** * Numbers *)

Lemma hex_fuel_read : forall fuel n acc rest, 0 <= n < 2 ^ Z.of_nat fuel ->
  (0 < fuel)%nat ->
  read_number 0 (hex_fuel fuel n acc ++ rest) = read_number n (acc ++ rest).
Proof.
  induction fuel as [|f IH]; intros n acc rest H Hf; [lia|]. cbn [hex_fuel].
  assert (P : 2 ^ Z.of_nat (S f) = 2 * 2 ^ Z.of_nat f)
    by (rewrite Nat2Z.inj_succ, Z.pow_succ_r by lia; reflexivity).
  destruct (n / 16 =? 0) eqn:E.
  - cbn [app read_number]. rewrite hexdigit_value by lia. f_equal. lia.
  - assert (Hf' : (0 < f)%nat).
    { destruct f; [|lia]. change (2 ^ Z.of_nat 1) with 2 in H. lia. }
    rewrite IH by lia. cbn [app read_number]. rewrite hexdigit_value by lia. f_equal. lia.
Qed.

Lemma hex_read n rest : 0 <= n -> read_number 0 (py_hex n ++ rest) = read_number n rest.
Proof.
  intros H. unfold py_hex. rewrite hex_fuel_read; [reflexivity| |lia].
  split; [exact H|]. rewrite Nat2Z.inj_succ, Z2Nat.id by apply Z.log2_nonneg.
  destruct (Z.eq_dec n 0) as [->|N]; [reflexivity|]. apply Z.log2_spec. lia.
Qed.

Lemma hex06_read n rest : 0 <= n -> read_number 0 (hex06 n ++ rest) = read_number n rest.
Proof.
  intros H. unfold hex06. rewrite <- app_assoc. induction (6 - length (py_hex n))%nat as [|k IH].
  - apply hex_read. exact H.
  - cbn [repeat app read_number]. exact IH.
Qed.

Definition no_line (l : list Z) : Prop := Forall (fun c => c =? 10 = false) l.

Lemma hex_fuel_no_line : forall fuel n acc, 0 <= n -> no_line acc -> no_line (hex_fuel fuel n acc).
Proof.
  induction fuel as [|f IH]; intros n acc H Ha; [exact Ha|]. cbn [hex_fuel].
  assert (D : no_line (hexdigit (n mod 16) :: acc))
    by (constructor; [apply hexdigit_no_line; lia|exact Ha]).
  destruct (n / 16 =? 0); [exact D|]. apply IH; [lia|exact D].
Qed.

Lemma hex06_no_line n : 0 <= n -> no_line (hex06 n).
Proof.
  intros H. apply Forall_app. split.
  - apply Forall_forall. intros c Hc. apply repeat_spec in Hc. subst. reflexivity.
  - apply hex_fuel_no_line; [exact H|constructor].
Qed.

(** * Lines *)

Lemma line_octets o : Forall is_octet o ->
  read_octets (concat (map (fun c => 32 :: hex02 c) o)) = Some o.
Proof.
  induction 1 as [|b o Hb _ IH]; [reflexivity|]. cbn [map concat app].
  rewrite hex02_octet by exact Hb. cbn [app read_octets]. unfold is_octet in Hb.
  rewrite !hexdigit_value by lia. rewrite IH. do 2 f_equal. lia.
Qed.

Lemma octets_no_line o : Forall is_octet o -> no_line (concat (map (fun c => 32 :: hex02 c) o)).
Proof.
  induction 1 as [|b o Hb _ IH]; [constructor|]. cbn [map concat app].
  rewrite hex02_octet by exact Hb. unfold is_octet in Hb.
  constructor; [reflexivity|]. repeat (constructor; [apply hexdigit_no_line; lia|]). exact IH.
Qed.

Lemma line_split : forall l cur t, no_line l ->
  text_lines cur (l ++ 10 :: t) = option_map (cons (cur ++ l)) (text_lines [] t).
Proof.
  induction l as [|c l IH]; intros cur t H.
  - cbn [app text_lines]. rewrite app_nil_r. reflexivity.
  - cbn [app text_lines]. rewrite (Forall_inv H). rewrite IH by exact (Forall_inv_tail H).
    rewrite <- app_assoc. reflexivity.
Qed.

Lemma number_stops x o : read_number x (concat (map (fun c => 32 :: hex02 c) o)) =
  (x, concat (map (fun c => 32 :: hex02 c) o)).
Proof. destruct o; reflexivity. Qed.

(** * The loop *)

Lemma dump_loop_reads : forall fuel data offset, Forall is_octet data -> 0 <= offset ->
  zlen data - offset < 8 * Z.of_nat fuel ->
  exists ls, text_lines [] (dump_loop fuel offset data) = Some ls /\
    read_lines offset ls = Some (skipn (Z.to_nat offset) data).
Proof.
  induction fuel as [|f IH]; intros data offset Hd Ho Hf.
  - exists []. split; [reflexivity|]. rewrite skipn_all2; [reflexivity|]. unfold zlen in Hf. lia.
  - cbn [dump_loop]. destruct (zlen data <=? offset) eqn:E.
    + exists []. split; [reflexivity|]. rewrite skipn_all2; [reflexivity|]. unfold zlen in E. lia.
    + cbv zeta.
      set (line := py_slice data offset _).
      assert (Hl : line = firstn 8 (skipn (Z.to_nat offset) data)).
      { unfold line, py_slice, perline. destruct (zlen data <? offset + 8) eqn:E'.
        - rewrite !firstn_all2; [reflexivity| |]; rewrite skipn_length; unfold zlen in *; lia.
        - f_equal. lia. }
      assert (Ol : Forall is_octet line).
      { rewrite Hl. apply Forall_forall. intros x Hx. rewrite Forall_forall in Hd. apply Hd.
        rewrite <- (firstn_skipn (Z.to_nat offset) data). apply in_or_app. right.
        rewrite <- (firstn_skipn 8 (skipn _ data)). apply in_or_app. left. exact Hx. }
      destruct (IH data (offset + perline)) as (ls & L1 & L2).
      * exact Hd.
      * unfold perline; lia.
      * unfold perline; lia.
      * unfold dump_line. rewrite (app_assoc (hex06 offset)), <- app_assoc.
        change ([10] ++ dump_loop f (offset + perline) data) with (10 :: dump_loop f (offset + perline) data).
        rewrite line_split by (apply Forall_app; split; [apply hex06_no_line|apply octets_no_line]; assumption).
        rewrite L1. eexists. split; [reflexivity|]. cbn [app read_lines].
        rewrite hex06_read, number_stops by exact Ho. rewrite Z.eqb_refl, line_octets by exact Ol.
        assert (S : Z.to_nat (offset + perline) = (Z.to_nat offset + 8)%nat) by (unfold perline; lia).
        destruct (zlen data <? offset + 8) eqn:E'.
        -- assert (ls = []) as ->.
           { destruct f; cbn [dump_loop] in L1; [cbn in L1; congruence|].
             replace (zlen data <=? offset + perline) with true in L1 by (unfold perline; lia).
             cbn in L1. congruence. }
           cbn [read_lines option_map]. rewrite app_nil_r, Hl. rewrite firstn_all2; [reflexivity|].
           rewrite skipn_length. unfold zlen in *. lia.
        -- replace (offset + Z.of_nat (length line)) with (offset + perline).
           2:{ rewrite Hl, firstn_length, skipn_length. unfold zlen, perline in *. lia. }
           rewrite L2. cbn [option_map]. f_equal. rewrite Hl, S.
           rewrite <- (firstn_skipn 8 (skipn (Z.to_nat offset) data)) at 2. f_equal.
           clear. generalize (Z.to_nat offset). intros n. revert data.
           induction n as [|n IHn]; intros data; [reflexivity|].
           destruct data as [|a data]; [reflexivity|]. cbn [skipn Nat.add]. apply IHn.
Qed.

(** C110: whatever the data, the text the script prints is read back as it. *)
Theorem C110_dump : forall data, Forall is_octet data -> read_dump (dump data) = Some data.
Proof.
  intros data H. unfold read_dump, dump.
  destruct (dump_loop_reads (S (length data)) data 0 H) as (ls & L1 & L2); [lia|unfold zlen; lia|].
  rewrite L1, L2. reflexivity.
Qed.
Print Assumptions C110_dump.
Example C110_dump_case :
  dump (str "application" ++ [0; 175; 255]) =
  str "000000 61 70 70 6c 69 63 61 74" ++ [10] ++ str "000008 69 6f 6e 00 af ff" ++ [10].
Proof. reflexivity. Qed.
