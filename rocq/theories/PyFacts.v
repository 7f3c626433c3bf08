(** Lemmas about the Python runtime fragments of [Py]. *)
From Coq Require Import Lia.
From Coq Require Import ZifyBool ZifyNat.
From Verif Require Import Py.
Open Scope Z_scope.

Ltac Zify.zify_post_hook ::= Z.div_mod_to_equations.

(** * Results *)

Lemma bind_Ok {A B} (m : res A) (f : A -> res B) b :
  bind m f = Ok b -> exists a, m = Ok a /\ f a = Ok b.
Proof. destruct m; cbn; [eauto | discriminate]. Qed.

Lemma mapM_Forall2 {A B} (f : A -> res B) l bs :
  mapM f l = Ok bs <-> Forall2 (fun a b => f a = Ok b) l bs.
Proof.
  revert bs; induction l as [|a l IH]; intros bs; cbn.
  - split; intros H; [injection H as <-; constructor | inversion H; reflexivity].
  - split; intros H.
    + destruct (f a) as [b|e] eqn:E; cbn in H; [|discriminate].
      destruct (mapM f l) as [bs'|e] eqn:E2; cbn in H; [|discriminate].
      injection H as <-. constructor; [assumption | now apply IH].
    + inversion H as [|? b ? bs' Hab Hr]; subst.
      rewrite Hab; cbn. apply IH in Hr. rewrite Hr. reflexivity.
Qed.

Lemma mapM_all {A B} (f : A -> res B) (g : A -> B) l :
  Forall (fun a => f a = Ok (g a)) l -> mapM f l = Ok (map g l).
Proof.
  induction 1 as [|a l H _ IH]; cbn; [reflexivity|].
  rewrite H, IH. reflexivity.
Qed.

Lemma mapM_app {A B} (f : A -> res B) l1 l2 :
  mapM f (l1 ++ l2) =
  bind (mapM f l1) (fun a => bind (mapM f l2) (fun b => Ok (a ++ b))).
Proof.
  induction l1 as [|a l1 IH]; cbn.
  - destruct (mapM f l2); reflexivity.
  - destruct (f a); cbn; [|reflexivity]. rewrite IH.
    destruct (mapM f l1); cbn; [|reflexivity].
    destruct (mapM f l2); reflexivity.
Qed.

(** * Lists *)

Lemma Forall2_impl {A B} (P Q : A -> B -> Prop) l1 l2 :
  (forall a b, P a b -> Q a b) -> Forall2 P l1 l2 -> Forall2 Q l1 l2.
Proof. intros H. induction 1; constructor; auto. Qed.

Lemma zlen_app {A} (a b : list A) : zlen (a ++ b) = zlen a + zlen b.
Proof. unfold zlen. rewrite app_length. lia. Qed.

Lemma zlen_cons {A} (a : A) b : zlen (a :: b) = 1 + zlen b.
Proof. unfold zlen. cbn [length]. lia. Qed.

Lemma zlen_nil {A} : zlen (@nil A) = 0.
Proof. reflexivity. Qed.

Lemma zlen_nonneg {A} (l : list A) : 0 <= zlen l.
Proof. unfold zlen. lia. Qed.

Lemma py_index_Some {A} (l : list A) i a :
  0 <= i -> nth_error l (Z.to_nat i) = Some a -> py_index l i = Ok a.
Proof.
  intros Hi H. unfold py_index.
  assert (i <? 0 = false) as E by lia. rewrite E. cbn zeta. rewrite E, H.
  reflexivity.
Qed.

Lemma py_index_nth (l : list Z) i :
  0 <= i < zlen l -> py_index l i = Ok (nth (Z.to_nat i) l 0).
Proof.
  intros H. apply py_index_Some; [lia|].
  apply nth_error_nth'. unfold zlen in H. lia.
Qed.

Lemma py_index_last {A} (l : list A) a : py_index (l ++ [a]) (-1) = Ok a.
Proof.
  unfold py_index.
  assert (-1 + zlen (l ++ [a]) = Z.of_nat (length l)) as E.
  { unfold zlen. rewrite app_length. cbn [length]. lia. }
  change (-1 <? 0) with true. cbn iota zeta. rewrite E.
  assert (Z.of_nat (length l) <? 0 = false) as E2 by lia. rewrite E2.
  rewrite Nat2Z.id, nth_error_app2, Nat.sub_diag by lia. reflexivity.
Qed.

Lemma py_to_app {A} (a b : list A) n : n = zlen a -> py_to (a ++ b) n = a.
Proof.
  intros ->. unfold py_to, zlen. rewrite Nat2Z.id, firstn_app, Nat.sub_diag.
  rewrite firstn_all, firstn_O, app_nil_r. reflexivity.
Qed.

Lemma py_from_app {A} (a b : list A) n : n = zlen a -> py_from (a ++ b) n = b.
Proof.
  intros ->. unfold py_from, zlen. rewrite Nat2Z.id, skipn_app, Nat.sub_diag.
  rewrite skipn_all. reflexivity.
Qed.

Lemma py_to_all {A} (a : list A) n : zlen a <= n -> py_to a n = a.
Proof. intros H. unfold py_to, zlen in *. apply firstn_all2. lia. Qed.

Lemma skipn_skipn {A} (l : list A) a b : skipn a (skipn b l) = skipn (b + a) l.
Proof.
  revert l; induction b as [|b IH]; intros l; [reflexivity|].
  destruct l; [now rewrite !skipn_nil|]. cbn [skipn Nat.add]. apply IH.
Qed.

(** * Dictionaries *)

Lemma d_get_In {K V} (eqb : K -> K -> bool) (d : list (K * V)) k v :
  (forall a b, eqb a b = true <-> a = b) ->
  NoDup (map fst d) -> (d_get eqb k d = Some v <-> In (k, v) d).
Proof.
  intros Heq. induction d as [|[k' v'] d IH]; cbn; intros Hnd.
  - split; [discriminate | tauto].
  - inversion Hnd as [|? ? Hni Hnd']; subst.
    destruct (eqb k k') eqn:E.
    + apply Heq in E. subst k'. split.
      * intros H. injection H as <-. now left.
      * intros [H|H]; [now injection H as <-|].
        exfalso. apply Hni. apply in_map_iff. now exists (k, v).
    + rewrite (IH Hnd'). split; [tauto|].
      intros [H|H]; [|assumption]. injection H as <- <-.
      rewrite (proj2 (Heq k' k') eq_refl) in E. discriminate.
Qed.

Lemma d_get_None {K V} (eqb : K -> K -> bool) (d : list (K * V)) k :
  (forall a b, eqb a b = true <-> a = b) ->
  (d_get eqb k d = None <-> ~ In k (map fst d)).
Proof.
  intros Heq. induction d as [|[k' v'] d IH]; cbn.
  - tauto.
  - destruct (eqb k k') eqn:E.
    + apply Heq in E. subst. split; [discriminate|tauto].
    + rewrite IH. split.
      * intros H [<-|]; [|tauto].
        rewrite (proj2 (Heq k' k') eq_refl) in E. discriminate.
      * tauto.
Qed.

Lemma d_get_set_same {K V} (eqb : K -> K -> bool) (d : list (K * V)) k v :
  (forall a b, eqb a b = true <-> a = b) ->
  d_get eqb k (d_set eqb k v d) = Some v.
Proof.
  intros Heq. induction d as [|[k' v'] d IH]; cbn.
  - now rewrite (proj2 (Heq k k) eq_refl).
  - destruct (eqb k k') eqn:E; cbn; rewrite E; [reflexivity|assumption].
Qed.

Lemma d_get_set_other {K V} (eqb : K -> K -> bool) (d : list (K * V)) k k2 v :
  (forall a b, eqb a b = true <-> a = b) ->
  k2 <> k -> d_get eqb k2 (d_set eqb k v d) = d_get eqb k2 d.
Proof.
  intros Heq Hne. induction d as [|[k' v'] d IH]; cbn.
  - destruct (eqb k2 k) eqn:E; [|reflexivity].
    apply Heq in E. contradiction.
  - destruct (eqb k k') eqn:E; cbn.
    + apply Heq in E. subst k'.
      destruct (eqb k2 k) eqn:E2; [|reflexivity].
      apply Heq in E2. contradiction.
    + destruct (eqb k2 k'); [reflexivity|assumption].
Qed.

Lemma Zeqb_spec a b : Z.eqb a b = true <-> a = b.
Proof. apply Z.eqb_eq. Qed.

Lemma leqb_eq a b : leqb a b = true <-> a = b.
Proof.
  revert b; induction a as [|x a IH]; destruct b as [|y b]; cbn;
    try (split; congruence).
  rewrite andb_true_iff, Z.eqb_eq, IH. split; [intros [-> ->]|intros H]; auto.
  injection H; auto.
Qed.

Lemma leqb_refl a : leqb a a = true.
Proof. now apply leqb_eq. Qed.

(** Boolean duplicate check, to establish [NoDup] by computation. *)
Fixpoint nodupb {A} (eqb : A -> A -> bool) (l : list A) : bool :=
  match l with
  | [] => true
  | a :: r => negb (existsb (eqb a) r) && nodupb eqb r
  end.

Lemma nodupb_NoDup {A} (eqb : A -> A -> bool) l :
  (forall a b, eqb a b = true <-> a = b) -> nodupb eqb l = true -> NoDup l.
Proof.
  intros Heq. induction l as [|a l IH]; cbn; intros H; [constructor|].
  apply andb_true_iff in H as [H1 H2]. constructor; [|auto].
  intros Hin. apply negb_true_iff in H1.
  assert (existsb (eqb a) l = true) as C; [|congruence].
  apply existsb_exists. exists a. split; [assumption|now apply Heq].
Qed.

(** * Octets and hexadecimal *)

Definition is_octet (b : Z) : Prop := 0 <= b < 256.

(** All octets, to lift finite checks. *)
Definition octets : list Z := map Z.of_nat (seq 0 256).

Lemma octets_in b : is_octet b -> In b octets.
Proof.
  intros H. unfold octets. apply in_map_iff. exists (Z.to_nat b).
  split; [unfold is_octet in H; lia|]. apply in_seq. unfold is_octet in H; lia.
Qed.

Lemma octet_sweep (P : Z -> bool) :
  forallb P octets = true -> forall b, is_octet b -> P b = true.
Proof. intros H b Hb. eapply forallb_forall in H; eauto using octets_in. Qed.

Definition zrange (n : nat) : list Z := map Z.of_nat (seq 0 n).

Lemma range_sweep (n : nat) (P : Z -> bool) :
  forallb P (zrange n) = true -> forall b, 0 <= b < Z.of_nat n -> P b = true.
Proof.
  intros H b Hb. eapply forallb_forall in H; eauto.
  unfold zrange. apply in_map_iff. exists (Z.to_nat b). split; [lia|].
  apply in_seq. lia.
Qed.

Lemma hex02_octet b : is_octet b ->
  hex02 b = [hexdigit (b / 16); hexdigit (b mod 16)].
Proof.
  intros H. apply leqb_eq.
  exact (octet_sweep
    (fun b => leqb (hex02 b) [hexdigit (b / 16); hexdigit (b mod 16)])
    eq_refl b H).
Qed.

Lemma int16_hex02 b : is_octet b -> py_int 16 (hex02 b) = Ok b.
Proof.
  intros H.
  pose proof (octet_sweep
    (fun b => match py_int 16 (hex02 b) with Ok x => x =? b | Err _ => false end)
    eq_refl b H) as S.
  cbn beta in S. destruct (py_int 16 (hex02 b)); [|discriminate].
  apply Z.eqb_eq in S. now subst.
Qed.

Lemma py_chr_octet b : is_octet b -> py_chr b = Ok b.
Proof.
  unfold is_octet, py_chr. intros H.
  replace ((0 <=? b) && (b <? 256)) with true by lia. reflexivity.
Qed.

Lemma py_chr_Ok b c : py_chr b = Ok c -> c = b /\ is_octet b.
Proof.
  unfold py_chr, is_octet. destruct ((0 <=? b) && (b <? 256)) eqn:E;
    [|discriminate]. intros H; injection H as <-. lia.
Qed.

Lemma mapM_py_chr l : Forall is_octet l -> mapM py_chr l = Ok l.
Proof.
  induction 1 as [|b l H _ IH]; cbn; [reflexivity|].
  rewrite py_chr_octet by assumption. cbn. rewrite IH. reflexivity.
Qed.

Lemma chunks2_hex l : Forall is_octet l ->
  chunks2 (concat (map hex02 l)) = map hex02 l.
Proof.
  induction 1 as [|b l H _ IH]; cbn [map concat]; [reflexivity|].
  rewrite hex02_octet by assumption. cbn [app chunks2]. now rewrite IH.
Qed.

Lemma zlen_hex l : Forall is_octet l -> zlen (concat (map hex02 l)) = 2 * zlen l.
Proof.
  induction 1 as [|b l H _ IH]; cbn [map concat]; [reflexivity|].
  rewrite zlen_app, IH, hex02_octet, !zlen_cons, zlen_nil by assumption. lia.
Qed.

(** Joining two octets. *)
Lemma lor_shift8 a b : 0 <= a -> 0 <= b < 256 -> Z.lor (Z.shiftl a 8) b = a * 256 + b.
Proof.
  intros Ha Hb.
  assert (Z.land (Z.shiftl a 8) b = 0) as H.
  { apply Z.bits_inj'. intros n Hn. rewrite Z.land_spec, Z.bits_0.
    destruct (Z_lt_dec n 8) as [L|L].
    - now rewrite Z.shiftl_spec_low by lia.
    - replace (Z.testbit b n) with false; [apply andb_false_r|].
      symmetry. destruct (Z.eq_dec b 0) as [->|Hz]; [apply Z.bits_0|].
      apply Z.bits_above_log2; [lia|]. assert (Z.log2 b < 8); [|lia].
      apply Z.log2_lt_pow2; lia. }
  rewrite <- Z.lxor_lor, <- Z.add_nocarry_lxor by assumption.
  rewrite Z.shiftl_mul_pow2 by lia. change (2 ^ 8) with 256. reflexivity.
Qed.

Lemma land_255 a : Z.land a 255 = a mod 256.
Proof. change 255 with (Z.ones 8). now rewrite Z.land_ones by lia. Qed.

Lemma shiftr_8 a : Z.shiftr a 8 = a / 256.
Proof. now rewrite Z.shiftr_div_pow2 by lia. Qed.
