(** Assigning the class and the validity of a message (C113). *)
From Coq Require Import Lia ZifyBool.
From Verif Require Import Py SpecSubmit Utils Gsm Submit Setters SubmitClaims SubmitFacts ToPduFacts.
Open Scope Z_scope.

(** The numbers a value counts for as an [int]. *)
Definition int_value (v : value) (n : Z) : Prop :=
  v = VInt n \/ (v = VBool true /\ n = 1) \/ (v = VBool false /\ n = 0).

(** The validity a value stands for. *)
Definition validity_value (v : value) (x : validity) : Prop :=
  (v = VNone /\ x = NoValidity) \/
  (exists t, v = VTimedelta t /\ x = Relative t) \/
  (exists d, v = VDatetime d /\ x = Absolute d).

(** Every attribute apart from the class is the same, and the other way round for
    the validity. *)
Definition same_but_klass (s t : submit) : Prop :=
  s_number t = s_number s /\ s_csca t = s_csca s /\ s_validity t = s_validity s /\
  s_request_status t = s_request_status s /\ s_ref t = s_ref s /\ s_rand_id t = s_rand_id s /\
  s_id_list t = s_id_list s /\ s_pid t = s_pid s /\ s_text t = s_text s /\
  s_text_gsm t = s_text_gsm s /\ s_fmt t = s_fmt s /\ s_dcs t = s_dcs s.
Definition same_but_validity (s t : submit) : Prop :=
  s_number t = s_number s /\ s_csca t = s_csca s /\ s_klass t = s_klass s /\
  s_request_status t = s_request_status s /\ s_ref t = s_ref s /\ s_rand_id t = s_rand_id s /\
  s_id_list t = s_id_list s /\ s_pid t = s_pid s /\ s_text t = s_text s /\
  s_text_gsm t = s_text_gsm s /\ s_fmt t = s_fmt s /\ s_dcs t = s_dcs s.

(** C113: the class is stored just when it is an [int] from 0 to 3; another [int] is
    refused with ValueError, anything else with TypeError, and the message stays as
    it was. *)
Theorem C113_klass : forall v s,
  (forall n, int_value v n -> 0 <= n <= 3 ->
     exists t, set_klass_value v s = (Ok tt, t) /\ s_klass t = Some n /\ same_but_klass s t) /\
  (forall n, int_value v n -> ~ (0 <= n <= 3) -> set_klass_value v s = (Err ValueError, s)) /\
  ((forall n, ~ int_value v n) -> set_klass_value v s = (Err TypeError, s)).
Proof.
  intros v s. split; [|split].
  - intros n [->|[(-> & ->)|(-> & ->)]] Hn; cbn [set_klass_value]; unfold set_klass;
      try (replace ((0 <=? n) && (n <=? 3)) with true by lia);
      (eexists; split; [reflexivity|]; destruct s; repeat split).
  - intros n [->|[(-> & ->)|(-> & ->)]] Hn; cbn [set_klass_value]; unfold set_klass; try lia.
    replace ((0 <=? n) && (n <=? 3)) with false by lia. reflexivity.
  - intros N. destruct v as [|[]|n|n|t|d|]; try reflexivity; exfalso.
    + apply (N 1). right. left. auto.
    + apply (N 0). right. right. auto.
    + apply (N n). left. reflexivity.
Qed.
Print Assumptions C113_klass.

(** C113: the validity is stored just when it is None, a timedelta or a datetime. *)
Theorem C113_validity : forall v s,
  (forall x, validity_value v x ->
     exists t, set_validity_value v s = (Ok tt, t) /\ s_validity t = x /\ same_but_validity s t) /\
  ((forall x, ~ validity_value v x) -> set_validity_value v s = (Err TypeError, s)).
Proof.
  intros v s. split.
  - intros x [(-> & ->)|[(t & -> & ->)|(d & -> & ->)]]; cbn [set_validity_value];
      (eexists; split; [reflexivity|]; destruct s; repeat split).
  - intros N. destruct v as [|b|n|n|t|d|]; try reflexivity; exfalso.
    + apply (N NoValidity). left. auto.
    + apply (N (Relative t)). right. left. eauto.
    + apply (N (Absolute d)). right. right. eauto.
Qed.
Print Assumptions C113_validity.

(** C113: no sequence of operations leads to another class. *)
Theorem C113_reachable : forall s k, reachable s -> s_klass s = Some k -> 0 <= k <= 3.
Proof.
  intros s k H E. apply reachable_wf in H. destruct H as (_ & _ & H & _). rewrite E in H. exact H.
Qed.
Print Assumptions C113_reachable.

Example C113_case :
  let s := Submit (Some (str "123")) None (Some 2) NoValidity false None None [] 0 (PyStr true []) None None None in
  fst (set_klass_value (VInt 3) s) = Ok tt /\ s_klass (snd (set_klass_value (VInt 3) s)) = Some 3 /\
  set_klass_value (VInt 4) s = (Err ValueError, s) /\ set_klass_value (VInt (-1)) s = (Err ValueError, s) /\
  set_klass_value (VLong 1) s = (Err TypeError, s) /\ set_klass_value VNone s = (Err TypeError, s) /\
  set_validity_value (VInt 5) s = (Err TypeError, s) /\
  s_validity (snd (set_validity_value (VTimedelta 300000000) s)) = Relative 300000000.
Proof. repeat split. Qed.

Example C113_reachable_case : exists s t, new_submit (Some (str "+34616123456")) (PyStr true []) = Ok s /\
  set_klass_value (VInt 2) s = (Ok tt, t) /\ reachable t /\ s_klass t = Some 2.
Proof.
  eexists. eexists. split; [vm_compute; reflexivity|]. split; [reflexivity|]. split; [|reflexivity].
  match goal with |- reachable (with_klass (Some 2) ?s) => change (reachable (snd (set_klass 2 s))) end.
  apply r_klass. eapply r_new. instantiate (2 := Some (str "+34616123456")). vm_compute. reflexivity.
Qed.
