(** Reasoning about decoders: an iterator stands for the bytes it still has to
    deliver and a look-ahead position, and [wp] says what a decoder does in
    those terms. *)
From Coq Require Import Lia ZifyBool ZifyNat.
From Verif Require Import Py Iter WspDec.
Open Scope Z_scope.

(** The iterator [it] has [l] left to deliver and looks ahead at position [p]. *)
Definition R (it : piter) (l : list Z) (p : nat) : Prop :=
  it_cache it ++ it_rest it = l /\ it_pos it = p /\
  (p <= length (it_cache it))%nat.

(** Run on any iterator with [l] left and look-ahead [p], the decoder ends with
    result, remaining bytes and look-ahead satisfying [Q]. *)
Definition wp {A} (m : ST piter A) (l : list Z) (p : nat)
  (Q : res A -> list Z -> nat -> Prop) : Prop :=
  forall it, R it l p ->
    exists r it' l' p', m it = (r, it') /\ R it' l' p' /\ Q r l' p'.

Lemma R_new : forall l, R (new_iter l) l 0.
Proof. intros l. unfold R, new_iter. cbn. auto. Qed.

Lemma R_left : forall it l p, R it l p -> bytes_left it = length l.
Proof.
  intros it l p (E & _ & _). unfold bytes_left. rewrite <- E, app_length. reflexivity.
Qed.

Lemma wp_ret : forall A (a : A) l p (Q : res A -> list Z -> nat -> Prop), Q (Ok a) l p -> wp (st_ret a) l p Q.
Proof. intros A a l p Q H it HR. exists (Ok a), it, l, p. auto. Qed.

Lemma wp_err : forall A e l p (Q : res A -> list Z -> nat -> Prop), Q (Err e) l p -> wp (st_err e) l p Q.
Proof. intros A e l p Q H it HR. exists (Err e), it, l, p. auto. Qed.

Lemma wp_lift : forall A (r : res A) l p (Q : res A -> list Z -> nat -> Prop), Q r l p -> wp (st_lift r) l p Q.
Proof. intros A r l p Q H it HR. exists r, it, l, p. auto. Qed.

Lemma wp_bind : forall A B (m : ST piter A) (k : A -> ST piter B) l p (Q : res B -> list Z -> nat -> Prop),
  wp m l p (fun r l1 p1 => match r with
                           | Ok a => wp (k a) l1 p1 Q
                           | Err e => Q (Err e) l1 p1
                           end) ->
  wp (st_bind m k) l p Q.
Proof.
  intros A B m k l p Q H it HR.
  destruct (H it HR) as (r & it1 & l1 & p1 & E & HR1 & HQ).
  unfold st_bind. rewrite E. destruct r as [a|e].
  - exact (HQ it1 HR1).
  - exists (Err e), it1, l1, p1. auto.
Qed.

Lemma wp_mono : forall A (m : ST piter A) l p (Q Q' : res A -> list Z -> nat -> Prop),
  wp m l p Q -> (forall r l' p', Q r l' p' -> Q' r l' p') -> wp m l p Q'.
Proof.
  intros A m l p Q Q' H HQ it HR.
  destruct (H it HR) as (r & it1 & l1 & p1 & E & HR1 & H1).
  exists r, it1, l1, p1. auto.
Qed.

Lemma wp_reset : forall l p (Q : res unit -> list Z -> nat -> Prop), Q (Ok tt) l 0%nat -> wp reset_preview l p Q.
Proof.
  intros l p Q H it (E & _ & _). exists (Ok tt), (Piter (it_rest it) (it_cache it) 0), l, 0%nat.
  unfold R. cbn. repeat split; auto. apply Nat.le_0_l.
Qed.

Lemma wp_next : forall l p (Q : res Z -> list Z -> nat -> Prop),
  match l with
  | [] => Q (Err StopIteration) [] 0%nat
  | b :: l' => Q (Ok b) l' 0%nat
  end -> wp next l p Q.
Proof.
  intros l p Q H it (E & _ & _).
  destruct it as [rest cache pos]. cbn in E.
  unfold next, reset_preview, st_bind, st_upd, st_get, st_ret, it_next. cbn.
  destruct cache as [|c cache].
  - cbn in E. subst rest. destruct l as [|b l'].
    + exists (Err StopIteration), (Piter [] [] 0), [], 0%nat. unfold R. cbn. auto.
    + exists (Ok b), (Piter l' [] 0), l', 0%nat. unfold R. cbn. auto.
  - destruct l as [|b l']; [discriminate|]. cbn in E. injection E as -> E.
    exists (Ok b), (Piter rest cache 0), l', 0%nat. unfold R. cbn.
    repeat split; auto. apply Nat.le_0_l.
Qed.

Lemma wp_preview : forall l p (Q : res Z -> list Z -> nat -> Prop),
  match nth_error l p with
  | Some b => Q (Ok b) l (S p)
  | None => Q (Err StopIteration) l p
  end -> wp preview l p Q.
Proof.
  intros l p Q H it (E & Ep & Hp).
  destruct it as [rest cache pos]. cbn in E, Ep, Hp. subst pos l.
  unfold preview, st_bind, st_upd, st_get, st_ret, it_next. cbn.
  destruct (nth_error cache p) as [v|] eqn:N.
  - assert (Hlt : (p < length cache)%nat) by (apply nth_error_Some; congruence).
    rewrite nth_error_app1 in H by assumption. rewrite N in H.
    exists (Ok v), (Piter rest cache (S p)), (cache ++ rest), (S p).
    unfold R. cbn. repeat split; auto.
  - apply nth_error_None in N. assert (p = length cache) by lia. subst p.
    rewrite nth_error_app2 in H by lia. rewrite Nat.sub_diag in H.
    destruct rest as [|v rest]; cbn in *.
    + exists (Err StopIteration), (Piter [] cache (length cache)), (cache ++ []),
        (length cache). unfold R. cbn. auto.
    + exists (Ok v), (Piter rest (cache ++ [v]) (S (length cache))),
        (cache ++ v :: rest), (S (length cache)).
      unfold R. cbn. rewrite <- app_assoc, app_length. cbn. repeat split; auto. lia.
Qed.

Lemma wp_catch : forall A (m : ST piter A) e h l p (Q : res A -> list Z -> nat -> Prop),
  wp m l p (fun r l1 p1 => match r with
                           | Err e' => if exn_eqb e e' then wp h l1 p1 Q
                                       else Q (Err e') l1 p1
                           | Ok a => Q (Ok a) l1 p1
                           end) ->
  wp (st_catch m e h) l p Q.
Proof.
  intros A m e h l p Q H it HR.
  destruct (H it HR) as (r & it1 & l1 & p1 & E & HR1 & HQ).
  unfold st_catch. rewrite E. destruct r as [a|e'].
  - exists (Ok a), it1, l1, p1. auto.
  - destruct (exn_eqb e e').
    + exact (HQ it1 HR1).
    + exists (Err e'), it1, l1, p1. auto.
Qed.

Lemma wp_fuelled : forall A (loop : nat -> ST piter A) l p (Q : res A -> list Z -> nat -> Prop),
  wp (loop (S (length l))) l p Q -> wp (fuelled loop) l p Q.
Proof.
  intros A loop l p Q H it HR. unfold fuelled. rewrite (R_left it l p HR).
  exact (H it HR).
Qed.

(** A decoder followed by a case distinction on its result. *)
Lemma wp_then : forall A B (m : ST piter A) (k : ST piter B) (j : res A -> ST piter B) l p (Q : res B -> list Z -> nat -> Prop),
  (forall it, k it = j (fst (m it)) (snd (m it))) ->
  wp m l p (fun r l1 p1 => wp (j r) l1 p1 Q) ->
  wp k l p Q.
Proof.
  intros A B m k j l p Q Hk H it HR.
  destruct (H it HR) as (r & it1 & l1 & p1 & E & HR1 & HQ).
  destruct (HQ it1 HR1) as (r2 & it2 & l2 & p2 & E2 & HR2 & H2).
  exists r2, it2, l2, p2. rewrite Hk, E. auto.
Qed.

(** Reading off the result on a fresh iterator. *)
Lemma wp_fst : forall A (m : ST piter A) l (Q : res A -> list Z -> nat -> Prop),
  wp m l 0 Q -> exists r l' p', fst (m (new_iter l)) = r /\ Q r l' p'.
Proof.
  intros A m l Q H. destruct (H _ (R_new l)) as (r & it & l' & p' & E & _ & HQ).
  exists r, l', p'. rewrite E. auto.
Qed.

(** A computed result. *)
Lemma wp_eq : forall A (m m' : ST piter A) l p (Q : res A -> list Z -> nat -> Prop),
  (forall it, m it = m' it) -> wp m' l p Q -> wp m l p Q.
Proof. intros A m m' l p Q E H it HR. rewrite E. exact (H it HR). Qed.

Ltac wstep :=
  match goal with
  | |- wp (st_bind _ _) _ _ _ => apply wp_bind
  | |- wp (st_ret _) _ _ _ => apply wp_ret
  | |- wp (st_err _) _ _ _ => apply wp_err
  | |- wp (st_lift _) _ _ _ => apply wp_lift
  | |- wp next _ _ _ => apply wp_next
  | |- wp preview _ _ _ => apply wp_preview
  | |- wp reset_preview _ _ _ => apply wp_reset
  | |- wp (st_catch _ _ _) _ _ _ => apply wp_catch
  | |- wp (fuelled _) _ _ _ => apply wp_fuelled
  end.
Ltac wsteps := repeat (cbn [exn_eqb nth_error]; cbv beta iota; wstep);
  cbn [exn_eqb nth_error]; cbv beta iota.
