(** C63: WAP push notifications. *)
From Coq Require Import Lia ZifyBool ZifyNat.
From Verif Require Import Py Iter Tables WspDec WspEnc Message MmsDec Wap MmsEnc SpecWsp WspClaims
  MmsClaims PyFacts MmsTotal.
Open Scope Z_scope.

(** C63: recognised by the second octet. *)
Theorem C63_is_push : forall s,
  is_a_wap_push_notification s = true <-> nth_error s 1 = Some 6.
Proof.
  intros [|a [|b s]]; cbn [is_a_wap_push_notification nth_error]; split; intros H; try discriminate H.
  - apply Z.eqb_eq in H. congruence.
  - apply Z.eqb_eq. congruence.
Qed.
Print Assumptions C63_is_push.

(** C63: a push with a header of the announced length decodes to what the rest
    decodes to. *)
Theorem C63_extract : forall tid n header body, zlen header = n ->
  extract_push_notification (tid :: 6 :: n :: header ++ body) = decode_data body.
Proof.
  intros tid n header body H. unfold extract_push_notification.
  pose proof (zlen_nonneg header) as P.
  replace (py_to (py_from (tid :: 6 :: n :: header ++ body) 1) 2) with [6; n] by reflexivity.
  cbn [Z.eqb Pos.eqb negb]. f_equal.
  change (tid :: 6 :: n :: header ++ body) with ([tid; 6; n] ++ header ++ body).
  rewrite app_assoc. apply py_from_app. rewrite zlen_app. change (zlen [tid; 6; n]) with 3. lia.
Qed.
Print Assumptions C63_extract.
Example C63_case : extract_push_notification (1 :: 6 :: 2 :: [9; 9] ++ [151; 97; 0]) =
  decode_data [151; 97; 0].
Proof. apply C63_extract. reflexivity. Qed.

(** C63: anything else is refused: short data with ValueError, data that is no
    push with AssertionError. *)
Theorem C63_refuses : forall s,
  (zlen s < 3 -> extract_push_notification s = Err ValueError) /\
  (3 <= zlen s -> nth_error s 1 <> Some 6 -> extract_push_notification s = Err AssertionError).
Proof.
  intros [|a [|b [|c s]]]; split; intros H; try reflexivity;
    rewrite ?zlen_cons in H; change (zlen (@nil Z)) with 0 in H; try (exfalso; lia).
  - exfalso. pose proof (zlen_nonneg s). lia.
  - intros N. unfold extract_push_notification.
    replace (py_to (py_from (a :: b :: c :: s) 1) 2) with [b; c] by reflexivity.
    destruct (b =? 6) eqn:E; [|reflexivity]. apply Z.eqb_eq in E. subst. cbn in N. congruence.
Qed.
Print Assumptions C63_refuses.
Example C63_refuses_case : extract_push_notification [1; 7; 0; 151] = Err AssertionError.
Proof. reflexivity. Qed.

(** The test used to tell MMS notifications apart: both headers are there. *)
Theorem C63_is_mms : forall m, is_mms_notification m = true <->
  has (str "From") (m_headers m) /\ has (str "Content-Location") (m_headers m).
Proof.
  intros m. unfold is_mms_notification, has, h_get.
  destruct (d_get leqb (str "From") (m_headers m)), (d_get leqb (str "Content-Location") (m_headers m));
    cbn; intuition congruence.
Qed.
Print Assumptions C63_is_mms.
