(** What [MMSMessage.encode] writes, C123. *)
From Coq Require Import Lia ZifyBool ZifyNat Permutation.
From Verif Require Import Py Iter WspDec WspEnc Message MmsEnc SpecWsp SpecVersion MmsClaims SpecMms
  SpecRefuse SpecWritten PyFacts WspFacts PropVersion PropHeaderExact RefuseFacts WrittenFacts.
Open Scope Z_scope.

(** C123: every message that can be encoded goes out as SpecWritten says, octet for
    octet, the SMIL description being what [smil()] returns. *)
Theorem C123_octets : forall render w rand m bytes m',
  any_order w -> is_dict (m_headers m) ->
  encode render w rand m = (Ok bytes, m') ->
  exists text, smil render w m = Ok text /\ message_written w rand m text bytes.
Proof. exact message_was. Qed.
Print Assumptions C123_octets.

(** * The octets are determined *)

Lemma uintvar_of_once n l l' : uintvar_of n l -> uintvar_of n l' -> l = l'.
Proof.
  intros [ds d A B C D] [ds' d' A' B' C' D']. rewrite <- D' in D.
  destruct (uintvar_unique _ _ _ _ A B C A' B' C' D) as (-> & ->). reflexivity.
Qed.

Lemma value_length_once n l l' : value_length_of n l -> value_length_of n l' -> l = l'.
Proof.
  intros [A|a A B] [A'|a' A' B']; try lia; [reflexivity|]. f_equal. exact (uintvar_of_once _ _ _ B B').
Qed.

Lemma big_endian_enough ds : big_endian ds < 2 ^ Z.of_nat (S (Z.to_nat (Z.log2 (big_endian ds)))) \/ big_endian ds < 0.
Proof.
  destruct (Z_lt_dec (big_endian ds) 0) as [N|N]; [right; exact N|left].
  rewrite Nat2Z.inj_succ, Z2Nat.id by apply Z.log2_nonneg.
  destruct (Z.eq_dec (big_endian ds) 0) as [->|N0]; [reflexivity|]. apply Z.log2_spec. lia.
Qed.

Lemma big_endian_not_negative ds : Forall is_octet ds -> minimal128 ds -> 0 <= big_endian ds.
Proof.
  intros H M. destruct ds as [|d ds]; [reflexivity|].
  pose proof (big_endian_pos _ H M ltac:(discriminate)). lia.
Qed.

Lemma long_of_once n l l' : long_of n l -> long_of n l' -> l = l'.
Proof.
  intros [ds _ A B C|_ A] [ds' _ A' B' C'|_ A']; try reflexivity.
  - assert (E : rev ds = rev ds').
    { pose proof (big_endian_not_negative ds A B). pose proof (big_endian_enough ds) as F.
      rewrite <- (long_enc_spec ds (S (Z.to_nat (Z.log2 n)))) by (assumption || (subst n; lia)).
      pose proof (big_endian_not_negative ds' A' B'). pose proof (big_endian_enough ds') as F'.
      rewrite <- (long_enc_spec ds' (S (Z.to_nat (Z.log2 n)))) by (assumption || (rewrite <- C'; lia)).
      congruence. }
    rewrite E. f_equal. unfold n_octets. rewrite <- (rev_length ds), E, rev_length. reflexivity.
  - pose proof (big_endian_not_negative ds A B). lia.
  - pose proof (big_endian_not_negative ds' A' B'). lia.
Qed.

Lemma one_of {A} (l : list (list Z * A)) : NoDup (map fst l) -> forall k a b, In (k, a) l -> In (k, b) l -> a = b.
Proof.
  induction l as [|[x y] l IH]; intros N k a b Ha Hb; [destruct Ha|].
  inversion N as [|? ? N1 N2]. subst.
  destruct Ha as [Ha|Ha], Hb as [Hb|Hb].
  - congruence.
  - exfalso. apply N1. apply (in_map fst) in Hb. cbn [fst] in *. congruence.
  - exfalso. apply N1. apply (in_map fst) in Ha. cbn [fst] in *. congruence.
  - exact (IH N2 _ _ _ Ha Hb).
Qed.

Ltac distinct := repeat constructor; cbn [map fst In]; intuition discriminate.

Lemma texts_fields name n : In (name, n) numbered_texts -> In name text_fields /\ name <> str "From".
Proof.
  cbn [numbered_texts In]. intros H. repeat destruct H as [H|H]; try contradiction; injection H as <- _;
    (split; [in_list|discriminate]).
Qed.

Ltac which :=
  try (exfalso; congruence);
  try (exfalso; subst; match goal with
       | H : In (_, _) numbered_texts |- _ => apply texts_fields in H; destruct H as [H H'];
           first [congruence | not_this H | match goal with X : ~ In _ _ |- _ => apply X; rewrite !in_app_iff; auto end]
       | X : ~ In _ _ |- _ => not_this X
       end).

(** C123: a header is written in one way only. *)
Theorem C123_header_once : forall name v b b',
  header_written name v b -> header_written name v b' -> b = b'.
Proof.
  intros name v b b' H H'.
  assert (T : forall s t, text_of v s -> text_of v t -> s = t) by (intros s t; apply text_of_unique).
  destruct H as [n s A B|s l A B C D|A B|s k A B C|A B|s l A B C|n l A B C|s k A B C|s A B],
    H' as [n' s' A' B'|s' l' A' B' C' D'|A' B'|s' k' A' B' C'|A' B'|s' l' A' B' C'|n' l' A' B' C'|s' k' A' B' C'|s' A' B'];
    which; try (exfalso; rewrite A in A'; discriminate A').
  - rewrite (T _ _ B B'), (one_of numbered_texts ltac:(distinct) _ _ _ A A'). reflexivity.
  - rewrite (T _ _ B B') in *. rewrite (value_length_once _ _ _ D D'). reflexivity.
  - exfalso. apply C. apply (T _ _ B). left. exact B'.
  - exfalso. apply C'. apply (T _ _ B'). left. exact B.
  - reflexivity.
  - assert (s' = s) by (unfold HStr in *; congruence). subst s'.
    rewrite (one_of type_codes ltac:(distinct) _ _ _ C C'). reflexivity.
  - exfalso. apply (B' s); [|exact B]. apply (in_map fst) in C. exact C.
  - exfalso. apply (B s'); [|exact B']. apply (in_map fst) in C'. exact C'.
  - reflexivity.
  - assert (s' = s) by (unfold HStr in *; congruence). subst s'. f_equal. exact (sent_unique _ _ _ C C').
  - assert (n' = n).
    { unfold HInt in *. destruct B as [->|[(-> & ->)|(-> & ->)]], B' as [B'|[(B' & ->)|(B' & ->)]]; congruence. }
    subst n'. f_equal. exact (long_of_once _ _ _ C C').
  - assert (s' = s) by (unfold HStr in *; congruence). subst s'.
    rewrite (one_of status_codes ltac:(distinct) _ _ _ C C'). reflexivity.
  - rewrite (T _ _ B B'). reflexivity.
Qed.
Print Assumptions C123_header_once.

Lemma media_once m l l' : media_written m l -> media_written m l' -> l = l'.
Proof.
  intros [n A B|A|A B] [n' A' B'|A'|A' B'].
  - destruct A as (A0 & A), A' as (A0' & A'). do 2 f_equal.
    pose proof (proj1 (NoDup_nth_error assigned_media) assigned_once (Z.to_nat n) (Z.to_nat n')) as Y.
    rewrite A, A' in Y. specialize (Y ltac:(apply nth_error_Some; congruence) eq_refl). lia.
  - exfalso. destruct A as (_ & A). apply nth_error_In in A. rewrite A' in A. not_this A.
  - exfalso. exact (B (A' n A)).
  - exfalso. destruct A' as (_ & A'). apply nth_error_In in A'. rewrite A in A'. not_this A'.
  - reflexivity.
  - contradiction.
  - exfalso. exact (B' (A n' A')).
  - contradiction.
  - reflexivity.
Qed.

Lemma texts_parameters name n : In (name, n) parameter_texts -> In name text_parameters.
Proof.
  cbn [parameter_texts In]. intros H. repeat destruct H as [H|H]; try contradiction; injection H as <- _; in_list.
Qed.

(** C123: so is a parameter. *)
Theorem C123_parameter_once : forall name v b b',
  parameter_written name v b -> parameter_written name v b' -> b = b'.
Proof.
  intros name v b b' H H'.
  destruct H as [n s A B|s l A B C|n A B C|n A B C|n A B C|s A B|s A B|n A B C|n l A B C D],
    H' as [n' s' A' B'|s' l' A' B' C'|n' A' B' C'|n' A' B' C'|n' A' B' C'|s' A' B'|s' A' B'|n' A' B' C'|n' l' A' B' C' D'];
    try (exfalso; congruence); try (exfalso; rewrite A in A'; discriminate A');
    try (exfalso; match goal with
       | H : In (_, _) parameter_texts |- _ => apply texts_parameters in H; subst;
           first [not_this H | match goal with X : ~ In _ _ |- _ => apply X; rewrite !in_app_iff; auto end]
       | X : ~ In _ _ |- _ => subst; not_this X
       end).
  all: try (assert (s' = s) by congruence; subst s'); try (assert (n' = n) by congruence; subst n');
    try reflexivity; try (exfalso; unfold machine in *; lia).
  - rewrite (one_of parameter_texts ltac:(distinct) _ _ _ A A'). reflexivity.
  - f_equal. exact (sent_unique _ _ _ C C').
  - do 2 f_equal. exact (long_of_once _ _ _ D D').
Qed.
Print Assumptions C123_parameter_once.

Lemma name_once name l l' : name_written name l -> name_written name l' -> l = l'.
Proof.
  intros [i A|A] [j B|B].
  - assert (N : NoDup numbered_headers).
    { assert (X : (fix f (l : list (list Z)) := match l with
         | [] => true | a :: r => negb (existsb (leqb a) r) && f r end) numbered_headers = true) by (vm_compute; reflexivity).
      revert X. clear. generalize numbered_headers. induction l as [|a l IH]; intros X; [constructor|].
      apply andb_prop in X. destruct X as [X Y]. constructor; [|apply IH, Y].
      apply unlisted. destruct (existsb (leqb a) l); [discriminate X|reflexivity]. }
    assert (i = j) as ->; [|reflexivity].
    apply (proj1 (NoDup_nth_error numbered_headers) N); [apply nth_error_Some; congruence|congruence].
  - exfalso. apply B. exact (nth_error_In _ _ A).
  - exfalso. apply A. exact (nth_error_In _ _ B).
  - reflexivity.
Qed.

(** C123: and a header of a part. *)
Theorem C123_part_header_once : forall name v b b',
  part_header_written name v b -> part_header_written name v b' -> b = b'.
Proof.
  intros name v b b' [s l A B C|s l A B C] [s' l' A' B' C'|s' l' A' B' C']; try congruence.
  - assert (s' = s) by (unfold HStr in *; congruence). subst s'. f_equal. exact (media_once _ _ _ C C').
  - rewrite (text_of_unique _ _ _ B B'), (name_once _ _ _ C C'). reflexivity.
Qed.
Print Assumptions C123_part_header_once.

(** C123: and a content type. *)
Theorem C123_type_once : forall m ps b b',
  type_written m ps b -> type_written m ps b' -> b = b'.
Proof.
  intros m ps b b' [l A B C|n l bs A B C D] [l' A' B' C'|n' l' bs' A' B' C' D'].
  - exact (media_once _ _ _ C C').
  - exfalso. destruct A'; contradiction.
  - exfalso. destruct A; contradiction.
  - rewrite (value_length_once _ _ _ B B'), (media_once _ _ _ C C'). do 3 f_equal.
    clear - D D'. revert bs' D'. induction D as [|p b ps bs P _ IH]; intros bs' D'; inversion D' as [|? ? ? ? P' D2]; subst;
      [reflexivity|]. f_equal; [exact (C123_parameter_once _ _ _ _ P P')|apply IH; assumption].
Qed.
Print Assumptions C123_type_once.

(** A send request with a subject and a slide with a picture. *)
Example C123_case :
  let w := World (fun _ => None) (fun _ => None) (fun d => d) in
  let s := Part [(str "Content-Type", HType (str "image/png") []); (str "Content-ID", HStr (str "<1>"))]
             [] None (Some [1; 2; 3]) in
  let m := Message [(str "Content-Type", HType (str "application/vnd.wap.multipart.related")
                       [(str "Start", PStr (str "<0000>")); (str "Type", PStr (str "application/smil"))]);
                    (str "X-Mms-Message-Type", HStr (str "m-send-req")); (str "To", HStr (str "+34/TYPE=PLMN"));
                    (str "Subject", HStr (str "Hi"))] [Page 4 (Some (s, 0, 0)) None None] [] 176 220 in
  any_order w /\ is_dict (m_headers m) /\
  exists bytes m', encode (fun _ => str "<smil/>") w 1234 m = (Ok bytes, m') /\
    bytes = [140; 128; 152] ++ str "1234" ++ [0; 141; 144] ++
            [151] ++ str "+34/TYPE=PLMN" ++ [0; 150] ++ str "Hi" ++ [0] ++
            [132; 3; 179; 138] ++ str "<0000>" ++ [0; 137] ++ str "application/smil" ++ [0] ++
            [2; 35; 7] ++ str "application/smil" ++ [0] ++ str "Content-ID" ++ [0] ++ str "<0000>" ++ [0] ++
            str "<smil/>" ++ [16; 3; 160] ++ str "Content-ID" ++ [0] ++ str "<1>" ++ [0; 1; 2; 3].
Proof.
  cbv zeta. split; [intros d; apply Permutation_refl|].
  split; [repeat constructor; cbn; intuition discriminate|].
  eexists. eexists. split; vm_compute; reflexivity.
Qed.
