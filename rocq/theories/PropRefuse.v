(** What [MMSMessage.encode] refuses, and with which exception (C114). *)
From Coq Require Import Lia ZifyBool ZifyNat.
From Verif Require Import Py Iter Tables WspDec WspEnc Message MmsEnc MmsDec
  SpecWsp SpecVersion WspClaims MmsClaims SpecSmil SpecRefuse RefuseFacts.
Open Scope Z_scope.

(** What can be wrong with the message [m], and the exception it leads to.
    [sent_headers] (MmsClaims) are the headers the message is to be sent with: its
    own, with the standard names and the defaults. *)
Inductive problem (w : world) (rand : Z) (m : message) : exn -> Prop :=
| p_header : forall k v e, sent_headers rand (m_headers m) k = Some v ->
    k <> str "Content-Type" -> header_refused k v e -> problem w rand m e
| p_no_type : sent_headers rand (m_headers m) (str "Content-Type") = None ->
    problem w rand m KeyError
| p_type : forall v e, sent_headers rand (m_headers m) (str "Content-Type") = Some v ->
    type_refused v e -> problem w rand m e
| p_slides : forall e, slides_refused w (m_pages m) e -> problem w rand m e
| p_part : forall p e, In p (slide_parts m) -> part_refused w p e -> problem w rand m e.

Lemma problem_cases : forall w rand m e, problem w rand m e <->
  header_problem rand (m_headers m) e \/ slides_refused w (m_pages m) e \/
  exists p, In p (slide_parts m) /\ part_refused w p e.
Proof.
  intros w rand m e. unfold header_problem. split.
  - intros [k v e' A B C|A|v e' A B|e' A|p e' A B].
    + left. left. eauto.
    + left. right. left. auto.
    + left. right. right. eauto.
    + auto.
    + right. right. eauto.
  - intros [[(k & v & A & B & C)|[(A & ->)|(v & A & B)]]|[A|(p & A & B)]].
    + eapply p_header; eauto.
    + apply p_no_type, A.
    + eapply p_type; eauto.
    + apply p_slides, A.
    + eapply p_part; eauto.
Qed.

(** C114: when encoding raises an exception, the message has a problem that leads to
    just this exception. *)
Theorem C114_only : forall render w rand m e m',
  any_order w -> is_dict (m_headers m) ->
  encode render w rand m = (Err e, m') -> problem w rand m e.
Proof.
  intros render w rand m e m' Hw Hd E. apply problem_cases.
  destruct (encode_out render w rand m Hw Hd) as (A & _). exact (A e m' E).
Qed.
Print Assumptions C114_only.

(** C114: a message with a problem is never sent. *)
Theorem C114_all : forall render w rand m e,
  any_order w -> is_dict (m_headers m) -> problem w rand m e ->
  exists e' m', encode render w rand m = (Err e', m').
Proof.
  intros render w rand m e Hw Hd P. apply problem_cases in P.
  destruct (encode_out render w rand m Hw Hd) as (_ & B). exact (B e P).
Qed.
Print Assumptions C114_all.

(** C114: so encoding succeeds just when there is no problem, and a message whose
    problems lead to one exception only is refused with this exception. *)
Theorem C114_exact : forall render w rand m,
  any_order w -> is_dict (m_headers m) ->
  ((exists bytes m', encode render w rand m = (Ok bytes, m')) <-> forall e, ~ problem w rand m e) /\
  (forall e, problem w rand m e -> (forall e', problem w rand m e' -> e' = e) ->
     exists m', encode render w rand m = (Err e, m')).
Proof.
  intros render w rand m Hw Hd. split; [split|].
  - intros (b & m' & E) e P. destruct (C114_all render w rand m e Hw Hd P) as (e' & m2 & X). congruence.
  - intros N. destruct (encode render w rand m) as [[b|e] m'] eqn:E; [eauto|].
    destruct (N e). eapply C114_only; eauto.
  - intros e P U. destruct (C114_all render w rand m e Hw Hd P) as (e' & m' & X). exists m'.
    rewrite X. pose proof (C114_only _ _ _ _ _ _ Hw Hd X) as Q. rewrite (U e' Q). reflexivity.
Qed.
Print Assumptions C114_exact.

(** A message to somebody, with a header the library does not know how to write. *)
Example C114_priority :
  let w := World (fun _ => None) (fun _ => None) (fun d => d) in
  let m := Message [(str "Content-Type", HType (str "application/vnd.wap.multipart.mixed") []);
                    (str "To", HStr (str "+34/TYPE=PLMN")); (str "Priority", HStr (str "High"))] [] [] 176 220 in
  any_order w /\ is_dict (m_headers m) /\ problem w 1000 m AttributeError /\
  exists m', encode (fun _ => []) w 1000 m = (Err AttributeError, m').
Proof.
  cbv zeta. split; [intros d; apply Permutation_refl|].
  split; [repeat constructor; cbn; intuition discriminate|]. split.
  - eapply p_header with (k := str "Priority") (v := HStr (str "High")); [reflexivity|discriminate|].
    apply hr_read_only. cbn [In read_only_fields]. tauto.
  - eexists. vm_compute. reflexivity.
Qed.

(** A slide with a sound and no text. *)
Example C114_sound :
  let w := World (fun _ => None) (fun _ => None) (fun d => d) in
  let s := Part [(str "Content-Type", HType (str "audio/amr") [])] [] None (Some [1; 2]) in
  let m := Message [(str "Content-Type", HType (str "application/vnd.wap.multipart.mixed") [])]
             [Page 4 None (Some (s, 0, 0)) None] [] 176 220 in
  problem w 1000 m UnboundLocalError /\
  exists m', encode (fun _ => []) w 1000 m = (Err UnboundLocalError, m').
Proof.
  cbv zeta. split.
  - apply p_slides. eapply sl_sound with (before := []); [reflexivity|discriminate|].
    intros h [<-|[]]. reflexivity.
  - eexists. vm_compute. reflexivity.
Qed.

(** A message that can be sent has no problem. *)
Example C114_sent :
  let w := World (fun _ => None) (fun _ => None) (fun d => d) in
  let s := Part [(str "Content-Type", HType (str "text/plain") [])] [] None (Some [72; 105]) in
  let m := Message [(str "Content-Type", HType (str "application/vnd.wap.multipart.mixed") [])]
             [Page 4 None None (Some (s, 0, 0))] [] 176 220 in
  exists bytes m', encode (fun _ => []) w 1000 m = (Ok bytes, m').
Proof. cbv zeta. eexists. eexists. vm_compute. reflexivity. Qed.

(** A content type with an empty string in place of the dictionary is sent, one with a
    longer string is not. *)
Example C114_pair :
  let w := World (fun _ => None) (fun _ => None) (fun d => d) in
  let m q := Message [(str "Content-Type", HPragma (str "application/vnd.wap.multipart.mixed") (PStr q))]
               [] [] 176 220 in
  (exists bytes m', encode (fun _ => []) w 1000 (m []) = (Ok bytes, m')) /\
  problem w 1000 (m (str "a")) TypeError /\
  exists m', encode (fun _ => []) w 1000 (m (str "a")) = (Err TypeError, m').
Proof.
  cbv zeta. split; [eexists _, _; vm_compute; reflexivity|]. split; [|eexists; vm_compute; reflexivity].
  eapply p_type; [reflexivity|]. apply ty_other; [discriminate|]. intros n ps [X|(X & _)]; discriminate X.
Qed.
