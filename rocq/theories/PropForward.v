(** Passing a received message on, C86: decoding a message and encoding the result. *)
From Coq Require Import Lia ZifyBool ZifyNat.
From Verif Require Import Py Iter Tables WspDec WspEnc Message MmsEnc MmsDec
  SpecWsp WspClaims MmsClaims PyFacts IterFacts WspFacts MmsTotal ContentFacts HeaderFacts
  MsgHeaderFacts BodyFacts CutFacts PropHeaders PropBody.
Open Scope Z_scope.

(** * What every decoded message is like *)

Lemma header_loop_dict : forall f d it d' it', is_dict d ->
  header_loop f d it = (Ok d', it') ->
  is_dict d' /\ forall k, has k d -> has k d'.
Proof.
  assert (S : forall k h (v : hval) d, has k d -> has k (d_set leqb h v d)).
  { intros k h v d H. unfold has in *. rewrite h_get_set.
    destruct (leqb k h); [discriminate|exact H]. }
  induction f as [|f IH]; intros d it d' it' Hd E; [discriminate|].
  cbn [header_loop] in E. destruct (decode_header it) as [[[h v]|e] i].
  - destruct (leqb h (str "Content-Type")).
    + injection E as <- _. split; [apply is_dict_set, Hd|]. intros k. apply S.
    + apply IH in E; [|apply is_dict_set, Hd]. destruct E as (E1 & E2).
      split; [exact E1|]. intros k Hk. apply E2, S, Hk.
  - destruct e; try discriminate. injection E as <- _. auto.
Qed.

Lemma decoded data m : decode_data data = Ok m ->
  is_dict (m_headers m) /\ m_pages m = [] /\
  forall k, In k [str "Message-Type"; str "Transaction-Id"; str "MMS-Version";
                  str "Content-Type"] -> has k (m_headers m).
Proof.
  rewrite decode_data_run. unfold decoding, decode_message_header, fuelled, st_bind.
  destruct (header_loop _ _ _) as [[d|e] i] eqn:H; [|discriminate].
  destruct (decode_message_body i) as [[ps|e] i']; [|discriminate].
  intros E. injection E as <-. cbn [m_headers m_pages].
  assert (D : is_dict default_headers).
  { repeat constructor; cbn [In fst map]; intros Y;
      repeat destruct Y as [Y|Y]; try discriminate Y; try contradiction. }
  destruct (header_loop_dict _ _ _ _ _ D H) as (H1 & H2).
  split; [exact H1|]. split; [reflexivity|]. intros k Hk. apply H2.
  repeat destruct Hk as [<-|Hk]; try contradiction; discriminate.
Qed.

Lemma no_slides w m : m_pages m = [] -> slides_sendable w m.
Proof. intros E. unfold slides_sendable, slide_parts. rewrite E. constructor. Qed.
Lemma no_smil render w m : m_pages m = [] -> exists text, smil render w m = Ok text.
Proof. intros E. unfold smil, smil_tree. rewrite E. eexists. reflexivity. Qed.

(** * C86 *)

(** C86 is false of the code.  Whatever was received, if it has parts and its
    headers can be sent, encoding the decoded message gives data that cannot be
    decoded: the parts are counted and left out. *)
Theorem C86_parts_refuted : forall render w rand data m,
  decode_data data = Ok m -> m_parts m <> [] ->
  any_order w -> sendable rand (m_headers m) ->
  exists bytes m1, encode render w rand m = (Ok bytes, m1) /\
    (zlen bytes + zlen (m_parts m) <= maxint -> decode_data bytes = Err StopIteration).
Proof.
  intros render w rand data m E Hp Hw Hs. destruct (decoded data m E) as (Hd & Hg & _).
  destruct (no_smil render w m Hg) as (text & Et).
  exact (C53_decode_refuted render w rand m text Hd Hw Hs (no_slides w m Hg) Et Hp).
Qed.
Print Assumptions C86_parts_refuted.

(** Two received messages with the same headers and equally many parts are passed
    on as the same data, or fail alike, whatever their parts hold. *)
Theorem C86_content_refuted : forall render w rand data data' m m',
  decode_data data = Ok m -> decode_data data' = Ok m' ->
  m_headers m = m_headers m' -> length (m_parts m) = length (m_parts m') ->
  fst (encode render w rand m) = fst (encode render w rand m').
Proof.
  intros render w rand data data' m m' E E' Hh Hl.
  assert (F : forall d x, decode_data d = Ok x ->
            x = with_parts (m_parts x) (Message (m_headers x) [] [] 176 220)).
  { intros d x. rewrite decode_data_run. unfold decoding, st_bind.
    destruct (decode_message_header _) as [[hs|e] i]; [|discriminate].
    destruct (decode_message_body i) as [[ps|e] i']; [|discriminate].
    intros X. injection X as <-. reflexivity. }
  rewrite (F _ _ E), (F _ _ E'), Hh. apply C53_content_refuted. exact Hl.
Qed.
Print Assumptions C86_content_refuted.

(** What holds: a received message without parts whose headers can be sent arrives
    with the headers [sent_headers] says, the ones it was received with as long as
    none has an X-Mms- name and it is no send request without recipients; and
    the SMIL part of an empty presentation is added. *)
Theorem C86_headers_partial : forall render w rand data m,
  decode_data data = Ok m -> m_parts m = [] ->
  any_order w -> sendable rand (m_headers m) ->
  exists bytes m1, encode render w rand m = (Ok bytes, m1) /\
    (zlen bytes <= maxint ->
     exists m' sp, decode_data bytes = Ok m' /\ m_parts m' = [sp] /\
       h_get (str "Content-Type") (dp_headers sp) =
         Some (HType (str "application/smil") []) /\
       (forall k, h_get k (m_headers m') = sent_headers rand (m_headers m) k) /\
       ((forall k, In k [str "X-Mms-Message-Type"; str "X-Mms-Transaction-Id";
                         str "X-Mms-Version"] -> ~ has k (m_headers m)) ->
        (h_get (str "Message-Type") (m_headers m) <> Some (HStr (str "m-send-req")) \/
         has (str "To") (m_headers m) \/ has (str "Cc") (m_headers m)) ->
        forall k, h_get k (m_headers m') = h_get k (m_headers m))).
Proof.
  intros render w rand data m E Hp Hw Hs. destruct (decoded data m E) as (Hd & Hg & H4).
  destruct (no_smil render w m Hg) as (text & Et).
  destruct (C52_message render w rand m text Hd Hw Hs (no_slides w m Hg) Et Hp)
    as (bytes & m1 & E1 & H).
  exists bytes, m1. split; [exact E1|]. intros Hl.
  destruct (H Hl) as (m' & sp & ps & E2 & Hh & Eps & Ha & Hf).
  unfold slide_parts in Hf. rewrite Hg in Hf. inversion Hf; subst ps.
  exists m', sp. split; [exact E2|]. split; [exact Eps|].
  split; [destruct Ha as (_ & _ & Ha); rewrite Ha; reflexivity|].
  split; [exact Hh|]. intros Hx Hr k. rewrite Hh. apply sent_unchanged; assumption.
Qed.
Print Assumptions C86_headers_partial.

(** So no received message whose headers can be sent is passed on with the parts it
    has, as long as the data is not beyond the largest int. *)
Theorem C86_never_refuted : forall render w rand data m,
  decode_data data = Ok m -> any_order w -> sendable rand (m_headers m) ->
  exists bytes m1, encode render w rand m = (Ok bytes, m1) /\
    (zlen bytes + zlen (m_parts m) <= maxint ->
     forall m' : message, decode_data bytes = Ok m' -> ~ m_parts m' = m_parts m).
Proof.
  intros render w rand data m E Hw Hs. destruct (m_parts m) as [|p ps] eqn:Ep.
  - destruct (C86_headers_partial render w rand data m E Ep Hw Hs) as (bytes & m1 & E1 & H).
    exists bytes, m1. split; [exact E1|]. intros Hl m' E'.
    destruct H as (m2 & sp & E2 & Ps & _); [change (zlen (@nil part)) with 0 in Hl; lia|].
    rewrite E2 in E'. injection E' as <-. rewrite Ps. discriminate.
  - assert (Hp : m_parts m <> []) by (rewrite Ep; discriminate).
    destruct (C86_parts_refuted render w rand data m E Hp Hw Hs) as (bytes & m1 & E1 & H).
    exists bytes, m1. split; [exact E1|]. intros Hl m' E'. rewrite <- Ep in Hl. rewrite (H Hl) in E'. discriminate E'.
Qed.
Print Assumptions C86_never_refuted.

(** An m-retrieve-conf with the subject "Hi" and one text part, and the header
    of that message, which [received_head ++ [0]] sends without parts. *)
Definition received_head : list Z :=
  [140; 132; 152; 49; 50; 0; 141; 144; 150; 72; 105; 0; 132; 163].
Definition received_parts : list Z := received_head ++ [1; 1; 5; 131; 104; 101; 108; 108; 111].
Example C86_case :
  let w := World (fun _ => None) (fun _ => None) (fun d => rev d) in
  let passed_on data :=
    match decode_data data with
    | Ok m =>
        match fst (encode (fun _ => []) w 7 m) with
        | Ok bytes => (length (m_parts m), decode_data bytes)
        | Err e => (O, Err e)
        end
    | Err e => (O, Err e)
    end in
  passed_on received_parts = (1%nat, Err StopIteration) /\
  match passed_on (received_head ++ [0]) with
  | (O, Ok m') => length (m_parts m') = 1%nat /\
                  h_get (str "Subject") (m_headers m') = Some (HStr (str "Hi"))
  | _ => False
  end.
Proof. vm_compute. auto. Qed.

(** The headers of both can be sent. *)
Example C86_hypotheses :
  (forall data, data = received_parts \/ data = received_head ++ [0] ->
     exists m, decode_data data = Ok m /\ sendable 7 (m_headers m)) /\
  any_order (World (fun _ => None) (fun _ => None) (fun d => rev d)).
Proof.
  split; [|intros x; apply Permutation_sym, Permutation_rev].
  set (d := [(str "Message-Type", HStr (str "m-retrieve-conf"));
             (str "Transaction-Id", HStr (str "12"));
             (str "MMS-Version", HStr (str "1.0"));
             (str "Content-Type", HType (str "application/vnd.wap.multipart.mixed") []);
             (str "Subject", HStr (str "Hi"))]).
  assert (Hd : is_dict d).
  { repeat constructor; cbn [In fst map]; intros Y;
      repeat destruct Y as [Y|Y]; try discriminate Y; try contradiction. }
  assert (Hs : sendable 7 d).
  { assert (Hu : forall k, sent_headers 7 d k = h_get k d).
    { apply sent_unchanged.
      - intros k Hk. repeat destruct Hk as [<-|Hk]; try contradiction; discriminate.
      - intros k Hk X. apply X. repeat destruct Hk as [<-|Hk]; try contradiction; reflexivity.
      - left. discriminate. }
    split; [discriminate|]. intros k v X. rewrite Hu in X.
    apply (h_get_In d k v Hd) in X. cbn [d In] in X.
    destruct X as [X|[X|[X|[X|[X|[]]]]]]; apply pair_equal_spec in X; destruct X as (<- & <-).
    - apply sup_type. vm_compute. auto 10.
    - apply sup_text; [right; left; reflexivity|].
      split; [repeat constructor; discriminate|cbn; lia].
    - apply (sup_numbers 1 0); lia.
    - eexists. split; [reflexivity|]. left. vm_compute. auto 80.
    - apply sup_string; [vm_compute; auto 10|].
      split; [repeat constructor; discriminate|cbn; lia]. }
  assert (G : forall data, data = received_parts \/ data = received_head ++ [0] ->
                match decode_data data with Ok m => m_headers m = d | Err _ => False end)
    by (intros data [->| ->]; vm_compute; reflexivity).
  intros data Hx. apply G in Hx. destruct (decode_data data) as [m|e]; [|contradiction].
  exists m. split; [reflexivity|]. rewrite Hx. exact Hs.
Qed.
