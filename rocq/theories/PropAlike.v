(** Different multimedia messages are not sent alike, unless they differ in attached
    parts (C111). *)
From Coq Require Import Lia ZifyBool Permutation.
From Verif Require Import Py Iter Tables WspDec WspEnc Message Xml MmsEnc MmsDec
  SpecWsp WspClaims MmsClaims SpecSmil SpecXml MessageClaims PyFacts BodyFacts MsgHeaderFacts
  MessageFacts XmlFacts PropXml PropSmil PropHeaders PropBody PropArrives.
Open Scope Z_scope.

(** A message that survives sending (C52): without attached parts, with headers and
    slide parts that can be sent. *)
Definition can_go (w : world) (rand : Z) (m : message) : Prop :=
  is_dict (m_headers m) /\ any_order w /\ sendable rand (m_headers m) /\
  slides_sendable w m /\ m_parts m = [].

(** Two parts have the same content and the same headers. *)
Definition same_part (w w' : world) (p p' : part) : Prop :=
  (exists data, holds w p data /\ holds w' p' data) /\
  forall k, h_get k (dp_headers p) = h_get k (dp_headers p').

(** C111: when two messages, encoded at different times and places, give the same
    bytes, then they send the same headers, their slide shows have the same text,
    and their slides hold the same parts in the same order. *)
Theorem C111_tell : forall render render' w w' rand rand' m m' text text' bytes m1 m1',
  can_go w rand m -> can_go w' rand' m' ->
  smil render w m = Ok text -> smil render' w' m' = Ok text' ->
  encode render w rand m = (Ok bytes, m1) -> encode render' w' rand' m' = (Ok bytes, m1') ->
  zlen bytes <= maxint ->
  (forall k, sent_headers rand (m_headers m) k = sent_headers rand' (m_headers m') k) /\
  text = text' /\ Forall2 (same_part w w') (slide_parts m) (slide_parts m').
Proof.
  intros render render' w w' rand rand' m m' text text' bytes m1 m1'
    (A1 & A2 & A3 & A4 & A5) (B1 & B2 & B3 & B4 & B5) T T' E E' Hz.
  destruct (C52_message _ _ _ _ _ A1 A2 A3 A4 T A5) as (b & x & F & G).
  rewrite E in F. assert (b = bytes) by congruence. subst b. clear F.
  destruct (C52_message _ _ _ _ _ B1 B2 B3 B4 T' B5) as (b & y & F & G').
  rewrite E' in F. assert (b = bytes) by congruence. subst b. clear F.
  destruct (G Hz) as (r & sp & ps & D & H & P & (S & _) & L).
  destruct (G' Hz) as (r' & sp' & ps' & D' & H' & P' & (S' & _) & L').
  assert (r' = r) by congruence. subst r'. assert (sp' = sp /\ ps' = ps) as (-> & ->) by (split; congruence).
  split; [intros k; congruence|]. split; [congruence|].
  clear - L L'. revert L'. generalize (slide_parts m'). induction L as [|p q l k Hp _ IH]; intros l' L'.
  - inversion L'. constructor.
  - inversion L' as [|p' q' l2 k2 Hp' L2]. subst. constructor; [|apply IH; exact L2].
    destruct Hp as (d & Hd & (X & _ & Y)). destruct Hp' as (d' & Hd' & (X' & _ & Y')).
    assert (d' = d) by congruence. subst d'. split; [exists d; auto|]. intros h. congruence.
Qed.
Print Assumptions C111_tell.

(** In particular the headers are the same, when the messages have the four headers
    every new message has and are no send requests to nobody. *)
Definition complete (d : list (list Z * hval)) : Prop :=
  (forall k, In k [str "Message-Type"; str "Transaction-Id"; str "MMS-Version";
                   str "Content-Type"] -> has k d) /\
  (forall k, In k [str "X-Mms-Message-Type"; str "X-Mms-Transaction-Id";
                   str "X-Mms-Version"] -> ~ has k d) /\
  (h_get (str "Message-Type") d <> Some (HStr (str "m-send-req")) \/
   has (str "To") d \/ has (str "Cc") d).

Theorem C111_headers : forall render render' w w' rand rand' m m' text text' bytes m1 m1',
  can_go w rand m -> can_go w' rand' m' -> complete (m_headers m) -> complete (m_headers m') ->
  smil render w m = Ok text -> smil render' w' m' = Ok text' ->
  encode render w rand m = (Ok bytes, m1) -> encode render' w' rand' m' = (Ok bytes, m1') ->
  zlen bytes <= maxint ->
  forall k, h_get k (m_headers m) = h_get k (m_headers m').
Proof.
  intros render render' w w' rand rand' m m' text text' bytes m1 m1' G G' (C1 & C2 & C3) (D1 & D2 & D3) T T' E E' Hz k.
  destruct (C111_tell _ _ _ _ _ _ _ _ _ _ _ _ _ G G' T T' E E' Hz) as (H & _). specialize (H k).
  rewrite !sent_unchanged in H by assumption. exact H.
Qed.
Print Assumptions C111_headers.

(** And one document shows both slide shows: size of the screen, durations, sources
    and times. *)
Theorem C111_show : forall w w' rand rand' m m' bytes m1 m1',
  can_go w rand m -> can_go w' rand' m' ->
  Forall (has_sources w) (m_pages m) -> Forall audio_with_text (m_pages m) ->
  (forall g s, In g (m_pages m) -> slide_source w g s -> plain_text s) ->
  Forall (has_sources w') (m_pages m') -> Forall audio_with_text (m_pages m') ->
  (forall g s, In g (m_pages m') -> slide_source w' g s -> plain_text s) ->
  encode toprettyxml w rand m = (Ok bytes, m1) -> encode toprettyxml w' rand' m' = (Ok bytes, m1') ->
  zlen bytes <= maxint ->
  exists y, shows w m y /\ shows w' m' y.
Proof.
  intros w w' rand rand' m m' bytes m1 m1' (A1 & A2 & A3 & A4 & A5) (B1 & B2 & B3 & B4 & B5)
    S A P S' A' P' E E' Hz.
  destruct (C104_arrives _ _ _ A1 A2 A3 A4 A5 S A P) as (b & x & F & G).
  rewrite E in F. assert (b = bytes) by congruence. subst b. clear F.
  destruct (C104_arrives _ _ _ B1 B2 B3 B4 B5 S' A' P') as (b & x' & F & G').
  rewrite E' in F. assert (b = bytes) by congruence. subst b. clear F.
  destruct (G Hz) as (r & sp & ps & t & D & _ & R & (y & Y) & U & _).
  destruct (G' Hz) as (r' & sp' & ps' & t' & D' & _ & R' & _ & U' & _).
  assert (r' = r) by congruence. subst r'.
  assert (t' = t).
  { destruct R as (a & c & Q1 & Q2 & _). destruct R' as (a' & c' & Q1' & Q2' & _).
    assert (a' = a) by congruence. subst a'. congruence. }
  subst t'. exists y. split; [apply U|apply U']; exact Y.
Qed.
Print Assumptions C111_show.

(** Two messages with a slide each that differ in the text only are not sent alike;
    the hypotheses hold of the message of [C104_case] (see there). *)
Example C111_case :
  let w := World (fun _ => None) (fun _ => None) (fun d => rev d) in
  let m0 := with_headers (default_headers ++ [(str "To", HStr (str "a@b"))]) new_message in
  let m t := snd (add_text_slides [(str "one", 0, 0); (t, 100, 4000)] m0) in
  can_go w 1111 (m (str "two")) /\ complete (m_headers (m (str "two"))) /\
  match fst (encode toprettyxml w 1111 (m (str "two"))), fst (encode toprettyxml w 1111 (m (str "owt"))) with
  | Ok b, Ok b' => zlen b = zlen b' /\ leqb b b' = false
  | _, _ => False
  end.
Proof.
  cbv zeta. destruct C104_case as (A & B & C & D & E & _). cbv zeta in A, B, C, D, E.
  split; [unfold can_go; auto|]. split.
  - split; [|split].
    + intros k Hk. cbn [In] in Hk. repeat destruct Hk as [<-|Hk]; try contradiction; vm_compute; discriminate.
    + intros k Hk X. apply X. cbn [In] in Hk. repeat destruct Hk as [<-|Hk]; try contradiction; vm_compute; reflexivity.
    + right. left. vm_compute. discriminate.
  - vm_compute. auto.
Qed.

(** It does not hold of attached parts: messages that differ in them in any way but
    the number are sent alike. *)
Theorem C111_attached_refuted : forall render w rand m ps ps', length ps = length ps' ->
  fst (encode render w rand (with_parts ps m)) = fst (encode render w rand (with_parts ps' m)).
Proof. exact C53_content_refuted. Qed.
Print Assumptions C111_attached_refuted.
Example C111_attached_case :
  let w := World (fun _ => None) (fun _ => None) (fun d => d) in
  let m p := with_parts [p] (with_headers (default_headers ++ [(str "To", HStr (str "a@b"))]) new_message) in
  let a := set_text (str "yes") new_part in
  let b := set_text (str "no") new_part in
  match fst (encode toprettyxml w 1111 (m a)), fst (encode toprettyxml w 1111 (m b)) with
  | Ok x, Ok y => leqb x y = true /\ dp_data a <> dp_data b
  | _, _ => False
  end.
Proof. vm_compute. split; [reflexivity|discriminate]. Qed.
