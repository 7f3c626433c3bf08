(** Theorems about message bodies and whole messages: C52, C53, C54 (body), C56,
    C57 and C58. *)
From Coq Require Import Lia ZifyBool ZifyNat.
From Verif Require Import Py Iter Tables WspDec WspEnc Message MmsEnc MmsDec
  SpecWsp WspClaims MmsClaims PyFacts IterFacts WspFacts MmsTotal ContentFacts HeaderFacts
  MsgHeaderFacts BodyFacts.
Open Scope Z_scope.

(** * C52 *)

(** A message without attached parts whose slides hold any parts that can be sent:
    decoding the encoded message gives its headers, the SMIL part and the parts of
    the slides in order.  [text] is the rendered SMIL, whatever the rendering. *)
Theorem C52_message : forall render w rand m text,
  is_dict (m_headers m) -> any_order w -> sendable rand (m_headers m) ->
  slides_sendable w m -> smil render w m = Ok text -> m_parts m = [] ->
  exists bytes m1, encode render w rand m = (Ok bytes, m1) /\
    (zlen bytes <= maxint ->
     exists m' sp ps, decode_data bytes = Ok m' /\
       (forall k, h_get k (m_headers m') = sent_headers rand (m_headers m) k) /\
       m_parts m' = sp :: ps /\
       arrives [(str "Content-Type", HType (str "application/smil") []);
                (str "Content-ID", HStr (str "<0000>"))] text sp /\
       Forall2 (delivers w) (slide_parts m) ps).
Proof. exact message_run. Qed.
Print Assumptions C52_message.

(** C52: text slides added with add_text and add_page.  Every list of texts, begin
    and end times that add_text accepts; any rendering of the SMIL; any iteration
    order of the dictionaries. *)
Theorem C52_text_slides : forall render w rand slides m0 m,
  m_pages m0 = [] -> m_parts m0 = [] ->
  add_text_slides slides m0 = (Ok tt, m) ->
  is_dict (m_headers m) -> any_order w -> sendable rand (m_headers m) ->
  exists text bytes m1, smil render w m = Ok text /\
    encode render w rand m = (Ok bytes, m1) /\
    (zlen bytes <= maxint ->
     exists m' sp ps, decode_data bytes = Ok m' /\ m_parts m' = sp :: ps /\
       arrives [(str "Content-Type", HType (str "application/smil") []);
                (str "Content-ID", HStr (str "<0000>"))] text sp /\
       Forall2 (fun s p => arrives [(str "Content-Type", HType (str "text/plain") [])]
                                   (fst (fst s)) p) slides ps).
Proof.
  intros render w rand slides m0 m Hp0 Hq0 Ea Hd Hw Hs.
  destruct (add_text_slides_ok slides m0 m Ea) as (Hp & Hq). rewrite Hp0 in Hp. rewrite Hq0 in Hq.
  cbn [app] in Hp.
  assert (Et : exists text, smil render w m = Ok text).
  { unfold smil, smil_tree. rewrite Hp.
    destruct (text_pages_smil w slides 0 [] None) as (pars & ->). eexists. reflexivity. }
  destruct Et as (text & Et). pose proof (text_slide_parts m slides Hp) as Esp.
  destruct (C52_message render w rand m text Hd Hw Hs) as (bytes & m1 & E & D); auto.
  { unfold slides_sendable. rewrite Esp. apply Forall_forall. intros p Hin.
    apply in_map_iff in Hin. destruct Hin as (s & <- & _).
    destruct (text_part_sendable w (fst (fst s))) as (A & B). split; [exact A|eauto]. }
  exists text, bytes, m1. split; [exact Et|]. split; [exact E|]. intros Hmax.
  destruct (D Hmax) as (m' & sp & ps & E1 & _ & E2 & E3 & F).
  exists m', sp, ps. split; [exact E1|]. split; [exact E2|]. split; [exact E3|].
  rewrite Esp in F. clear - F. revert ps F.
  induction slides as [|s l IH]; intros ps F; inversion F as [|p0 p' l0 l' Hp Hl]; subst; constructor.
  - destruct Hp as (data & Hh & Ha). destruct Hh as [_ Hx|f Hx _ _]; [|discriminate Hx].
    assert (data = fst (fst s)) by (cbn in Hx; congruence). subst. exact Ha.
  - apply IH. exact Hl.
Qed.
Print Assumptions C52_text_slides.
Example C52_case :
  let w := World (fun _ => None) (fun _ => None) (fun d => rev d) in
  let m0 := with_headers (default_headers ++ [(str "To", HStr (str "a@b"))]) new_message in
  let m := snd (add_text_slides [(str "one", 0, 0); (str "two", 100, 4000)] m0) in
  fst (add_text_slides [(str "one", 0, 0); (str "two", 100, 4000)] m0) = Ok tt /\
  match fst (encode (fun _ => str "<smil/>") w 1111 m) with
  | Ok bytes =>
      match decode_data bytes with
      | Ok m' => map dp_data (m_parts m') = [Some (str "<smil/>"); Some (str "one"); Some (str "two")]
                 /\ h_get (str "To") (m_headers m') = Some (HStr (str "a@b"))
      | Err _ => False
      end
  | Err _ => False
  end.
Proof. vm_compute. auto. Qed.
(** The hypotheses hold of this message. *)
Example C52_hypotheses :
  let m0 := with_headers (default_headers ++ [(str "To", HStr (str "a@b"))]) new_message in
  let m := snd (add_text_slides [(str "one", 0, 0); (str "two", 100, 4000)] m0) in
  is_dict (m_headers m) /\ sendable 1111 (m_headers m) /\
  any_order (World (fun _ => None) (fun _ => None) (fun d => rev d)).
Proof.
  assert (E : m_headers (snd (add_text_slides [(str "one", 0, 0); (str "two", 100, 4000)]
      (with_headers (default_headers ++ [(str "To", HStr (str "a@b"))]) new_message))) =
    [(str "Message-Type", HStr (str "m-send-req"));
     (str "Transaction-Id", HStr (str "1234"));
     (str "MMS-Version", HStr (str "1.0"));
     (str "Content-Type", HType (str "application/vnd.wap.multipart.related") []);
     (str "To", HStr (str "a@b"))]) by (vm_compute; reflexivity).
  cbv zeta. rewrite E. clear E.
  set (d := [(str "Message-Type", HStr (str "m-send-req")); _; _; _; _]).
  assert (Hd : is_dict d).
  { repeat constructor; cbn [In fst map]; intros Y;
      repeat destruct Y as [Y|Y]; try discriminate Y; try contradiction. }
  assert (Hu : forall k, sent_headers 1111 d k = h_get k d).
  { apply sent_unchanged.
    - intros k Hk. repeat destruct Hk as [<-|Hk]; try contradiction; discriminate.
    - intros k Hk X. apply X. repeat destruct Hk as [<-|Hk]; try contradiction; reflexivity.
    - right. left. discriminate. }
  split; [exact Hd|]. split; [|intros x; apply Permutation_sym, Permutation_rev].
  split; [discriminate|]. intros k v X. rewrite Hu in X.
  apply (h_get_In d k v Hd) in X. cbn [d In] in X.
  destruct X as [X|[X|[X|[X|[X|[]]]]]]; apply pair_equal_spec in X; destruct X as (<- & <-).
  - apply sup_type. left. reflexivity.
  - apply sup_text; [right; left; reflexivity|].
    split; [repeat constructor; discriminate|cbn; lia].
  - apply (sup_numbers 1 0); lia.
  - eexists. split; [reflexivity|]. left. vm_compute. auto 80.
  - apply sup_string; [vm_compute; auto|]. split; [repeat constructor; discriminate|cbn; lia].
Qed.

(** * C53 *)

(** C53 is false of the code: what is sent does not depend on the attached parts,
    only on how many there are. *)
Theorem C53_content_refuted : forall render w rand m ps ps', length ps = length ps' ->
  fst (encode render w rand (with_parts ps m)) = fst (encode render w rand (with_parts ps' m)).
Proof. exact encode_parts_blind. Qed.
Print Assumptions C53_content_refuted.

(** They are counted all the same, so no message with an attached part can be
    decoded again: the decoder runs out of data. *)
Theorem C53_decode_refuted : forall render w rand m text,
  is_dict (m_headers m) -> any_order w -> sendable rand (m_headers m) ->
  slides_sendable w m -> smil render w m = Ok text -> m_parts m <> [] ->
  exists bytes m1, encode render w rand m = (Ok bytes, m1) /\
    (zlen bytes + zlen (m_parts m) <= maxint -> decode_data bytes = Err StopIteration).
Proof. exact message_extra_parts. Qed.
Print Assumptions C53_decode_refuted.
Example C53_case :
  let w := World (fun _ => None) (fun _ => None) (fun d => d) in
  let m ps := with_parts ps (with_headers (default_headers ++ [(str "To", HStr (str "a@b"))])
                                     new_message) in
  let p s := set_data s (str "text/plain") [] new_part in
  fst (encode (fun _ => []) w 1 (m [p (str "secret")])) = fst (encode (fun _ => []) w 1 (m [p []])) /\
  match fst (encode (fun _ => []) w 1 (m [p (str "secret")])) with
  | Ok bytes => decode_data bytes = Err StopIteration
  | Err _ => False
  end.
Proof. vm_compute. auto. Qed.

(** * C54 for the body *)

(** What holds of C54: the body can be encoded again, with the same bytes, and the
    second time nothing changes. *)
Theorem C54_body_partial : forall render w m b m1,
  encode_message_body render w m = (Ok b, m1) ->
  encode_message_body render w m1 = (Ok b, m1).
Proof. exact body_again. Qed.
Print Assumptions C54_body_partial.
Example C54_body_case :
  let w := World (fun f => if leqb f (str "/a.jpg") then Some [1; 2; 3] else None)
                 (fun _ => Some (str "image/jpeg")) (fun d => d) in
  let g := snd (add_image w (str "/a.jpg") 0 0 new_page) in
  let m := snd (add_page g new_message) in
  match encode_message_body (fun _ => []) w m with
  | (Ok b, m1) => m1 <> m /\ encode_message_body (fun _ => []) w m1 = (Ok b, m1)
  | _ => False
  end.
Proof. vm_compute. split; [discriminate|reflexivity]. Qed.

(** * C56 *)

(** C56 for application headers and for well-known headers whose number is not the
    number of an MMS header. *)
Theorem C56_roundtrip_partial : forall w p data,
  any_order w -> part_sendable p -> holds w p data ->
  exists bytes p1 p', encode_part w p = (Ok bytes, p1) /\
    arrives (dp_headers p) data p' /\
    (zlen bytes <= maxint -> Decodes decode_part bytes p').
Proof.
  intros w p data Hw Hp Hh.
  destruct (part_roundtrip w p data Hw Hp Hh) as (b & p1 & p' & E & _ & _ & _ & Ha & _ & Hr).
  exists b, p1, p'. split; [exact E|]. split; [exact Ha|]. intros Hm. apply decodes_wp. auto.
Qed.
Print Assumptions C56_roundtrip_partial.
Example C56_partial_case :
  part_sendable (Part [(str "Content-Type", HType (str "text/plain") []);
                       (str "X-Note", HStr (str "hi")); (str "Location", HStr (str "here"))]
                      [] None (Some [1])).
Proof.
  split; [|split].
  - repeat constructor; cbn [In fst map]; intros Y;
      repeat destruct Y as [Y|Y]; try discriminate Y; try contradiction.
  - eexists. split; [reflexivity|]. eexists. split; [reflexivity|]. left. vm_compute. auto 10.
  - intros k v E Hk. unfold h_get in E. cbn [dp_headers d_get] in E.
    destruct (leqb k (str "Content-Type")) eqn:C; [apply leqb_eq in C; congruence|].
    destruct (leqb k (str "X-Note")) eqn:C1; [apply leqb_eq in C1; subst k|].
    + injection E as <-. apply part_application.
      * split; [|split].
        -- split; [discriminate|]. repeat constructor; try discriminate; vm_compute; intuition discriminate.
        -- cbn. repeat constructor.
        -- intros H. vm_compute in H. intuition discriminate.
      * intros H. vm_compute in H. intuition discriminate.
      * split; [repeat constructor; discriminate|cbn; lia].
    + destruct (leqb k (str "Location")) eqn:C2; [|discriminate]. apply leqb_eq in C2. subst k.
      injection E as <-. apply ph_well_known; [vm_compute; auto 10|discriminate|].
      split; [repeat constructor; discriminate|cbn; lia].
Qed.

(** C56 is false of the code for the header every file part has: an image or audio
    part loses its Content-Location, because the number the encoder uses for it is
    the number of Message-Size in the table of the decoder. *)
Theorem C56_location_refuted : forall w path data media p,
  any_order w -> w_file w path = Some data -> w_mime w path = Some media -> plain_media media ->
  token_string (basename path) -> starts_with (fun c => c < 128) (basename path) ->
  part_from_file w path = Ok p ->
  h_get (str "Content-Location") (dp_headers p) = Some (HStr (basename path)) /\
  exists bytes p1 p', encode_part w p = (Ok bytes, p1) /\
    (zlen bytes <= maxint -> Decodes decode_part bytes p') /\
    dp_data p' = Some data /\
    dp_headers p' = [(str "Content-Type", HType media [])].
Proof.
  intros w path data media p Hw Ef Em Hm Ht Ha Ep.
  unfold part_from_file, from_file in Ep. rewrite Ef, Em in Ep. unfold st_upd in Ep.
  destruct media as [|c media].
  { exfalso. destruct Hm as [Hm|[_ Hm]]; [|exact Hm]. vm_compute in Hm. intuition discriminate. }
  assert (E : p = Part [(str "Content-Location", HStr (basename path));
                    (str "Content-Type", HType (c :: media) [])] [] (Some path) None)
    by (injection Ep as <-; reflexivity).
  split; [rewrite E; reflexivity|].
  destruct (file_part_run w p data path (basename path) (c :: media) Hw) as (b & p1 & E1 & Hr);
    auto; try (rewrite E; reflexivity).
  { eapply holds_file; [rewrite E; reflexivity|exact Ef|left; rewrite E; reflexivity]. }
  exists b, p1, (Part [(str "Content-Type", HType (c :: media) [])] [] None (Some data)).
  split; [exact E1|]. split; [|split; reflexivity].
  intros Hmax. apply decodes_wp. apply Hr. exact Hmax.
Qed.
Print Assumptions C56_location_refuted.
Example C56_case :
  let w := World (fun _ => Some [1; 2; 3]) (fun _ => Some (str "image/jpeg")) (fun d => d) in
  match part_from_file w (str "/tmp/cat.jpg") with
  | Ok p =>
      h_get (str "Content-Location") (dp_headers p) = Some (HStr (str "cat.jpg")) /\
      match fst (encode_part w p) with
      | Ok bytes => fst (decode_part (new_iter bytes)) =
          Ok (Part [(str "Content-Type", HType (str "image/jpeg") [])] [] None (Some [1; 2; 3]))
      | Err _ => False
      end
  | Err _ => False
  end.
Proof. vm_compute. auto. Qed.

(** * C57 *)

(** C57: decoding ends on every byte sequence, with a message or one of five
    exceptions.  ([OutOfFuel], which would stand for a loop that does not end, is
    not among them.) *)
Theorem C57_decode : forall data,
  (exists m, decode_data data = Ok m) \/
  exists e, decode_data data = Err e /\
    In e [StopIteration; DecodeError; RuntimeError; AttributeError; OverflowError].
Proof.
  intros data. pose proof (decode_data_exn data) as H. destruct (decode_data data) as [m|e].
  - left. eauto.
  - right. exists e. split; [reflexivity|]. unfold mms_exn, wsp_exn in H.
    destruct e; cbn [In]; auto 10; exfalso; intuition discriminate.
Qed.
Print Assumptions C57_decode.
Example C57_case : decode_data [142] = Err RuntimeError /\ decode_data [132; 131; 1] = Err StopIteration.
Proof. vm_compute. auto. Qed.

(** * C58 *)

(** C58 is false of the code: decoding nothing gives a message with four headers. *)
Theorem C58_refuted : exists m, decode_data [] = Ok m /\ m_headers m = default_headers /\
  ~ read_from [] (str "Transaction-Id") (HStr (str "1234")) /\
  h_get (str "Transaction-Id") (m_headers m) = Some (HStr (str "1234")).
Proof.
  eexists. split; [reflexivity|]. split; [reflexivity|]. split; [|reflexivity].
  intros (a & b & c & it & it' & E & Hb & _). symmetry in E. apply app_eq_nil in E.
  destruct E as (_ & E). apply app_eq_nil in E. destruct E as (E & _). contradiction.
Qed.
Print Assumptions C58_refuted.

(** Every header of a decoded message is one of the four every new message starts
    with, or was decoded from a non-empty piece of the data. *)
Theorem C58_origin_partial : forall data m, decode_data data = Ok m ->
  forall k v, h_get k (m_headers m) = Some v ->
    h_get k [(str "Message-Type", HStr (str "m-send-req"));
             (str "Transaction-Id", HStr (str "1234"));
             (str "MMS-Version", HStr (str "1.0"));
             (str "Content-Type", HType (str "application/vnd.wap.multipart.mixed") [])] = Some v
    \/ read_from data k v.
Proof. exact decoded_origin. Qed.
Print Assumptions C58_origin_partial.
Example C58_case : exists m, decode_data [151; 97; 0] = Ok m /\
  h_get (str "To") (m_headers m) = Some (HStr (str "a")).
Proof. eexists. split; vm_compute; reflexivity. Qed.
