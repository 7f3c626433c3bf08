(** C75, exactly for the headers of parts: which of them are read as what they mean. *)
From Coq Require Import Lia ZifyBool ZifyNat.
From Verif Require Import Py Iter Tables WspDec WspEnc Message MmsEnc MmsDec
  SpecWsp SpecMms WspClaims MmsClaims GrammarClaims PyFacts IterFacts WspFacts HeaderFacts MmsTotal
  GrammarFacts PropType PropHeaderExact PropPartHeaderExact.
Open Scope Z_scope.

(** A Content-ID in quotes is never read. *)
Lemma content_id_lost s : ~ Decodes decode_header (192 :: 34 :: s ++ [0]) (str "Content-ID", HStr s).
Proof.
  intros D.
  assert (W : wp decode_header (192 :: 34 :: s ++ [0]) 0 (fun r l' _ => forall x, r = Ok x ->
             known (fst x) \/ header_at 1 (192 :: 34 :: s ++ [0]) x l')).
  { unfold decode_header. apply wp_catch. unfold decode_mms_header. apply wp_bind, wp_preview.
    cbn [nth_error]. apply wp_bind, wp_lift.
    change (decode_short_integer_from_byte 192) with (Ok (A := Z) 64). cbv beta iota.
    replace (d_get Z.eqb 64 mms_field_names) with (@None (list Z * mtype)) by reflexivity.
    wsteps. apply (wsp_takes_high _ 0 192); [reflexivity|lia]. }
  destruct (decodes_all _ _ _ _ _ D W) as (p & H).
  destruct (H _ eq_refl) as [K|(x & E & L)].
  - unfold known in K.
    assert (B : existsb (leqb (str "Content-ID")) (firstn 56 header_field_names) = false)
      by (vm_compute; reflexivity).
    apply Bool.not_true_iff_false in B. apply B. apply existsb_exists. eexists.
    split; [exact K|]. apply leqb_eq. reflexivity.
  - cbn [fst snd] in *. assert (s = x) as <- by (unfold HStr in E; congruence).
    change (length (str "Content-ID")) with 10%nat in L. cbn [length] in L.
    rewrite app_length in L. cbn [length] in L. lia.
Qed.

(** Under the numbers of fields whose decoders take a text with a quote in front, the
    header becomes that field. *)
Lemma other_name n tn t name s vb : 0 <= n < 128 -> d_get Z.eqb n mms_field_names = Some (tn, t) ->
  tn <> name -> wp (decode_mms_value t) vb 0 (gives (fun _ _ => True)) ->
  ~ Decodes decode_header ((128 + n) :: vb) (name, HStr s).
Proof.
  intros Hn E Ht W D. destruct (gives_all _ _ _ _ _ D (mms_gives n tn t vb _ Hn E W)) as [H _].
  exact (Ht (eq_sym H)).
Qed.

(** Under the number of the message size the quote is no length, and what follows is
    no header of the form name and text. *)
Lemma size_lost s : ~ Decodes decode_header (142 :: 127 :: s ++ [0]) (str "Content-Location", HStr s).
Proof.
  intros D.
  assert (W : wp decode_header (142 :: 127 :: s ++ [0]) 0 (gives (header_at 0 (127 :: s ++ [0])))).
  { unfold decode_header. apply wp_catch. unfold decode_mms_header. apply wp_bind, wp_preview.
    cbn [nth_error]. apply wp_bind, wp_lift.
    change (decode_short_integer_from_byte 142) with (Ok (A := Z) 14). cbv beta iota.
    replace (d_get Z.eqb 14 mms_field_names) with (Some (str "Message-Size", MLong)) by reflexivity.
    wsteps.
    assert (S : wp (as_runtime_error (decode_mms_value MLong)) (127 :: s ++ [0]) 0
                   (refuses (127 :: s ++ [0]))).
    { eapply wp_then with (m := decode_mms_value MLong)
        (j := fun r => match r with
               | Ok a => st_ret a
               | Err DecodeError => st_err DecodeError
               | Err OutOfFuel => st_err OutOfFuel
               | Err _ => st_err RuntimeError
               end).
      - intros it. unfold as_runtime_error. destruct (decode_mms_value MLong it) as [[a|e] it']; [reflexivity|].
        destruct e; reflexivity.
      - cbn [decode_mms_value]. unfold decode_long_integer, decode_short_length. wsteps.
        cbn [Z.ltb Z.compare Pos.compare Pos.compare_cont]. wsteps. repeat split. }
    eapply wp_mono; [exact S|]. intros r l1 p1 (-> & -> & ->). cbn [exn_eqb].
    unfold wsp_decode_header. apply wp_refused_catch; [|apply application_takes].
    unfold decode_well_known_header. apply wp_bind. unfold decode_short_integer. wsteps.
    rewrite land_128 by lia. cbn [Z.ltb Z.compare Pos.compare Pos.compare_cont]. wsteps. repeat split. }
  destruct (gives_all _ _ _ _ _ D W) as (x & E & L). cbn [fst snd] in *.
  assert (s = x) as <- by (unfold HStr in E; congruence).
  change (length (str "Content-Location")) with 16%nat in L. cbn [length] in L.
  rewrite app_length in L. cbn [length] in L. lia.
Qed.

Lemma class_gives s : wp (decode_mms_value MMessageClass) (127 :: s ++ [0]) 0 (gives (fun _ _ => True)).
Proof.
  cbn [decode_mms_value]. apply gives_ret. unfold decode_message_class_value. wsteps.
  replace (d_get Z.eqb 127 class_identifiers) with (@None (list Z)) by reflexivity.
  wsteps. unfold decode_token_text. wsteps.
  replace (token_char 127) with true by reflexivity. cbn [negb]. wsteps.
  eapply wp_mono; [apply token_takes|]. intros [x|e] l' p' H; [exact I|exact H].
Qed.

Lemma quoted_lost name c s : In (name, c) part_header_names -> c < 153 ->
  ~ Decodes decode_header (c :: 127 :: s ++ [0]) (name, HStr s).
Proof.
  intros Hn Hc. cbn [part_header_names In] in Hn.
  repeat (destruct Hn as [Hn|Hn]; [apply pair_equal_spec in Hn; destruct Hn as [<- <-]; try lia|]).
  - change 138 with (128 + 10).
    eapply (other_name 10); [lia|reflexivity|discriminate|]. apply class_gives.
  - apply size_lost.
  - change 147 with (128 + 19). eapply (other_name 19); [lia|reflexivity|discriminate|].
    cbn [decode_mms_value]. apply gives_ret. eapply wp_mono; [apply encoded_takes|].
    intros [x|e] l' p' H; [exact I|exact H].
  - change 150 with (128 + 22). eapply (other_name 22); [lia|reflexivity|discriminate|].
    cbn [decode_mms_value]. apply gives_ret. eapply wp_mono; [apply encoded_takes|].
    intros [x|e] l' p' H; [exact I|exact H].
  - change 152 with (128 + 24). eapply (other_name 24); [lia|reflexivity|discriminate|].
    cbn [decode_mms_value]. apply gives_ret. eapply wp_mono; [apply text_takes|].
    intros [x|e] l' p' H; [exact I|exact H].
  - destruct Hn.
Qed.

(** C75 for the headers of parts: a header is read as what it means exactly when it is
    none of the misread ones. *)
Theorem C75_part_header_exact : forall name s l, Part_header name s l ->
  (Decodes decode_header l (name, HStr s) <-> ~ misread_part_header l).
Proof.
  intros name s l H. split.
  - intros D M. destruct H as [name c s l Hn Hs|s l Hs|name s l t Ht _ Hs].
    + destruct Hs as [s Hs _|s _ Hs].
      2: { destruct (Z.ltb_spec c 153) as [L|L]; [exact (quoted_lost name c s Hn L D)|].
           cbn [misread_part_header starts_with] in M.
           assert (X : Forall (fun p => snd p < 184) part_header_names) by (repeat constructor).
           rewrite Forall_forall in X. specialize (X _ Hn). cbn [snd] in X. lia. }
      cbn [part_header_names In] in Hn.
      repeat (destruct Hn as [Hn|Hn]; [apply pair_equal_spec in Hn; destruct Hn as [<- <-];
        first [ solve [cbn [misread_part_header starts_with] in M; lia]
              | match type of D with Decodes _ (?c :: _) _ =>
                  let k := eval compute in (c - 128) in
                  change c with (128 + k) in D;
                  refine (table_lost k _ _ _ s _ _ eq_refl _ _ _ D);
                    [lia|discriminate|reflexivity|unfold HStr; congruence] end]|]).
      destruct Hn.
    + destruct Hs as [s _]. exact (content_id_lost s D).
    + destruct (token_text_head _ _ Ht) as (c & c' & r & -> & Hc & _).
      cbn [app misread_part_header starts_with] in M. lia.
  - intros N. apply decodes_wp. intros rest. apply part_header_read. split; assumption.
Qed.
Print Assumptions C75_part_header_exact.
(** Content-Location and Content-ID are misread, Location is read. *)
Example C75_part_header_case :
  Part_header (str "Content-Location") (str "a.txt") (142 :: str "a.txt" ++ [0]) /\
  ~ Decodes decode_header (142 :: str "a.txt" ++ [0]) (str "Content-Location", HStr (str "a.txt")) /\
  Decodes decode_header (156 :: str "a.txt" ++ [0]) (str "Location", HStr (str "a.txt")).
Proof.
  assert (T : Text_string (str "a.txt") (str "a.txt" ++ [0])).
  { apply ts_plain; [split; [vm_compute; repeat constructor; discriminate|right; cbn; lia]|cbn; lia]. }
  assert (H1 : Part_header (str "Content-Location") (str "a.txt") (142 :: str "a.txt" ++ [0]))
    by (apply ph_number; [cbn [part_header_names In]; tauto|exact T]).
  assert (H2 : Part_header (str "Location") (str "a.txt") (156 :: str "a.txt" ++ [0]))
    by (apply ph_number; [cbn [part_header_names In]; tauto|exact T]).
  split; [exact H1|]. split.
  - intros D. apply (proj1 (C75_part_header_exact _ _ _ H1) D). cbn. lia.
  - apply (proj2 (C75_part_header_exact _ _ _ H2)). cbn. lia.
Qed.

