(** C81: MMS notifications that arrive in short messages. *)
From Coq Require Import Lia ZifyBool ZifyNat.
From Verif Require Import Py Iter Tables WspDec Message MmsEnc MmsDec Deliver Wap
  SpecWsp WspClaims MmsClaims SpecMms GrammarClaims SpecSubmit SpecDeliver SpecPush SpecPack PyFacts
  WspFacts DeliverFacts GrammarFacts PropDeliver PropWap PropGrammar.
Open Scope Z_scope.
Ltac Zify.zify_post_hook ::= Z.div_mod_to_equations.

(** The texts of decoded short messages put together: what the tutorial tells to
    do with the parts of a notification. *)
Definition joined_text (ds : list deliver) : list Z :=
  concat (map (fun d => match d_text d with Some t => t | None => [] end) ds).

Lemma carried : forall pdus pieces strict, Forall2 carries pdus pieces ->
  exists ds, Forall2 (fun pdu d => new_deliver pdu strict = Ok d) pdus ds /\
    joined_text ds = concat pieces.
Proof.
  intros pdus pieces strict H. induction H as [|pdu piece pdus pieces Hc _ IH].
  - exists []. split; [constructor|reflexivity].
  - destruct Hc as (hdr & udl & ud & o & H1 & H2 & H3).
    destruct (deliver_view 4 hdr piece udl ud o pdu strict H1 H2 H3) as (d & Ed & Et & _).
    destruct IH as (ds & Fd & Ej). exists (d :: ds). split; [constructor; assumption|].
    unfold joined_text in *. cbn [map concat]. rewrite Et, Ej. reflexivity.
Qed.

Lemma last_value_none : forall V k (l : list (list Z * V)), last_value k l = None <-> ~ In k (map fst l).
Proof.
  intros V k l. induction l as [|[k' v] l IH]; cbn [last_value map fst In]; [tauto|].
  destruct (last_value k l).
  - split; [discriminate|]. intros H. exfalso.
    assert (X : In k (map fst l)) by (destruct (in_dec (list_eq_dec Z.eq_dec) k (map fst l)); auto;
      apply IH in n; discriminate). tauto.
  - destruct (list_eq_dec Z.eq_dec k k') as [->|N]; split; intros H; try discriminate; try tauto.
    intros [->|X]; [congruence|]. apply IH in X; auto.
Qed.

Lemma shown_header : forall fs es m k, shows_message fs es m -> h_get k (m_headers new_message) = None ->
  (has k (m_headers m) <-> In k (map fst fs)).
Proof.
  intros fs es m k [H _] Hn. specialize (H k). unfold has. fold (h_get k (m_headers m)) in *.
  destruct (last_value k fs) as [v|] eqn:E.
  - destruct H as (h & Eh & _). unfold h_get in *. rewrite Eh. split; [intros _|discriminate].
    destruct (in_dec (list_eq_dec Z.eq_dec) k (map fst fs)) as [X|X]; [exact X|].
    apply last_value_none in X. congruence.
  - unfold h_get in *. rewrite H, Hn. apply last_value_none in E. tauto.
Qed.

(** Where the content of a push unit begins for the code: the length of the headers is
    taken from its first octet alone, so that the end of longer headers is read as the
    beginning of the content. *)
Theorem C81_exact : forall header body push, Push header body push ->
  exists front left, push = front ++ left ++ body /\
    extract_push_notification push = decode_data (left ++ body) /\
    (left = [] <-> n_octets header <= 128).
Proof.
  intros header body push HP. destruct HP as [tid xs d Ht Hx Hd Hmin Hn].
  assert (K : exists o os, uintvar_octets xs d = o :: os /\ length os = length xs /\ 0 <= o < 256 /\
            (n_octets header <= 128 /\ Z.of_nat (length os) + n_octets header = o \/
             128 < n_octets header /\ o < Z.of_nat (length os) + n_octets header)).
  { rewrite base128_snoc in Hn. unfold digit128 in Hd. destruct xs as [|x [|y xs]].
    - exists d, []. cbn [uintvar_octets map app length Z.of_nat]. change (base128 []) with 0 in Hn.
      repeat split; lia.
    - apply Forall_inv in Hx. unfold digit128 in Hx. cbn in Hmin. exists (128 + x), [d].
      unfold base128 in Hn. cbn [fold_left] in Hn.
      cbn [uintvar_octets map app length Z.of_nat Pos.of_succ_nat]. repeat split; nia.
    - pose proof (Forall_inv Hx) as Hx1. unfold digit128 in Hx1.
      exists (128 + x), (map (fun x => 128 + x) (y :: xs) ++ [d]).
      split; [reflexivity|]. split; [rewrite app_length, map_length; cbn [length]; lia|]. split; [lia|].
      destruct (exists_last (l := x :: y :: xs) ltac:(discriminate)) as (l0 & z & E).
      rewrite E in Hx, Hmin, Hn. rewrite base128_snoc in Hn. apply Forall_app in Hx. destruct Hx as [Hx Hz].
      apply Forall_inv in Hz. unfold digit128 in Hz.
      assert (l0 <> []) by (intros ->; discriminate E).
      assert (minimal128 l0) by (destruct l0; [congruence|exact Hmin]).
      pose proof (base128_pos l0 Hx ltac:(assumption) ltac:(assumption)). lia. }
  destruct K as (o & os & -> & _ & Ho & K). clear Hn Hx Hd Hmin. unfold n_octets in *.
  pose (left := skipn (Z.to_nat o) (os ++ header)).
  assert (X : tid :: 6 :: (o :: os) ++ header ++ body =
              (tid :: 6 :: o :: firstn (Z.to_nat o) (os ++ header)) ++ left ++ body).
  { unfold left. cbn [app]. do 3 f_equal. rewrite app_assoc.
    rewrite <- (firstn_skipn (Z.to_nat o) (os ++ header)) at 1. rewrite <- app_assoc. reflexivity. }
  exists (tid :: 6 :: o :: firstn (Z.to_nat o) (os ++ header)), left. split; [exact X|]. split.
  - rewrite X. unfold extract_push_notification. cbn [app].
    match goal with |- context [py_to (py_from (tid :: 6 :: o :: ?y) 1) 2] =>
      replace (py_to (py_from (tid :: 6 :: o :: y) 1) 2) with [6; o] by reflexivity end.
    cbn [Z.eqb Pos.eqb negb]. f_equal.
    match goal with |- py_from (tid :: 6 :: o :: ?y ++ ?z) _ = _ =>
      change (tid :: 6 :: o :: y ++ z) with ((tid :: 6 :: o :: y) ++ z) end.
    apply py_from_app. unfold zlen. cbn [length]. rewrite firstn_length, app_length. lia.
  - unfold left. split.
    + intros E. apply (f_equal (@length Z)) in E. rewrite skipn_length, app_length in E. cbn [length] in E. lia.
    + intros L. apply skipn_all2. rewrite app_length. lia.
Qed.
Print Assumptions C81_exact.

(** C81: a notification in a push unit whose headers take at most 128 octets,
    cut anyhow into short messages: the joined texts are recognised and read, and
    the test for MMS notifications holds when sender and location are given. *)
Theorem C81_notification_partial : forall header body push fs pdus pieces strict,
  Push header body push -> n_octets header <= 128 ->
  Sequence Read_field fs body ->
  Forall2 carries pdus pieces -> concat pieces = push ->
  exists ds m, Forall2 (fun pdu d => new_deliver pdu strict = Ok d) pdus ds /\
    is_a_wap_push_notification (joined_text ds) = true /\
    extract_push_notification (joined_text ds) = Ok m /\ shows_message fs [] m /\
    (is_mms_notification m = true <->
       In (str "From") (map fst fs) /\ In (str "Content-Location") (map fst fs)).
Proof.
  intros header body push fs pdus pieces strict HP Hh Hf Hc Ec.
  destruct (carried pdus pieces strict Hc) as (ds & Fd & Ej). rewrite Ec in Ej.
  destruct (C75_bare_partial fs body Hf) as (m & Em & Hm).
  exists ds, m. split; [exact Fd|]. rewrite Ej.
  destruct (C81_exact header body push HP) as (front & left & _ & Ex & El).
  split; [destruct HP; reflexivity|]. rewrite Ex, (proj2 El Hh).
  split; [exact Em|split; [exact Hm|]].
  rewrite C63_is_mms, !(shown_header fs [] m) by (exact Hm || reflexivity). tauto.
Qed.
Print Assumptions C81_notification_partial.

(** A notification in two short messages. *)
Definition push_case : list Z := 1 :: 6 :: uintvar_octets [] 4 ++ [3; 190; 175; 132] ++ notification_octets.
Definition push_piece (i : Z) (piece : list Z) : list Z :=
  hex_of (case_octets 0x44 4 (12 + zlen piece)
    ([11; 0; 3; 9; 2; i; 5; 4; 11; 132; 35; 240] ++ piece)).
Lemma push_piece_carries : forall i piece, 0 <= i < 256 ->
  forallb (fun b => (0 <=? b) && (b <? 256)) piece = true -> zlen piece <= 128 ->
  carries (push_piece i piece) piece.
Proof.
  intros i piece Hi Hp Hl.
  assert (Ho : Forall octet piece).
  { apply Forall_forall. intros b Hb. rewrite forallb_forall in Hp. specialize (Hp b Hb).
    unfold octet. lia. }
  pose proof (zlen_nonneg piece) as Hz.
  exists (Some [(0, [9; 2; i]); (5, [11; 132; 35; 240])]), (12 + zlen piece),
    ([11; 0; 3; 9; 2; i; 5; 4; 11; 132; 35; 240] ++ piece). eexists. split; [|split].
  - apply (case_delivers 4 0x44 4); [reflexivity|left; cbn; repeat split; lia|reflexivity].
  - pose proof (dud_8bit [(0, [9; 2; i]); (5, [11; 132; 35; 240])] piece) as X.
    cbn [serial app length Z.of_nat Pos.of_succ_nat Pos.succ] in X. cbn [app].
    unfold zlen in *. replace (12 + Z.of_nat (length piece)) with
      (Z.of_nat (12 + length piece)) by lia.
    apply X; [|exact Ho|lia].
    repeat constructor; unfold octet; cbn; try lia; intros; discriminate.
  - apply reads_hex_of. unfold case_octets, deliver_octets. cbn [app].
    repeat (apply Forall_cons; [unfold octet; lia|]). exact Ho.
Qed.
Example C81_case :
  Push [3; 190; 175; 132] notification_octets push_case /\ zlen push_case = 80 /\
  carries (push_piece 1 (firstn 50 push_case)) (firstn 50 push_case) /\
  carries (push_piece 2 (skipn 50 push_case)) (skipn 50 push_case) /\
  In (str "From") (map fst notification_fields) /\
  In (str "Content-Location") (map fst notification_fields).
Proof.
  split; [|split; [|split; [|split]]].
  - apply (push _ _ 1 [] 4); [lia|constructor|unfold digit128; lia|exact I|reflexivity].
  - vm_compute. reflexivity.
  - apply push_piece_carries; [lia|vm_compute; reflexivity|vm_compute; discriminate].
  - apply push_piece_carries; [lia|vm_compute; reflexivity|vm_compute; discriminate].
  - vm_compute. tauto.
Qed.

(** C81 is false of push units with longer headers. *)
Theorem C81_header_refuted : forall header body push,
  Push header body push -> 128 < n_octets header ->
  exists front left, push = front ++ left ++ body /\ left <> [] /\
    extract_push_notification push = decode_data (left ++ body).
Proof.
  intros header body push HP Hh. destruct (C81_exact header body push HP) as (front & left & E & Ex & El).
  exists front, left. split; [exact E|]. split; [|exact Ex]. intros X. apply (proj1 El) in X. lia.
Qed.
Print Assumptions C81_header_refuted.

(** So the type of a notification is lost that would be read after shorter
    headers: here the rest of a header swallows the first field. *)
Definition long_header : list Z := [3; 190; 175; 132] ++ (129 :: repeat 97 140 ++ [0]).
Example C81_header_case : exists push m,
  Push long_header notification_octets push /\ n_octets long_header = 146 /\
  last_value (str "Message-Type") notification_fields = Some (Text (str "m-notification-ind")) /\
  extract_push_notification push = Ok m /\
  h_get (str "Message-Type") (m_headers m) = Some (HStr (str "m-send-req")).
Proof.
  eexists. eexists. split; [|split; [reflexivity|split; [|split]]].
  - apply (push _ _ 1 [1] 18); [lia|repeat constructor; lia|unfold digit128; lia|cbn; lia|reflexivity].
  - vm_compute. reflexivity.
  - vm_compute. reflexivity.
  - vm_compute. reflexivity.
Qed.
