(** Facts about message bodies. *)
From Coq Require Import Lia ZifyBool ZifyNat.
From Verif Require Import Py Iter Tables WspDec WspEnc Message MmsEnc MmsDec
  SpecWsp WspClaims MmsClaims PyFacts IterFacts WspFacts MmsTotal ContentFacts HeaderFacts
  DeliverFacts MsgHeaderFacts.
Open Scope Z_scope.

(** * Headers of parts *)

Definition part_run (name : list Z) (v : hval) (bytes : list Z) : Prop :=
  wsp_encode_header name v = Ok (ints bytes) /\ Forall is_octet bytes /\ bytes <> [] /\
  forall rest, wp decode_header (bytes ++ rest) 0 (becomes (name, v) rest).

Lemma index_of_none : forall s l, ~ In s l -> index_of s l = None.
Proof.
  intros s l H. destruct (index_of s l) as [i|] eqn:E; [|reflexivity].
  destruct (index_of_nth _ _ _ E) as (Hi & <-). exfalso. apply H. apply nth_In. unfold zlen in Hi. lia.
Qed.

Lemma header_names_12 : get_header_field_names (str "1.2") = Ok (firstn 56 header_field_names).
Proof. vm_compute. reflexivity. Qed.

Lemma well_known_header_run : forall i name s rest,
  25 <= i < 56 -> nth_error (firstn 56 header_field_names) (Z.to_nat i) = Some name ->
  header_field_encoding name = OtherValue -> plain_text s ->
  wp decode_header ((128 + i) :: encode_text_string s ++ rest) 0 (becomes (name, HStr s) rest).
Proof.
  intros i name s rest Hi En He [Hs1 Hs2]. unfold decode_header. apply wp_refused_catch.
  - unfold decode_mms_header. wsteps. unfold decode_short_integer_from_byte.
    rewrite land_128 by lia. replace (128 + i <? 128) with false by lia.
    rewrite land_127. replace ((128 + i) mod 128) with i by lia.
    assert (D : d_get Z.eqb i mms_field_names = None).
    { apply d_get_None; [apply Z.eqb_eq|]. cbn [mms_field_names map fst In]. lia. }
    rewrite D. wsteps. repeat split.
  - unfold wsp_decode_header. apply wp_becomes_catch. unfold decode_well_known_header.
    eapply wp_seq; [apply decode_short_integer_run; lia|].
    rewrite header_names_12. replace (128 + i - 128) with i by lia.
    wsteps. rewrite En, He. eapply wp_seq; [apply wp_map_becomes; apply decode_text_string_run; auto|].
    wsteps. apply becomes_intro.
Qed.

Lemma accept_header_run : forall s, plain_media s -> exists bytes, encode_constrained_media s = Ok bytes /\
  Forall is_octet bytes /\
  forall rest, wp decode_header (128 :: bytes ++ rest) 0 (becomes (str "Accept", HStr s) rest).
Proof.
  intros s Hs. destruct (constrained_media_run s Hs) as (b & E & Ho & Hr).
  exists b. split; [exact E|]. split; [exact Ho|]. intros rest.
  unfold decode_header. apply wp_refused_catch.
  - unfold decode_mms_header. wsteps.
    unfold decode_short_integer_from_byte. change (Z.land 128 128 =? 0) with false. cbv iota.
    change (d_get Z.eqb (Z.land 128 127) mms_field_names) with (@None (list Z * mtype)).
    wsteps. repeat split.
  - unfold wsp_decode_header. apply wp_becomes_catch. unfold decode_well_known_header.
    eapply wp_seq; [apply decode_short_integer_run; lia|].
    rewrite header_names_12. change (Z.to_nat (128 - 128)) with 0%nat.
    apply wp_bind, wp_lift. cbn [header_field_names firstn nth_error].
    change (header_field_encoding (str "Accept")) with AcceptValue. cbv iota.
    eapply wp_seq; [apply wp_map_becomes; unfold decode_accept_value; apply wp_becomes_catch, Hr|].
    wsteps. apply becomes_intro.
Qed.

Lemma part_application : forall name s, application_name name ->
  ~ In name (firstn 56 header_field_names) -> plain_text s -> part_header name (HStr s).
Proof.
  intros name s H1 H2 H3. apply ph_token; auto. exact (proj2 (application_other name s H1 H3)).
Qed.

Lemma part_header_run : forall name v, part_header name v -> exists bytes, part_run name v bytes.
Proof.
  intros name v H. destruct H as [name s Hi Hn Hs|s Hs|name s Hi Hp Hs].
  - exists (encode_text_string name ++ encode_text_string s).
    pose proof Hn as (Ht & _). split; [|split; [|split]].
    + unfold wsp_encode_header. rewrite header_names_12. cbn [bind].
      rewrite index_of_none by exact Hi.
      rewrite encode_token_text_spec, no_separator by (eapply Forall_impl; [|exact Ht]; cbv beta; tauto).
      cbn [bind].
      assert (He : header_field_encoding name = OtherValue).
      { unfold header_field_encoding.
        destruct (leqb name (str "Accept")) eqn:E1.
        { apply leqb_eq in E1. subst. exfalso. apply Hi. vm_compute. auto. }
        destruct (leqb name (str "Pragma")) eqn:E2; [|reflexivity].
        apply leqb_eq in E2. subst. exfalso. apply Hi. vm_compute. auto 40. }
      rewrite He. cbn [encode_text_string_h encode_text_string_p HStr bind]. unfold ints.
      rewrite (map_app EInt (encode_text_string name)). reflexivity.
    + apply Forall_app. split; apply no_nul_octets; [|apply Hs].
      eapply Forall_impl; [|exact Ht]. cbv beta. tauto.
    + unfold encode_text_string. destruct name; discriminate.
    + intros rest. rewrite <- app_assoc. apply other_header_run; [exact Hn|exact Hs].
  - destruct (accept_header_run s Hs) as (b & E & Ho & Hr). exists (128 :: b).
    split; [|split; [|split; [discriminate|exact Hr]]].
    + unfold wsp_encode_header. rewrite header_names_12. cbn [bind].
      change (index_of (str "Accept") (firstn 56 header_field_names)) with (Some 0).
      change (encode_short_integer 0) with (Ok [128]). cbn [bind].
      change (header_field_encoding (str "Accept")) with AcceptValue.
      cbn [encode_accept_value HStr]. rewrite E. reflexivity.
    + constructor; [unfold is_octet; lia|exact Ho].
  - assert (X : forall n i, In n (skipn 25 (firstn 56 header_field_names)) ->
              index_of n (firstn 56 header_field_names) = Some i -> 25 <= i < 56).
    { intros n i Hn E.
      assert (G : Forall (fun n => match index_of n (firstn 56 header_field_names) with
                            | Some i => (25 <=? i) && (i <? 56) = true | None => False end)
                   (skipn 25 (firstn 56 header_field_names))).
      { vm_compute. repeat constructor. }
      rewrite Forall_forall in G. specialize (G n Hn). rewrite E in G. lia. }
    destruct (index_of_In name (firstn 56 header_field_names)) as (i & Ei).
    { rewrite <- (firstn_skipn 25 (firstn 56 header_field_names)). apply in_or_app. right. exact Hi. }
    specialize (X name i Hi Ei). destruct (index_of_nth _ _ _ Ei) as (Hi' & En').
    assert (En : nth_error (firstn 56 header_field_names) (Z.to_nat i) = Some name)
      by (rewrite <- En'; apply nth_error_nth'; unfold zlen in Hi'; lia).
    assert (He : header_field_encoding name = OtherValue).
    { unfold header_field_encoding.
      destruct (leqb name (str "Accept")) eqn:E1.
      { apply leqb_eq in E1. rewrite E1 in Ei.
        assert (Some 0 = Some i) by (rewrite <- Ei; vm_compute; reflexivity).
        assert (i = 0) by congruence. lia. }
      destruct (leqb name (str "Pragma")) eqn:E2; [|reflexivity].
      apply leqb_eq in E2. congruence. }
    exists ((128 + i) :: encode_text_string s). split; [|split; [|split]].
    + unfold wsp_encode_header. rewrite header_names_12. cbn [bind]. rewrite Ei.
      rewrite encode_short_integer_ok by lia. cbn [bind]. rewrite He. reflexivity.
    + constructor; [unfold is_octet; lia|]. apply no_nul_octets, Hs.
    + discriminate.
    + intros rest. apply well_known_header_run; auto.
Qed.

Definition pentry_run (e : list Z * hval) (b : list Z) : Prop := part_run (fst e) (snd e) b.

Lemma decode_header_end : wp decode_header [] 0
  (fun r l p => r = Err StopIteration /\ l = [] /\ p = 0%nat).
Proof.
  unfold decode_header. apply wp_catch. unfold decode_mms_header. wsteps. auto.
Qed.

Lemma part_header_loop_run : forall L bss, Forall2 pentry_run L bss ->
  forall fuel d, (length L < fuel)%nat ->
  wp (part_header_loop fuel d) (concat bss) 0 (becomes (sets L d) []).
Proof.
  intros L bss H. induction H as [|e b L bss He _ IH]; intros fuel d Hf;
    (destruct fuel as [|f]; [cbn in Hf; lia|]); cbn [part_header_loop];
    (eapply wp_then with (m := decode_header)
      (j := fun r => match r with
                     | Ok (h, v) => part_header_loop f (d_set leqb h v d)
                     | Err StopIteration => st_ret d
                     | Err e => st_err e
                     end);
     [intros it; destruct (decode_header it) as [[[h x]|x] it']; [|destruct x]; reflexivity|]).
  - eapply wp_mono; [apply decode_header_end|]. intros r l p (-> & -> & ->). wsteps.
    apply becomes_intro.
  - destruct He as (_ & _ & _ & Hw). cbn [concat]. eapply wp_mono; [apply Hw|].
    intros r l' p' (-> & -> & ->). destruct e as [k x]. cbn [fst snd].
    apply IH. cbn in Hf. lia.
Qed.

Lemma Forall2_pruns : forall L bss, Forall2 pentry_run L bss ->
  (length L <= length (concat bss))%nat /\ Forall is_octet (concat bss).
Proof.
  intros L bss H. induction H as [|e b L bss (_ & Ho & Hb & _) _ (IH & IHo)].
  - split; [cbn; lia|constructor].
  - cbn [concat length]. rewrite app_length. split.
    + destruct b; [congruence|cbn; lia].
    + apply Forall_app. auto.
Qed.

Lemma decode_part_headers_run : forall media cb L bss,
  (forall rest, wp decode_content_type_value (cb ++ rest) 0 (becomes (media, []) rest)) ->
  Forall2 pentry_run L bss ->
  decode_part_headers (cb ++ concat bss) =
  Ok ([], sets L [(str "Content-Type", HType media [])]).
Proof.
  intros media cb L bss Hc HF. unfold decode_part_headers.
  match goal with |- fst (?m _) = _ =>
    destruct (wp_fst _ m (cb ++ concat bss)
      (becomes ([], sets L [(str "Content-Type", HType media [])]) [])) as (r & l & p & E & -> & _) end;
    [|exact E].
  eapply wp_seq; [apply Hc|]. cbv beta iota.
  eapply wp_seq; [|wsteps; apply becomes_intro].
  apply wp_fuelled. apply part_header_loop_run; [exact HF|].
  pose proof (proj1 (Forall2_pruns _ _ HF)). lia.
Qed.

Lemma part_headers_encode : forall l,
  Forall (fun e => leqb (fst e) (str "Content-Type") = true \/ exists b, pentry_run e b) l ->
  exists bss, Forall2 pentry_run
      (filter (fun e => negb (leqb (fst e) (str "Content-Type"))) l) bss /\
    exists hs, mapM (fun h => if leqb (fst h) (str "Content-Type") then Ok []
                    else wsp_encode_header (fst h) (snd h)) l = Ok hs /\
      concat hs = ints (concat bss).
Proof.
  induction l as [|e l IH]; intros H.
  - exists []. split; [constructor|]. exists []. split; reflexivity.
  - destruct (IH (Forall_inv_tail H)) as (bss & HF & hs & E & Ec). cbn [mapM filter].
    rewrite E. destruct (Forall_inv H) as [C|(b & Hr)].
    + rewrite C. cbn [negb bind]. exists bss. split; [exact HF|].
      exists ([] :: hs). split; [reflexivity|exact Ec].
    + destruct (leqb (fst e) (str "Content-Type")) eqn:C; cbn [negb bind].
      * exists bss. split; [exact HF|]. exists ([] :: hs). split; [reflexivity|exact Ec].
      * exists (b :: bss). split; [constructor; assumption|].
        rewrite (proj1 Hr). cbn [bind]. exists (ints b :: hs). split; [reflexivity|].
        cbn [concat]. rewrite Ec. unfold ints. symmetry. apply map_app.
Qed.

Lemma zlen_ints : forall l, zlen (ints l) = zlen l.
Proof. intros l. unfold zlen, ints. rewrite map_length. reflexivity. Qed.

(** Reading length and content. *)
Lemma holds_read : forall w p data, holds w p data ->
  exists p1 p2, part_len w p = (Ok (zlen data), p1) /\ get_data w p1 = (Ok data, p2) /\
    holds w p2 data /\ dp_headers p2 = dp_headers p /\ dp_filename p2 = dp_filename p.
Proof.
  intros w p data H. pose proof H as H0. destruct H as [Hf Hd|f Hf Hw Hd].
  - exists p, p. unfold part_len, get_data, st_bind, st_get, st_ret. rewrite Hf, Hd. auto.
  - unfold part_len, st_bind, st_get, st_ret. rewrite Hf, Hw. exists p.
    unfold get_data, st_bind, st_get, st_ret, st_err, st_upd.
    destruct Hd as [Hd|Hd]; rewrite Hd.
    + rewrite Hf, Hw. eexists. repeat split; try reflexivity; [|exact Hf].
      eapply holds_file; cbn; eauto.
    + exists p. auto.
Qed.

Lemma zlen_uint_var_pos : forall n, 0 <= n -> encode_uint_var n <> [].
Proof.
  intros n H E. destruct (encode_uint_var_spec n H) as (ds & d & E2 & _).
  rewrite E in E2. destruct ds; discriminate.
Qed.

Lemma part_roundtrip : forall w p data, any_order w -> part_sendable p -> holds w p data ->
  exists bytes p1 p', encode_part w p = (Ok bytes, p1) /\ bytes <> [] /\
    dp_headers p1 = dp_headers p /\ holds w p1 data /\ arrives (dp_headers p) data p' /\
    dp_params p' = [] /\
    (zlen bytes <= maxint -> forall rest, wp decode_part (bytes ++ rest) 0 (becomes p' rest)).
Proof.
  intros w p data Hw (Hd & (v & Ev & media & -> & Hm) & Hs) Hh.
  destruct (content_type_value_run media Hm) as (l & cb & Ect & -> & Hco & Hcr).
  destruct (part_headers_encode (w_order w (dp_headers p))) as (bss & HF & hs & Ehs & Ec).
  { apply Forall_forall. intros [k x] He. apply (Permutation_in _ (Hw (dp_headers p))) in He.
    apply (h_get_In _ k x Hd) in He. cbn [fst].
    destruct (leqb k (str "Content-Type")) eqn:C; [left; reflexivity|right].
    assert (Hk : k <> str "Content-Type") by (intros ->; rewrite leqb_refl in C; discriminate).
    destruct (part_header_run k x (Hs k x He Hk)) as (b & Hb). exists b. exact Hb. }
  destruct (holds_read w p data Hh) as (p1 & p2 & E1 & E2 & Hh2 & Eh2 & Ef2).
  set (L := filter (fun e => negb (leqb (fst e) (str "Content-Type"))) (w_order w (dp_headers p))) in *.
  destruct (Forall2_pruns _ _ HF) as (Hlen & Ho).
  pose (hb := cb ++ concat bss).
  pose (bytes := encode_uint_var (zlen hb) ++ encode_uint_var (zlen data) ++ hb ++ data).
  exists bytes, p2, (Part (sets L [(str "Content-Type", HType media [])]) [] None (Some data)).
  assert (Hne : bytes <> []).
  { unfold bytes. intros X. apply app_eq_nil in X. destruct X as (X & _).
    revert X. apply zlen_uint_var_pos. apply zlen_nonneg. }
  split; [|split; [exact Hne|split; [exact Eh2|split; [exact Hh2|split; [|split; [reflexivity|]]]]]].
  - unfold encode_part. unfold st_bind at 1, st_get at 1. rewrite Ev.
    cbn [unpack_type]. unfold st_lift, st_bind, st_ret. rewrite Ect, Ehs, Ec, E1.
    rewrite !array_of_ints by assumption. rewrite E2. unfold bytes, hb.
    rewrite !zlen_ints, zlen_app, <- !app_assoc. reflexivity.
  - split; [reflexivity|]. split; [reflexivity|]. cbn [dp_headers].
    assert (Hp : forall e, In e L <-> In e (dp_headers p) /\
                 negb (leqb (fst e) (str "Content-Type")) = true)
      by (intros e; apply filter_In_perm; apply Hw).
    intros k. change (sets L [(str "Content-Type", HType media [])])
      with (sets ((str "Content-Type", HType media []) :: L) []).
    apply (sets_spec (fun k => h_get k (dp_headers p))).
    + intros e [<-|He]; [exact Ev|]. apply Hp in He. destruct e as [k' x'].
      apply h_get_In; [exact Hd|apply He].
    + intros k' x' E. destruct (leqb k' (str "Content-Type")) eqn:C.
      * apply leqb_eq in C. subst. left. congruence.
      * right. apply Hp. split; [apply h_get_In in E; assumption|]. cbn [fst]. rewrite C. reflexivity.
    + reflexivity.
  - intros Hmax rest. unfold decode_part, bytes. rewrite <- !app_assoc.
    assert (Hz : zlen hb <= maxint /\ zlen data <= maxint).
    { unfold bytes in Hmax. rewrite !zlen_app in Hmax.
      pose proof (zlen_nonneg (encode_uint_var (zlen hb))).
      pose proof (zlen_nonneg (encode_uint_var (zlen data))).
      pose proof (zlen_nonneg hb). pose proof (zlen_nonneg data). lia. }
    eapply wp_seq; [apply uint_var_run; apply zlen_nonneg|].
    eapply wp_seq; [apply uint_var_run; apply zlen_nonneg|].
    eapply wp_seq; [apply read_n_run; apply Hz|].
    unfold hb at 1. rewrite (decode_part_headers_run media cb L bss Hcr HF). wsteps.
    eapply wp_mono; [apply read_n_run; apply Hz|].
    intros r l' p' (-> & -> & ->). wsteps. apply becomes_intro.
Qed.

(** * Slides *)

Definition transmits (w : world) (p : part) (run : list Z * part) : Prop :=
  fst run <> [] /\ delivers w p (snd run) /\ dp_params (snd run) = [] /\
  (zlen (fst run) <= maxint ->
   forall rest, wp decode_part (fst run ++ rest) 0 (becomes (snd run) rest)).

Definition can_send (w : world) (p : part) : Prop :=
  part_sendable p /\ exists data, holds w p data.

Definition parts_of (s : slot) : list part :=
  match s with Some (p, _, _) => [p] | None => [] end.

Lemma slot_run : forall w s, any_order w -> Forall (can_send w) (parts_of s) ->
  exists rs s', encode_slot w s = (Ok (concat (map fst rs)), s') /\
    Forall2 (transmits w) (parts_of s) rs.
Proof.
  intros w s Hw H. destruct s as [[[p tb] te]|].
  - destruct (Forall_inv H) as (Hp & data & Hh).
    destruct (part_roundtrip w p data Hw Hp Hh) as (b & p1 & p' & E & Hb & _ & _ & Ha & Hps & Hr).
    exists [(b, p')]. eexists. split.
    + unfold encode_slot. rewrite E. cbn [map concat fst]. rewrite app_nil_r. reflexivity.
    + constructor; [|constructor]. split; [exact Hb|]. split; [|auto].
      exists data. auto.
  - exists [], None. split; [reflexivity|constructor].
Qed.

Definition page_parts (g : page) : list part :=
  parts_of (pg_image g) ++ parts_of (pg_audio g) ++ parts_of (pg_text g).

Lemma page_parts_slots : forall g, map (fun s => fst (fst s)) (page_slots g) = page_parts g.
Proof.
  intros [d i a t]. unfold page_parts, page_slots. cbn.
  destruct i as [[[? ?] ?]|], a as [[[? ?] ?]|], t as [[[? ?] ?]|]; reflexivity.
Qed.

Lemma page_run : forall w g, any_order w -> Forall (can_send w) (page_parts g) ->
  exists rs g', encode_page w g = (Ok (concat (map fst rs)), g') /\
    Forall2 (transmits w) (page_parts g) rs.
Proof.
  intros w [d i a t] Hw H. unfold page_parts in *. cbn [pg_image pg_audio pg_text] in *.
  rewrite !Forall_app in H. destruct H as (Hi & Ha & Ht).
  destruct (slot_run w i Hw Hi) as (r1 & i' & E1 & F1).
  destruct (slot_run w a Hw Ha) as (r2 & a' & E2 & F2).
  destruct (slot_run w t Hw Ht) as (r3 & t' & E3 & F3).
  exists (r1 ++ r2 ++ r3). eexists. split.
  - unfold encode_page. cbn [pg_image pg_audio pg_text pg_duration]. rewrite E1, E2, E3.
    rewrite !map_app, !concat_app. reflexivity.
  - repeat apply Forall2_app; assumption.
Qed.

Lemma pages_run : forall w gs, any_order w -> Forall (can_send w) (flat_map page_parts gs) ->
  exists rs gs', encode_pages w gs = (Ok (concat (map fst rs)), gs') /\
    Forall2 (transmits w) (flat_map page_parts gs) rs.
Proof.
  intros w gs Hw. induction gs as [|g gs IH]; intros H.
  - exists [], []. split; [reflexivity|constructor].
  - cbn [flat_map] in H. rewrite Forall_app in H. destruct H as (Hg & Hgs).
    destruct (page_run w g Hw Hg) as (r1 & g' & E1 & F1).
    destruct (IH Hgs) as (r2 & gs' & E2 & F2).
    exists (r1 ++ r2), (g' :: gs'). split.
    + cbn [encode_pages]. rewrite E1, E2, map_app, concat_app. reflexivity.
    + cbn [flat_map]. apply Forall2_app; assumption.
Qed.

Lemma slide_parts_pages : forall m, slide_parts m = flat_map page_parts (m_pages m).
Proof.
  intros m. unfold slide_parts. induction (m_pages m) as [|g gs IH]; [reflexivity|].
  cbn [flat_map]. rewrite map_app, IH, page_parts_slots. reflexivity.
Qed.

Lemma entries_count : forall m, num_entries m = 1 + zlen (slide_parts m) + zlen (m_parts m).
Proof.
  intros m. unfold num_entries, slide_parts. f_equal. generalize 1 as n.
  induction (m_pages m) as [|g gs IH]; intros n.
  - cbn. unfold zlen. cbn. lia.
  - cbn [fold_left flat_map]. rewrite IH, map_app, zlen_app. unfold number_of_parts, zlen.
    rewrite !map_length. lia.
Qed.

(** * Bodies *)

Lemma parts_loop_run : forall w ps rs, Forall2 (transmits w) ps rs ->
  zlen (concat (map fst rs)) <= maxint ->
  forall fuel rest, (length rs <= fuel)%nat ->
  wp (parts_loop fuel (zlen rs)) (concat (map fst rs) ++ rest) 0 (becomes (map snd rs) rest).
Proof.
  intros w ps rs H. induction H as [|p r ps rs Hr _ IH]; intros Hm fuel rest Hf.
  - cbn [map concat app]. change (zlen (@nil (list Z * part))) with 0.
    destruct fuel; cbn; apply wp_ret; apply becomes_intro.
  - cbn [map concat] in *. rewrite zlen_app in Hm.
    pose proof (zlen_nonneg (fst r)). pose proof (zlen_nonneg (concat (map fst rs))).
    destruct fuel as [|f]; [cbn in Hf; lia|].
    rewrite zlen_cons. pose proof (zlen_nonneg rs). cbn [parts_loop].
    replace (0 <? 1 + zlen rs) with true by lia.
    replace (1 + zlen rs - 1) with (zlen rs) by lia.
    destruct Hr as (_ & _ & _ & Hw). rewrite <- app_assoc.
    eapply wp_seq; [apply Hw; lia|].
    eapply wp_seq; [apply IH; [lia|cbn in Hf; lia]|]. wsteps. apply becomes_intro.
Qed.

Lemma transmits_length : forall w ps rs, Forall2 (transmits w) ps rs ->
  (length rs <= length (concat (map fst rs)))%nat.
Proof.
  intros w ps rs H. induction H as [|p r ps rs Hr _ IH]; [cbn; lia|].
  cbn [map concat length]. rewrite app_length. destruct Hr as (Hr & _).
  destruct (fst r); [congruence|cbn; lia].
Qed.

Lemma body_decode_run : forall w ps rs, Forall2 (transmits w) ps rs ->
  zlen (concat (map fst rs)) <= maxint ->
  forall rest, wp decode_message_body
    ((encode_uint_var (zlen rs) ++ concat (map fst rs)) ++ rest) 0
    (becomes (map snd rs) rest).
Proof.
  intros w ps rs H Hm rest. pose proof (transmits_length w ps rs H) as Hl.
  eapply wp_then with (m := decode_uint_var)
    (j := fun r => match r with
                   | Err StopIteration => st_ret []
                   | Err e => st_err e
                   | Ok n => _ <~ xrange_check n ;; fuelled (fun f => parts_loop f n)
                   end).
  - intros it. unfold decode_message_body.
    destruct (decode_uint_var it) as [[n|e] it']; [reflexivity|destruct e; reflexivity].
  - rewrite <- app_assoc.
    eapply wp_mono; [apply uint_var_run; apply zlen_nonneg|]. intros r l p (-> & -> & ->).
    assert (Hx : zlen rs <= maxint) by (unfold zlen in *; lia).
    unfold xrange_check. replace (maxint <? zlen rs) with false by lia. wsteps.
    eapply parts_loop_run; [exact H|exact Hm|].
    rewrite app_length. lia.
Qed.

(** The SMIL part can be sent. *)
Lemma smil_part_headers : forall text, dp_headers (smil_part text) =
  [(str "Content-Type", HType (str "application/smil") []);
   (str "Content-ID", HStr (str "<0000>"))].
Proof. reflexivity. Qed.

Lemma smil_sendable : forall w text, part_sendable (smil_part text) /\ holds w (smil_part text) text.
Proof.
  intros w text. split; [|apply holds_string; reflexivity].
  split; [|split].
  - rewrite smil_part_headers. repeat constructor; cbn [In fst map]; intros Y;
      repeat destruct Y as [Y|Y]; try discriminate Y; try contradiction.
  - eexists. split; [reflexivity|]. eexists. split; [reflexivity|].
    right. let v := eval vm_compute in (str "application/smil") in
      change (str "application/smil") with v.
    split; [repeat constructor; lia|cbn; lia].
  - intros k v E Hk. rewrite smil_part_headers in E. unfold h_get in E. cbn [d_get] in E.
    destruct (leqb k (str "Content-Type")) eqn:C; [apply leqb_eq in C; congruence|].
    destruct (leqb k (str "Content-ID")) eqn:C2; [|discriminate].
    apply leqb_eq in C2. subst k. injection E as <-. apply part_application.
    + split; [|split].
      * split; [discriminate|]. let v := eval vm_compute in (str "Content-ID") in
          change (str "Content-ID") with v.
        repeat constructor; try lia; vm_compute; intuition discriminate.
      * cbn. repeat constructor; lia.
      * intros H. vm_compute in H. intuition discriminate.
    + intros H. vm_compute in H. intuition discriminate.
    + split; [|cbn; lia]. repeat constructor; discriminate.
Qed.

Lemma Forall2_same_length : forall A B (P : A -> B -> Prop) l l', Forall2 P l l' -> length l = length l'.
Proof. intros A B P l l' H. induction H; cbn; congruence. Qed.

(** The body of a message. *)
Lemma message_body_run : forall render w m text, any_order w -> slides_sendable w m ->
  smil render w m = Ok text ->
  exists bytes m' rs,
    encode_message_body render w m = (Ok bytes, m') /\
    Forall2 (transmits w) (smil_part text :: slide_parts m) rs /\
    bytes = encode_uint_var (zlen rs + zlen (m_parts m)) ++ concat (map fst rs).
Proof.
  intros render w m text Hw Hs Et.
  destruct (smil_sendable w text) as (Hsp & Hsh).
  destruct (part_roundtrip w _ _ Hw Hsp Hsh) as (b & p1 & p' & E & Hb & _ & _ & Ha & Hps & Hr).
  unfold slides_sendable in Hs. rewrite slide_parts_pages in Hs.
  destruct (pages_run w (m_pages m) Hw Hs) as (rs & gs' & E2 & F2).
  rewrite <- slide_parts_pages in F2.
  eexists. eexists. exists ((b, p') :: rs).
  assert (F : Forall2 (transmits w) (smil_part text :: slide_parts m) ((b, p') :: rs)).
  { constructor; [|exact F2]. split; [exact Hb|]. split; [|auto]. exists text. auto. }
  split; [|split; [exact F|reflexivity]].
  unfold encode_message_body, st_bind, st_get, st_lift. rewrite Et. rewrite E. cbn [fst].
  rewrite E2. rewrite entries_count.
  rewrite zlen_cons. cbn [map concat fst].
  replace (zlen (slide_parts m)) with (zlen rs)
    by (unfold zlen; f_equal; symmetry; eapply Forall2_same_length; exact F2).
  reflexivity.
Qed.

(** * Whole messages *)

Lemma smil_with_headers : forall render w h m, smil render w (with_headers h m) = smil render w m.
Proof. reflexivity. Qed.

Lemma message_run : forall render w rand m text,
  is_dict (m_headers m) -> any_order w -> sendable rand (m_headers m) ->
  slides_sendable w m -> smil render w m = Ok text -> m_parts m = [] ->
  exists bytes m1, encode render w rand m = (Ok bytes, m1) /\
    (zlen bytes <= maxint ->
     exists m' sp ps, decode_data bytes = Ok m' /\
       (forall k, h_get k (m_headers m') = sent_headers rand (m_headers m) k) /\
       m_parts m' = sp :: ps /\ arrives (dp_headers (smil_part text)) text sp /\
       Forall2 (delivers w) (slide_parts m) ps).
Proof.
  intros render w rand m text Hd Hw Hs Hsl Et Hp.
  destruct (message_headers_run w rand m Hd Hw Hs) as (hb & d' & E1 & _ & Hr & Hg).
  set (m1 := with_headers _ m) in E1.
  destruct (message_body_run render w m1 text Hw Hsl Et) as (bb & m2 & rs & E2 & HF & Eb).
  change (m_parts m1) with (m_parts m) in Eb. rewrite Hp in Eb.
  change (zlen (@nil part)) with 0 in Eb. rewrite Z.add_0_r in Eb.
  exists (hb ++ bb), m2. split.
  - unfold encode, st_bind, st_ret. rewrite E1, E2. reflexivity.
  - intros Hmax.
    assert (Hm : zlen (concat (map fst rs)) <= maxint).
    { rewrite zlen_app, Eb, zlen_app in Hmax. pose proof (zlen_nonneg hb).
      pose proof (zlen_nonneg (encode_uint_var (zlen rs))). lia. }
    pose proof (body_decode_run w _ rs HF Hm []) as Hb. rewrite app_nil_r, <- Eb in Hb.
    exists (Message d' [] (map snd rs) 176 220).
    assert (D : decode_data (hb ++ bb) = Ok (Message d' [] (map snd rs) 176 220)).
    { unfold decode_data.
      match goal with |- fst (?m _) = _ =>
        destruct (wp_fst _ m (hb ++ bb) (becomes (Message d' [] (map snd rs) 176 220) []))
          as (r & l & p & E & -> & _) end; [|exact E].
      eapply wp_seq; [apply Hr|]. eapply wp_seq; [exact Hb|]. wsteps. apply becomes_intro. }
    inversion HF as [|p0 r0 ps0 rs0 H0 HF0 Ep Er]. subst.
    exists (snd r0), (map snd rs0). split; [exact D|]. split; [exact Hg|]. split; [reflexivity|].
    split.
    + destruct H0 as (_ & (data & Hh & Ha) & _).
      destruct Hh as [_ Hx|f Hx _ _]; [|discriminate Hx].
      assert (data = text) by (cbn in Hx; congruence). subst. exact Ha.
    + change (slide_parts m) with (slide_parts m1).
      clear - HF0. induction HF0 as [|p r ps rs (_ & H & _) _ IH]; constructor; assumption.
Qed.

(** * Messages with attached parts *)

Lemma encode_parts_blind : forall render w rand m ps ps', length ps = length ps' ->
  fst (encode render w rand (with_parts ps m)) = fst (encode render w rand (with_parts ps' m)).
Proof.
  intros render w rand m ps ps' H.
  assert (F : forall ks d q, encode_first ks (Message d (m_pages m) q (m_width m) (m_height m)) =
     (fst (encode_first ks (Message d (m_pages m) [] (m_width m) (m_height m))),
      with_parts q (snd (encode_first ks (Message d (m_pages m) [] (m_width m) (m_height m)))))).
  { induction ks as [|k ks IH]; intros d q; [reflexivity|].
    cbn [encode_first]. unfold st_bind, st_get, st_lift, st_upd, st_ret. cbn [m_headers].
    destruct (encode_entry k d) as [b|e]; [|reflexivity].
    unfold with_headers. cbn [m_headers m_pages m_parts m_width m_height]. rewrite IH.
    destruct (encode_first ks (Message (d_del leqb k d) (m_pages m) [] (m_width m) (m_height m)))
      as [[bs|e] mm]; reflexivity. }
  assert (B : forall q q' mm, length q = length q' ->
     fst (encode_message_body render w (with_parts q mm)) =
     fst (encode_message_body render w (with_parts q' mm))).
  { intros q q' mm Hq. unfold encode_message_body, st_bind, st_get, st_lift.
    change (smil render w (with_parts q mm)) with (smil render w mm).
    change (smil render w (with_parts q' mm)) with (smil render w mm).
    destruct (smil render w mm) as [text|e]; [|reflexivity].
    destruct (fst (encode_part w (smil_part text))) as [a|e]; [|reflexivity].
    unfold with_parts. cbn [m_pages m_headers m_parts m_width m_height].
    destruct (encode_pages w (m_pages mm)) as [[b|e] gs]; [|reflexivity]. cbn [fst].
    rewrite !entries_count. unfold zlen, slide_parts. cbn [m_parts m_pages]. rewrite Hq. reflexivity. }
  unfold encode. unfold st_bind at 1 3.
  assert (G : forall q, encode_message_header w rand (with_parts q m) =
     (fst (encode_message_header w rand (with_parts [] m)),
      with_parts q (snd (encode_message_header w rand (with_parts [] m))))).
  { intros q. unfold encode_message_header, st_bind, st_upd, st_get, st_lift, st_ret.
    unfold with_headers, with_parts. cbn [m_headers m_pages m_parts m_width m_height].
    rewrite (F _ _ q).
    match goal with |- context [encode_first ?ks (Message ?d ?g [] ?a ?b)] =>
      destruct (encode_first ks (Message d g [] a b)) as [[x|e] mm] end; [|reflexivity].
    cbn [fst snd]. change (m_headers (with_parts q mm)) with (m_headers mm).
    destruct (encode_others w (m_headers mm)); [|reflexivity].
    destruct (encode_last (m_headers mm)); reflexivity. }
  rewrite (G ps), (G ps').
  destruct (encode_message_header w rand (with_parts [] m)) as [[h|e] mm]; [|reflexivity].
  cbn [fst snd]. unfold st_bind, st_ret. specialize (B ps ps' mm H).
  destruct (encode_message_body render w (with_parts ps mm)) as [[x|x] ?],
    (encode_message_body render w (with_parts ps' mm)) as [[y|y] ?];
    cbn [fst] in *; congruence.
Qed.

Lemma parts_loop_short : forall w ps rs, Forall2 (transmits w) ps rs ->
  zlen (concat (map fst rs)) <= maxint ->
  forall fuel n, (length rs < fuel)%nat -> zlen rs < n ->
  wp (parts_loop fuel n) (concat (map fst rs)) 0 (fun r _ _ => r = Err StopIteration).
Proof.
  intros w ps rs H. induction H as [|p r ps rs Hr _ IH]; intros Hm fuel n Hf Hn;
    (destruct fuel as [|f]; [lia|]).
  - cbn [map concat app]. change (zlen (@nil (list Z * part))) with 0 in Hn. cbn [parts_loop].
    replace (0 <? n) with true by lia. wsteps. unfold decode_part, decode_uint_var. wsteps.
    reflexivity.
  - cbn [map concat] in *. rewrite zlen_app in Hm. rewrite zlen_cons in Hn.
    pose proof (zlen_nonneg (fst r)). pose proof (zlen_nonneg (concat (map fst rs))).
    pose proof (zlen_nonneg rs). cbn [parts_loop].
    replace (0 <? n) with true by lia.
    destruct Hr as (_ & _ & _ & Hw).
    eapply wp_seq; [apply Hw; lia|]. apply wp_bind.
    eapply wp_mono; [apply IH; [lia|cbn in Hf; lia|lia]|]. intros r' l' p' ->. reflexivity.
Qed.

Lemma message_extra_parts : forall render w rand m text,
  is_dict (m_headers m) -> any_order w -> sendable rand (m_headers m) ->
  slides_sendable w m -> smil render w m = Ok text -> m_parts m <> [] ->
  exists bytes m1, encode render w rand m = (Ok bytes, m1) /\
    (zlen bytes + zlen (m_parts m) <= maxint -> decode_data bytes = Err StopIteration).
Proof.
  intros render w rand m text Hd Hw Hs Hsl Et Hp.
  destruct (message_headers_run w rand m Hd Hw Hs) as (hb & d' & E1 & _ & Hr & Hg).
  set (m1 := with_headers _ m) in E1.
  destruct (message_body_run render w m1 text Hw Hsl Et) as (bb & m2 & rs & E2 & HF & Eb).
  change (m_parts m1) with (m_parts m) in Eb.
  exists (hb ++ bb), m2. split.
  - unfold encode, st_bind, st_ret. rewrite E1, E2. reflexivity.
  - intros Hmax. pose proof (zlen_nonneg (m_parts m)). pose proof (zlen_nonneg rs).
    pose proof (transmits_length w _ rs HF) as Hl.
    assert (Hk : 0 < zlen (m_parts m)) by (destruct (m_parts m); [congruence|rewrite zlen_cons;
      pose proof (zlen_nonneg l); lia]).
    assert (Hm : zlen (concat (map fst rs)) + zlen (m_parts m) <= maxint).
    { rewrite zlen_app, Eb, zlen_app in Hmax. pose proof (zlen_nonneg hb).
      pose proof (zlen_nonneg (encode_uint_var (zlen rs + zlen (m_parts m)))). lia. }
    assert (Hb : wp decode_message_body bb 0 (fun r _ _ => r = Err StopIteration)).
    { eapply wp_then with (m := decode_uint_var)
        (j := fun r => match r with
                   | Err StopIteration => st_ret []
                   | Err e => st_err e
                   | Ok n => _ <~ xrange_check n ;; fuelled (fun f => parts_loop f n)
                   end).
      - intros it. unfold decode_message_body.
        destruct (decode_uint_var it) as [[n|e] it']; [reflexivity|destruct e; reflexivity].
      - rewrite Eb. eapply wp_mono; [apply uint_var_run; lia|]. intros r l p (-> & -> & ->).
        unfold xrange_check.
        replace (maxint <? zlen rs + zlen (m_parts m)) with false by (unfold zlen in *; lia).
        wsteps. eapply parts_loop_short; [exact HF|lia|lia|lia]. }
    unfold decode_data.
    match goal with |- fst (?m _) = _ =>
        destruct (wp_fst _ m (hb ++ bb) (fun r _ _ => r = Err StopIteration))
          as (r & l & p & E & ->) end; [|exact E].
    eapply wp_seq; [apply Hr|]. apply wp_bind. eapply wp_mono; [exact Hb|].
    intros r l p ->. reflexivity.
Qed.

(** * Content-Location of a file part *)

Lemma location_lost : forall s, token_string s -> starts_with (fun c => c < 128) s ->
  wp decode_header (142 :: encode_text_string s) 0 (fun r _ _ => r = Err StopIteration).
Proof.
  intros s Ht Ha. pose proof (token_string_chars s Ht) as [Hne Hch].
  assert (Hc : exists c l, s = c :: l /\ 31 < c < 128).
  { destruct s as [|c l]; [congruence|]. exists c, l. split; [reflexivity|].
    pose proof (proj1 (token_char_iff c) (Forall_inv Hch)). cbn in Ha. lia. }
  destruct Hc as (c & l & Es & Hc).
  assert (Ee : encode_text_string s = c :: l ++ [0]).
  { unfold encode_text_string. rewrite Es. reflexivity. }
  unfold decode_header. apply wp_catch. unfold decode_mms_header. wsteps.
  change (decode_short_integer_from_byte 142) with (Ok 14 : res Z).
  wsteps. change (d_get Z.eqb 14 mms_field_names) with (Some (str "Message-Size", MLong)).
  wsteps.
  eapply wp_then with (m := decode_mms_value MLong)
    (j := fun r => match r with
                   | Ok a => st_ret a
                   | Err DecodeError => st_err DecodeError
                   | Err OutOfFuel => st_err OutOfFuel
                   | Err _ => st_err RuntimeError
                   end).
  { intros it. unfold as_runtime_error.
    destruct (decode_mms_value MLong it) as [[a|e] it']; [reflexivity|]. destruct e; reflexivity. }
  cbn [decode_mms_value]. unfold decode_long_integer. rewrite Ee. apply wp_bind, wp_bind.
  eapply wp_mono; [apply decode_short_length_refuses; lia|].
  intros r l' p' (-> & -> & ->). wsteps. cbn [exn_eqb].
  unfold wsp_decode_header. apply wp_refused_catch.
  - unfold decode_well_known_header. apply wp_bind.
    eapply wp_mono; [apply decode_short_integer_refuses; [reflexivity|lia]|].
    intros r l' p' (-> & -> & ->). repeat split.
  - unfold decode_application_header. rewrite <- Ee.
    rewrite <- (app_nil_r (encode_text_string s)).
    eapply wp_seq; [apply wp_becomes_catch; apply decode_token_text_run; auto|].
    unfold decode_text_string. wsteps. reflexivity.
Qed.

(** A part made from a file arrives without its Content-Location. *)
Lemma file_part_run : forall w p data f base media, any_order w ->
  dp_headers p = [(str "Content-Location", HStr base); (str "Content-Type", HType media [])] ->
  plain_media media -> token_string base -> starts_with (fun c => c < 128) base ->
  dp_filename p = Some f -> holds w p data ->
  exists bytes p1, encode_part w p = (Ok bytes, p1) /\
    (zlen bytes <= maxint -> forall rest, wp decode_part (bytes ++ rest) 0
       (becomes (Part [(str "Content-Type", HType media [])] [] None (Some data)) rest)).
Proof.
  intros w p data f base media Hw Eh Hm Ht Ha Hf Hh.
  destruct (content_type_value_run media Hm) as (l & cb & Ect & -> & Hco & Hcr).
  destruct (holds_read w p data Hh) as (p1 & p2 & E1 & E2 & Hh2 & Eh2 & Ef2).
  pose (lb := 142 :: encode_text_string base).
  pose (hb := cb ++ lb).
  pose (bytes := encode_uint_var (zlen hb) ++ encode_uint_var (zlen data) ++ hb ++ data).
  assert (Hlo : Forall is_octet lb)
    by (constructor; [unfold is_octet; lia|apply token_octets; exact Ht]).
  exists bytes, p2. split.
  - assert (Eo : mapM (fun h => if leqb (fst h) (str "Content-Type") then Ok []
                    else wsp_encode_header (fst h) (snd h)) (w_order w (dp_headers p))
                 = Ok [ints lb; []] \/
                 mapM (fun h => if leqb (fst h) (str "Content-Type") then Ok []
                    else wsp_encode_header (fst h) (snd h)) (w_order w (dp_headers p))
                 = Ok [[]; ints lb]).
    { assert (El : wsp_encode_header (str "Content-Location") (HStr base) = Ok (ints lb)).
      { unfold wsp_encode_header. rewrite header_names_12. cbn [bind].
        replace (index_of (str "Content-Location") (firstn 56 header_field_names)) with (Some 14)
          by (vm_compute; reflexivity).
        rewrite encode_short_integer_ok by lia. cbn [bind].
        change (header_field_encoding (str "Content-Location")) with OtherValue. reflexivity. }
      pose proof (Hw (dp_headers p)) as P. rewrite Eh in *.
      apply Permutation_sym, Permutation_length_2_inv in P.
      destruct P as [P|P]; rewrite P; cbn [mapM fst snd]; keys; rewrite El; [left|right]; reflexivity. }
    assert (Ev : h_get (str "Content-Type") (dp_headers p) = Some (HType media []))
      by (rewrite Eh; reflexivity).
    unfold encode_part. unfold st_bind at 1, st_get at 1. rewrite Ev.
    cbn [unpack_type]. unfold st_lift, st_bind, st_ret. rewrite Ect.
    assert (Ec : forall hs, hs = [ints lb; []] \/ hs = [[]; ints lb] -> concat hs = ints lb)
      by (intros hs [->| ->]; cbn [concat app]; rewrite ?app_nil_r; reflexivity).
    destruct Eo as [-> | ->]; rewrite Ec by auto; rewrite E1;
      rewrite !array_of_ints by assumption; rewrite E2; unfold bytes, hb;
      rewrite !zlen_ints, zlen_app, <- !app_assoc; reflexivity.
  - intros Hmax rest. unfold decode_part, bytes. rewrite <- !app_assoc.
    assert (Hz : zlen hb <= maxint /\ zlen data <= maxint).
    { unfold bytes in Hmax. rewrite !zlen_app in Hmax.
      pose proof (zlen_nonneg (encode_uint_var (zlen hb))).
      pose proof (zlen_nonneg (encode_uint_var (zlen data))).
      pose proof (zlen_nonneg hb). pose proof (zlen_nonneg data). lia. }
    eapply wp_seq; [apply uint_var_run; apply zlen_nonneg|].
    eapply wp_seq; [apply uint_var_run; apply zlen_nonneg|].
    eapply wp_seq; [apply read_n_run; apply Hz|].
    assert (D : decode_part_headers hb = Ok ([], [(str "Content-Type", HType media [])])).
    { unfold decode_part_headers, hb.
      match goal with |- fst (?m _) = _ =>
        destruct (wp_fst _ m (cb ++ lb)
          (fun r _ _ => r = Ok ([], [(str "Content-Type", HType media [])])))
          as (r & l & q & E & ->) end; [|exact E].
      eapply wp_seq; [apply Hcr|]. cbv beta iota. apply wp_bind.
      apply wp_fuelled. cbn [part_header_loop].
      eapply wp_then with (m := decode_header)
        (j := fun r => match r with
                     | Ok (h, v) => part_header_loop (length lb)
                         (d_set leqb h v [(str "Content-Type", HType media [])])
                     | Err StopIteration => st_ret [(str "Content-Type", HType media [])]
                     | Err e => st_err e
                     end);
        [intros it; destruct (decode_header it) as [[[h x]|x] it']; [|destruct x]; reflexivity|].
      eapply wp_mono; [apply location_lost; assumption|]. intros r l q ->. wsteps. reflexivity. }
    rewrite D. wsteps.
    eapply wp_mono; [apply read_n_run; apply Hz|].
    intros r l' p' (-> & -> & ->). wsteps. apply becomes_intro.
Qed.

(** * Where decoded headers come from *)

Lemma remaining_R : forall it l p, R it l p -> remaining it = l.
Proof. intros it l p (E & _). exact E. Qed.

Lemma header_loop_origin : forall data fuel d it l p before, R it l p -> data = before ++ l ->
  (forall k v, h_get k d = Some v -> h_get k default_headers = Some v \/ read_from data k v) ->
  match header_loop fuel d it with
  | (Ok d', _) => forall k v, h_get k d' = Some v ->
      h_get k default_headers = Some v \/ read_from data k v
  | _ => True
  end.
Proof.
  intros data fuel. induction fuel as [|f IH]; intros d it l p before HR Ed Hd; [exact I|].
  cbn [header_loop]. destruct (safe_decode_header l p it HR) as (r & it' & l' & p' & E & HR' & H).
  destruct H as (pre & El & Hk). rewrite E. destruct r as [[h x]|e].
  - assert (Hx : read_from data h x).
    { exists before, pre, l', it, it'. subst. rewrite (remaining_R _ _ _ HR), (remaining_R _ _ _ HR').
      repeat split; auto. intros ->. cbn in Hk. lia. }
    assert (Hd' : forall k v, h_get k (d_set leqb h x d) = Some v ->
              h_get k default_headers = Some v \/ read_from data k v).
    { intros k v. rewrite h_get_set. destruct (leqb k h) eqn:Ek; [|apply Hd].
      apply leqb_eq in Ek. subst k. intros X. injection X as <-. right. exact Hx. }
    destruct (leqb h (str "Content-Type")); [exact Hd'|].
    eapply (IH _ it' l' p' (before ++ pre)); [exact HR'| |exact Hd'].
    subst. rewrite <- app_assoc. reflexivity.
  - destruct e; auto.
Qed.

Lemma decoded_origin : forall data m, decode_data data = Ok m ->
  forall k v, h_get k (m_headers m) = Some v ->
    h_get k default_headers = Some v \/ read_from data k v.
Proof.
  intros data m E k v Hk. unfold decode_data, st_bind, decode_message_header, fuelled, st_ret in E.
  pose proof (header_loop_origin data (S (bytes_left (new_iter data))) default_headers
    (new_iter data) data 0 [] (R_new data) eq_refl (fun k v H => or_introl H)) as H.
  destruct (header_loop _ default_headers (new_iter data)) as [[d|e] it]; [|discriminate].
  destruct (decode_message_body it) as [[ps|e] it']; [|discriminate].
  cbn [fst] in E. injection E as <-. exact (H k v Hk).
Qed.

(** * Slides with one text each *)

Definition text_page (s : list Z * Z * Z) : page :=
  Page 4000 None None (Some (set_text (fst (fst s)) new_part, snd (fst s), snd s)).

Lemma add_text_slide_ok : forall s m m', add_text_slide s m = (Ok tt, m') ->
  m_pages m' = m_pages m ++ [text_page s] /\ m_parts m' = m_parts m.
Proof.
  intros [[text tb] te] m m' E. unfold add_text_slide in E. cbn [fst snd] in E.
  unfold add_text, st_bind, check_times in E.
  destruct (negb (is_int tb) || negb (is_int te)); [discriminate|]. cbn [negb] in E.
  destruct ((0 <? te) && (te <? tb)); [discriminate|].
  unfold st_ret, st_upd in E. unfold add_page, st_bind, st_get, st_lift in E.
  destruct (content_type m) as [ct|e]; [|discriminate].
  destruct (leqb ct (str "application/vnd.wap.multipart.related"));
    unfold st_ret, st_upd in E; inversion E; subst; split; reflexivity.
Qed.

Lemma add_text_slides_ok : forall l m m', add_text_slides l m = (Ok tt, m') ->
  m_pages m' = m_pages m ++ map text_page l /\ m_parts m' = m_parts m.
Proof.
  induction l as [|s l IH]; intros m m' E.
  - cbn in E. inversion E. rewrite app_nil_r. auto.
  - cbn [add_text_slides] in E. unfold st_bind in E.
    destruct (add_text_slide s m) as [[[]|e] m1] eqn:E1; [|discriminate].
    destruct (add_text_slide_ok s m m1 E1) as (P1 & Q1).
    destruct (IH m1 m' E) as (P2 & Q2). rewrite P2, Q2, P1, Q1, <- app_assoc. auto.
Qed.

Lemma text_pages_smil : forall w l i pars tn, exists pars',
  smil_pages w i pars tn (map text_page l) = Ok pars'.
Proof.
  intros w l. induction l as [|s l IH]; intros i pars tn; [eexists; reflexivity|].
  cbn [map smil_pages]. apply IH.
Qed.

Lemma text_part_sendable : forall w text, part_sendable (set_text text new_part) /\
  holds w (set_text text new_part) text.
Proof.
  intros w text. split; [|apply holds_string; reflexivity]. split; [|split].
  - repeat constructor. intros [].
  - eexists. split; [reflexivity|]. eexists. split; [reflexivity|]. left. vm_compute. auto 10.
  - intros k v E Hk. unfold h_get, set_text, set_data in E. cbn [dp_headers d_get] in E.
    destruct (leqb k (str "Content-Type")) eqn:C; [apply leqb_eq in C; congruence|discriminate].
Qed.

Lemma text_slide_parts : forall m l, m_pages m = map text_page l ->
  slide_parts m = map (fun s => set_text (fst (fst s)) new_part) l.
Proof.
  intros m l E. unfold slide_parts. rewrite E. clear E.
  induction l as [|s l IH]; [reflexivity|]. cbn in *. rewrite IH. reflexivity.
Qed.

(** * Encoding the body twice *)

Definition same_source (w : world) (p p1 : part) : Prop :=
  dp_headers p1 = dp_headers p /\ data_of w p1 = data_of w p.

Lemma encode_part_again : forall w p b p1, encode_part w p = (Ok b, p1) ->
  same_source w p p1 /\ encode_part w p1 = (Ok b, p1).
Proof.
  intros w [h ps f d] b p1 E. pose proof E as E0. unfold encode_part in E.
  unfold st_bind at 1, st_get at 1 in E. cbn [dp_headers] in E.
  destruct (h_get (str "Content-Type") h) as [v|] eqn:Ev; [|discriminate].
  unfold st_lift, st_bind in E.
  destruct (unpack_type v) as [[name q]|] eqn:Eu; [|discriminate].
  destruct (encode_content_type_value name q) as [ct|] eqn:Ec; [|discriminate].
  destruct (mapM _ (w_order w h)) as [hs|] eqn:Em; [|discriminate].
  destruct d as [d|].
  - (* nothing is cached *)
    assert (p1 = Part h ps f (Some d)).
    { revert E. unfold part_len, get_data, st_bind, st_get, st_ret. cbn [dp_filename dp_data].
      destruct f as [f|]; [destruct (w_file w f)|]; unfold st_err;
        destruct (array_of ct); try discriminate; destruct (array_of (concat hs)); try discriminate;
        intros E; inversion E; reflexivity. }
    subst p1. split; [split; reflexivity|exact E0].
  - destruct f as [f|].
    + unfold part_len at 1, get_data, st_bind, st_get, st_ret, st_err, st_upd in E.
      cbn [dp_filename dp_data] in E.
      destruct (w_file w f) as [d|] eqn:Ef; [|discriminate].
      destruct (array_of ct) as [ct'|] eqn:Ea; [|discriminate].
      destruct (array_of (concat hs)) as [hs'|] eqn:Eh; [|discriminate].
      cbn [dp_headers dp_params dp_filename dp_data] in E. rewrite Ef in E.
      assert (Eq : p1 = Part h ps (Some f) (Some d)) by (inversion E; reflexivity).
      subst p1. split.
      * split; [reflexivity|]. unfold data_of, get_data, st_bind, st_get, st_ret, st_upd.
        cbn [dp_filename dp_data]. rewrite Ef. reflexivity.
      * unfold encode_part. unfold st_bind at 1, st_get at 1. cbn [dp_headers]. rewrite Ev.
        unfold st_lift, st_bind. rewrite Eu, Ec, Em.
        unfold part_len, get_data, st_bind, st_get, st_ret. cbn [dp_filename dp_data].
        rewrite Ef, Ea, Eh. inversion E. reflexivity.
    + assert (p1 = Part h ps None None).
      { revert E. unfold part_len, get_data, st_bind, st_get, st_ret. cbn [dp_filename dp_data].
        destruct (array_of ct); try discriminate; destruct (array_of (concat hs)); try discriminate;
        intros E; inversion E; reflexivity. }
      subst p1. split; [split; reflexivity|exact E0].
Qed.

Definition slot_same (w : world) (s s1 : slot) : Prop :=
  match s, s1 with
  | None, None => True
  | Some (p, tb, te), Some (p1, tb1, te1) => same_source w p p1 /\ tb1 = tb /\ te1 = te
  | _, _ => False
  end.
Definition page_same (w : world) (g g1 : page) : Prop :=
  pg_duration g1 = pg_duration g /\ slot_same w (pg_image g) (pg_image g1) /\
  slot_same w (pg_audio g) (pg_audio g1) /\ slot_same w (pg_text g) (pg_text g1).

Lemma encode_slot_again : forall w s b s1, encode_slot w s = (Ok b, s1) ->
  slot_same w s s1 /\ encode_slot w s1 = (Ok b, s1).
Proof.
  intros w [[[p tb] te]|] b s1 E; unfold encode_slot in *.
  - destruct (encode_part w p) as [r p1] eqn:E1. inversion E. subst.
    destruct (encode_part_again w p b p1 E1) as (H & E2). rewrite E2.
    split; [cbn; auto|reflexivity].
  - inversion E. subst. split; [exact I|reflexivity].
Qed.

Lemma encode_page_again : forall w g b g1, encode_page w g = (Ok b, g1) ->
  page_same w g g1 /\ encode_page w g1 = (Ok b, g1).
Proof.
  intros w [d i a t] b g1 E. unfold encode_page in E. cbn [pg_image pg_audio pg_text pg_duration] in E.
  destruct (encode_slot w i) as [[x|] i1] eqn:E1; [|discriminate].
  destruct (encode_slot w a) as [[y|] a1] eqn:E2; [|discriminate].
  destruct (encode_slot w t) as [[z|] t1] eqn:E3; [|discriminate].
  inversion E. subst.
  apply encode_slot_again in E1, E2, E3. destruct E1 as (H1 & F1), E2 as (H2 & F2), E3 as (H3 & F3).
  split; [repeat split; assumption|].
  unfold encode_page. cbn [pg_image pg_audio pg_text pg_duration]. rewrite F1, F2, F3. reflexivity.
Qed.

Lemma encode_pages_again : forall w gs b gs1, encode_pages w gs = (Ok b, gs1) ->
  Forall2 (page_same w) gs gs1 /\ encode_pages w gs1 = (Ok b, gs1).
Proof.
  intros w gs. induction gs as [|g gs IH]; intros b gs1 E; cbn [encode_pages] in E.
  - inversion E. split; [constructor|reflexivity].
  - destruct (encode_page w g) as [[x|] g1] eqn:E1; [|discriminate].
    destruct (encode_pages w gs) as [[y|] gs'] eqn:E2; [|discriminate].
    inversion E. subst. destruct (encode_page_again w g x g1 E1) as (H1 & F1).
    destruct (IH y gs' eq_refl) as (H2 & F2). split; [constructor; assumption|].
    cbn [encode_pages]. rewrite F1, F2. reflexivity.
Qed.

Lemma smil_page_same : forall w g g1 i pars tn, page_same w g g1 ->
  smil_page w i pars tn g1 = smil_page w i pars tn g.
Proof.
  intros w [d i a t] [d1 i1 a1 t1] n pars tn (Hd & Hi & Ha & Ht).
  cbn [pg_image pg_audio pg_text pg_duration] in *. subst d1.
  assert (M : forall p p1, same_source w p p1 -> media_src w p1 = media_src w p /\
              data_of w p1 = data_of w p).
  { intros p p1 (Eh & Ed). split; [|exact Ed]. unfold media_src. rewrite Eh, Ed. reflexivity. }
  unfold smil_page. cbn [pg_image pg_audio pg_text pg_duration].
  destruct i as [[[pi bi] ei]|], i1 as [[[pi1 bi1] ei1]|]; cbn in Hi; try contradiction;
    try (destruct Hi as (Hi & -> & ->); rewrite (proj1 (M _ _ Hi)));
  (destruct t as [[[pt bt] et]|], t1 as [[[pt1 bt1] et1]|]; cbn in Ht; try contradiction;
    try (destruct Ht as (Ht & -> & ->); rewrite (proj2 (M _ _ Ht))));
  (destruct a as [[[pa ba] ea]|], a1 as [[[pa1 ba1] ea1]|]; cbn in Ha; try contradiction;
    try (destruct Ha as (Ha & -> & ->); rewrite (proj1 (M _ _ Ha)))); reflexivity.
Qed.

Lemma smil_pages_same : forall w gs gs1, Forall2 (page_same w) gs gs1 ->
  forall i pars tn, smil_pages w i pars tn gs1 = smil_pages w i pars tn gs.
Proof.
  intros w gs gs1 H. induction H as [|g g1 gs gs1 Hg _ IH]; intros i pars tn; [reflexivity|].
  cbn [smil_pages]. rewrite (smil_page_same _ _ _ _ _ _ Hg).
  destruct (smil_page w i pars tn g) as [[p t]|]; [apply IH|reflexivity].
Qed.

Lemma number_same : forall w g g1, page_same w g g1 -> number_of_parts g1 = number_of_parts g.
Proof.
  intros w [d i a t] [d1 i1 a1 t1] (_ & Hi & Ha & Ht).
  cbn [pg_image pg_audio pg_text pg_duration] in *.
  unfold number_of_parts, page_slots. cbn [pg_image pg_audio pg_text].
  destruct i as [[[? ?] ?]|], i1 as [[[? ?] ?]|]; cbn in Hi; try contradiction;
  destruct a as [[[? ?] ?]|], a1 as [[[? ?] ?]|]; cbn in Ha; try contradiction;
  destruct t as [[[? ?] ?]|], t1 as [[[? ?] ?]|]; cbn in Ht; try contradiction; reflexivity.
Qed.

Lemma body_again : forall render w m b m1, encode_message_body render w m = (Ok b, m1) ->
  encode_message_body render w m1 = (Ok b, m1).
Proof.
  intros render w m b m1 E. unfold encode_message_body, st_bind, st_get, st_lift in *.
  destruct (smil render w m) as [text|] eqn:Es; [|discriminate].
  destruct (fst (encode_part w (smil_part text))) as [a|] eqn:Ea; [|discriminate].
  destruct (encode_pages w (m_pages m)) as [[x|] gs] eqn:Ep; [|discriminate].
  inversion E. subst. clear E.
  destruct (encode_pages_again w _ _ _ Ep) as (H & Ep').
  assert (Es' : smil render w (Message (m_headers m) gs (m_parts m) (m_width m) (m_height m)) = Ok text).
  { rewrite <- Es. unfold smil, smil_tree. cbn [m_pages].
    rewrite (smil_pages_same w _ _ H). reflexivity. }
  rewrite Es', Ea. cbn [m_pages m_headers m_parts m_width m_height]. rewrite Ep'.
  replace (num_entries (Message (m_headers m) gs (m_parts m) (m_width m) (m_height m)))
    with (num_entries m); [reflexivity|].
  unfold num_entries. cbn [m_pages m_parts]. f_equal. generalize 1 as n. clear - H.
  induction H as [|g g1 l l1 Hg _ IH]; intros n; [reflexivity|]. cbn [fold_left].
  rewrite (number_same _ _ _ Hg). apply IH.
Qed.
