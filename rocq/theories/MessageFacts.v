(** Proofs about parts, slides and the SMIL description. *)
From Coq Require Import Lia ZifyBool ZifyNat.
From Verif Require Import Py Iter Tables WspDec WspEnc Message MmsEnc SpecSmil WspClaims MmsClaims
  MessageClaims PyFacts.
Open Scope Z_scope.
Ltac Zify.zify_post_hook ::= Z.div_mod_to_equations.

(** * Decimal notation *)

Lemma dec_fuel_app : forall f n acc, dec_fuel f n acc = dec_fuel f n [] ++ acc.
Proof.
  induction f as [|f IH]; intros n acc; cbn [dec_fuel]; [reflexivity|].
  destruct (n / 10 =? 0); [reflexivity|].
  rewrite (IH _ (_ :: acc)), (IH _ [_]), <- app_assoc. reflexivity.
Qed.

Lemma dec_fuel_spec : forall f n, 0 <= n -> n < 2 ^ Z.of_nat f -> n <> 0 ->
  dec_fuel f n [] <> [] /\ Forall (fun c => 48 <= c <= 57) (dec_fuel f n []) /\
  digits_value (dec_fuel f n []) = n /\ hd 0 (dec_fuel f n []) <> 48.
Proof.
  induction f as [|f IH]; intros n H0 Hn Hz; [change (2 ^ Z.of_nat 0) with 1 in Hn; lia|].
  rewrite Nat2Z.inj_succ, Z.pow_succ_r in Hn by lia.
  cbn [dec_fuel]. destruct (n / 10 =? 0) eqn:C.
  - split; [discriminate|]. split; [repeat constructor; lia|]. split; [unfold digits_value; cbn [fold_left]; lia|cbn [hd]; lia].
  - rewrite dec_fuel_app. destruct (IH (n / 10)) as (A & B & D & E); try lia.
    split; [intros X; apply app_eq_nil in X; destruct X; discriminate|].
    split; [apply Forall_app; split; [exact B|repeat constructor; lia]|]. split.
    + unfold digits_value in *. rewrite fold_left_app, D. cbn [fold_left]. lia.
    + destruct (dec_fuel f (n / 10) []); [contradiction|exact E].
Qed.

Lemma py_dec_notation : forall n, 0 <= n -> natural_notation n (py_dec n).
Proof.
  intros n H. unfold natural_notation. destruct (Z.eq_dec n 0) as [->|Hn].
  - cbn. repeat split; try discriminate; try lia. repeat constructor; lia.
  - unfold py_dec. destruct (dec_fuel_spec (S (Z.to_nat (Z.log2 n))) n H) as (A & B & C & D); auto.
    + rewrite Nat2Z.inj_succ, Z2Nat.id by apply Z.log2_nonneg. apply Z.log2_spec. lia.
    + repeat split; auto. lia.
Qed.

Lemma py_str_notation : forall n, notation n (py_str n).
Proof.
  intros n. unfold notation, py_str. destruct (n <? 0) eqn:C.
  - right. split; [lia|]. eexists. split; [reflexivity|]. apply py_dec_notation. lia.
  - left. split; [lia|]. apply py_dec_notation. lia.
Qed.

(** * C59 *)

Definition fresh (w : world) (p : part) : Prop :=
  forall f d, dp_filename p = Some f -> dp_data p = Some d -> w_file w f = Some d.

Lemma fresh_agrees : forall w p, fresh w p -> length_agrees w p.
Proof.
  intros w [h q [f|] [d|]] H; unfold length_agrees, len_of, data_of, part_len, get_data, st_bind,
    st_get, st_ret, st_upd, st_err; cbn [dp_filename dp_data fst].
  - rewrite (H f d eq_refl eq_refl). reflexivity.
  - destruct (w_file w f); reflexivity.
  - reflexivity.
  - reflexivity.
Qed.

Lemma history_app : forall a b w p, history (a ++ b) w p =
  history b (fst (history a w p)) (snd (history a w p)).
Proof.
  intros. unfold history. rewrite fold_left_app, <- surjective_pairing. reflexivity.
Qed.

(** Files written are not the one in use. *)
Lemma history_fresh : forall es w p,
  fresh w p -> loaded_files_kept es ->
  (forall f, dp_filename p = Some f -> forall c, ~ In (WriteFile f c) es) ->
  fresh (fst (history es w p)) (snd (history es w p)).
Proof.
  induction es as [|e es IH]; intros w p Hf Hk Hw; [exact Hf|].
  assert (E : history (e :: es) w p = history es (fst (happens e (w, p))) (snd (happens e (w, p)))).
  { unfold history. cbn [fold_left]. rewrite <- surjective_pairing. reflexivity. }
  rewrite E. clear E.
  assert (Hk' : loaded_files_kept es).
  { intros a f c b Ee Hin. apply (Hk (e :: a) f c b); [rewrite Ee; reflexivity|right; exact Hin]. }
  assert (Hl : forall f, e = Load f -> forall c, ~ In (WriteFile f c) es).
  { intros f -> c Hin. apply in_split in Hin. destruct Hin as (a & b & ->).
    apply (Hk (Load f :: a) f c b); [reflexivity|left; reflexivity]. }
  assert (Hw' : forall f, dp_filename p = Some f -> forall c, ~ In (WriteFile f c) es).
  { intros f Ef c Hin. apply (Hw f Ef c). right. exact Hin. }
  assert (He : forall f, dp_filename p = Some f -> forall c, e <> WriteFile f c).
  { intros f Ef c ->. apply (Hw f Ef c). left. reflexivity. }
  destruct e as [f|data media params|text|media| | |f content]; cbn [happens].
  - unfold from_file. destruct (w_file w f) as [x|] eqn:Ef; cbn [fst snd st_upd st_err].
    + apply IH; [intros ? ? _ X; discriminate X|exact Hk'|].
      intros f' E. cbn in E. injection E as <-. exact (Hl f eq_refl).
    + apply IH; auto.
  - apply IH; [intros ? ? X; discriminate X|exact Hk'|intros ? X; discriminate X].
  - apply IH; [intros ? ? X; discriminate X|exact Hk'|intros ? X; discriminate X].
  - apply IH; auto.
  - assert (G : fresh w (snd (get_data w p)) /\ dp_filename (snd (get_data w p)) = dp_filename p).
    { unfold get_data, st_bind, st_get, st_ret, st_upd, st_err.
      destruct (dp_data p) as [d|] eqn:Ed; [split; [exact Hf|reflexivity]|].
      destruct (dp_filename p) as [f|] eqn:Ef; [|split; [exact Hf|exact Ef]].
      destruct (w_file w f) as [d|] eqn:Ew; cbn [snd]; [|split; [exact Hf|exact Ef]].
      split; [|exact Ef]. intros f' d' E1 E2. cbn in E1, E2. congruence. }
    cbn [fst snd]. apply IH; [apply G|exact Hk'|]. rewrite (proj2 G). exact Hw'.
  - assert (G : fresh w (snd (part_len w p)) /\ dp_filename (snd (part_len w p)) = dp_filename p).
    { unfold part_len, get_data, st_bind, st_get, st_ret, st_upd, st_err.
      destruct (dp_filename p) as [f|] eqn:Ef.
      - destruct (w_file w f) as [d|] eqn:Ew; cbn [snd]; split; try exact Hf; exact Ef.
      - destruct (dp_data p) as [d|] eqn:Ed; rewrite ?Ef; cbn [snd]; split; try exact Hf; exact Ef. }
    cbn [fst snd]. apply IH; [apply G|exact Hk'|]. rewrite (proj2 G). exact Hw'.
  - cbn [fst snd]. apply IH; [|exact Hk'|exact Hw'].
    intros f' d E1 E2. unfold write_file. cbn [w_file].
    destruct (leqb f' f) eqn:C; [|exact (Hf f' d E1 E2)].
    apply leqb_eq in C. subst f'. exfalso. exact (He f E1 content eq_refl).
Qed.

(** * C60 *)

Lemma is_int_machine : forall n, is_int n = true <-> machine_int n.
Proof. intros n. unfold is_int, machine_int, maxint. lia. Qed.

Lemma is_int_not : forall n, is_int n = false <-> ~ machine_int n.
Proof. intros n. unfold is_int, machine_int, maxint. lia. Qed.

(** A call that checks its arguments and then updates the slide. *)
Lemma adds_spec : forall call b (file_ok : Prop) tb te put,
  (b = true <-> file_ok) ->
  (forall g, call g = match check_times b tb te g with
                      | (Ok _, g1) => (Ok tt, put g1) | (Err e, g1) => (Err e, g1) end) ->
  Adds call file_ok tb te put.
Proof.
  intros call b file_ok tb te put Hb Hc.
  assert (Hn : b = false <-> ~ file_ok) by (destruct b; intuition discriminate).
  assert (H : forall g,
    (fst (call g) = Ok tt /\ snd (call g) = put g /\
       machine_int tb /\ machine_int te /\ file_ok /\ ~ (0 < te < tb)) \/
    (snd (call g) = g /\
      ((fst (call g) = Err TypeError /\ ~ (machine_int tb /\ machine_int te)) \/
       (fst (call g) = Err OSError /\ machine_int tb /\ machine_int te /\ ~ file_ok) \/
       (fst (call g) = Err ValueError /\
          machine_int tb /\ machine_int te /\ file_ok /\ 0 < te < tb)))).
  { intros g. rewrite Hc. unfold check_times.
    destruct (is_int tb) eqn:E1; [apply is_int_machine in E1|apply is_int_not in E1];
      (destruct (is_int te) eqn:E2; [apply is_int_machine in E2|apply is_int_not in E2]);
      cbn [negb orb]; try (right; split; [reflexivity|left; split; [reflexivity|tauto]]).
    destruct b; cbn [negb].
    - destruct ((0 <? te) && (te <? tb)) eqn:C; cbn.
      + right. split; [reflexivity|]. right. right. intuition lia.
      + left. intuition lia.
    - right. split; [reflexivity|]. right. left. intuition. }
  constructor; intros g; specialize (H g);
    destruct H as [(E & E' & H)|(E' & [(E & H)|[(E & H)|(E & H)]])]; rewrite E;
    try (split; [intros X; first [discriminate X|tauto]|intros X; first [reflexivity|tauto]]);
    try (intros X; first [discriminate X|exact E']);
    try (intros e X; first [discriminate X|exact E']).
Qed.

Lemma part_from_file_ok : forall w f, isfile w f = true ->
  exists p, part_from_file w f = Ok p /\ dp_filename p = Some f.
Proof.
  intros w f H. unfold isfile in H. unfold part_from_file, from_file.
  destruct (w_file w f); [|discriminate]. eexists. split; reflexivity.
Qed.

Lemma isfile_file : forall w f, isfile w f = true <-> w_file w f <> None.
Proof. intros w f. unfold isfile. destruct (w_file w f); intuition congruence. Qed.

(** * C61 *)

Lemma time_attrs_times : forall d tb te, times d tb te (time_attrs d tb te).
Proof.
  intros d tb te. unfold times, time_attrs. destruct ((0 <? tb) || (0 <? te)) eqn:C.
  - right. split; [lia|]. exists (py_str tb), (py_str (Z.min te d)).
    split; [apply py_str_notation|]. split; [apply py_str_notation|].
    replace (if d <? te then d else te) with (Z.min te d) by (destruct (d <? te) eqn:?; lia).
    reflexivity.
  - left. repeat split; lia.
Qed.

Lemma media_src_source : forall w p s, media_src w p = Ok s -> source w p s.
Proof.
  intros w p s. unfold media_src.
  destruct (d_get leqb (str "Content-Location") (dp_headers p)) as [[[x| | |]| | | |]|] eqn:E1;
    intros H; try discriminate; [injection H as <-; apply source_location; exact E1|].
  destruct (d_get leqb (str "Content-ID") (dp_headers p)) as [[[x| | |]| | | |]|] eqn:E2;
    try discriminate; [injection H as <-; apply source_id; [exact E1|exact E2]|].
  apply source_data; assumption.
Qed.

Lemma source_media_src : forall w p s, source w p s -> media_src w p = Ok s.
Proof.
  intros w p s H. unfold media_src. change (d_get leqb) with h_get.
  destruct H as [s E|s E E2|s E E2 E3]; rewrite E; [reflexivity| |]; rewrite E2;
    [reflexivity|exact E3].
Qed.

Definition child_ids_below (n : nat) (pars : list (list (list Z * list Z) * list child)) : Prop :=
  Forall (fun q => Forall (fun c : child => (fst c < n)%nat) (snd q)) pars.

Lemma drop_none : forall (t : child) n pars, child_ids_below n pars -> (n <= fst t)%nat ->
  map (fun q : list (list Z * list Z) * list child =>
         (fst q, filter (fun c : child => negb (Nat.eqb (fst c) (fst t))) (snd q))) pars = pars.
Proof.
  intros t n pars H Ht. induction H as [|[a ks] pars Hk _ IH]; [reflexivity|].
  cbn [map fst snd]. rewrite IH. f_equal. f_equal. cbn [snd] in Hk.
  induction Hk as [|c ks Hc _ IHk]; [reflexivity|]. cbn [filter].
  destruct (Nat.eqb (fst c) (fst t)) eqn:E; [apply Nat.eqb_eq in E; lia|].
  cbn [negb]. rewrite IHk. reflexivity.
Qed.

Definition par_element (q : list (list Z * list Z) * list child) : xml :=
  Elem (str "par") (fst q) (map snd (snd q)).

Lemma shown_some : forall tag reg d src tb te,
  shown tag reg d (Some (src, tb, te))
    [Elem tag (([(str "src", src)] ++ reg) ++ time_attrs d tb te) []].
Proof.
  intros. eexists. split; [|reflexivity]. eexists. split; [apply time_attrs_times|reflexivity].
Qed.

Lemma smil_page_run : forall w i pars tn g, has_sources w g -> audio_with_text g ->
  child_ids_below (3 * i) pars ->
  exists q tn', smil_page w i pars tn g = Ok (pars ++ [q], tn') /\
    child_ids_below (3 * S i) [q] /\ slide_described w g (par_element q).
Proof.
  intros w i pars tn [d im au te] (Hi & Ht & Ha) Hat Hb.
  cbn [pg_duration pg_image pg_audio pg_text audio_with_text] in *.
  unfold audio_with_text in Hat. cbn [pg_audio pg_text] in Hat.
  unfold smil_page, slide_described. cbn [pg_duration pg_image pg_audio pg_text].
  (* the image *)
  assert (I : exists im' ks, describes (source w) im im' /\
    shown (str "img") [(str "region", str "Image")] d im' (map snd ks) /\
    Forall (fun c : child => fst c = (3 * i)%nat) ks /\
    match im with
    | Some (p, tb, te) => src <- media_src w p ;;
        Ok [(3 * i, Elem (str "img") ([(str "src", src); (str "region", str "Image")]
                      ++ time_attrs d tb te) [])]%nat
    | None => Ok []
    end = Ok ks).
  { destruct im as [[[p tb] e]|].
    - destruct (Hi p tb e eq_refl) as (s & Hs). rewrite (source_media_src _ _ _ Hs).
      exists (Some (s, tb, e)). eexists. split; [cbn; auto|]. split; [|split; [|reflexivity]].
      + apply shown_some.
      + repeat constructor.
    - exists None, []. repeat split; constructor. }
  destruct I as (im' & ks & Di & Si & Fi & ->). cbn beta iota delta [bind].
  (* the text *)
  destruct te as [[[pt bt] et]|].
  - destruct (Ht pt bt et eq_refl) as (s & Hs). rewrite Hs. cbn beta iota zeta delta [bind].
    set (t := (3 * i + 1, Elem (str "text") ([(str "src", s); (str "region", str "Text")]
                 ++ time_attrs d bt et) [])%nat).
    assert (St : shown (str "text") [(str "region", str "Text")] d (Some (s, bt, et)) [snd t])
      by apply shown_some.
    assert (Nd : notation d (py_str d)) by apply py_str_notation.
    destruct au as [[[pa ba] ea]|].
    + destruct (Ha pa ba ea eq_refl) as (sa & Hsa). rewrite (source_media_src _ _ _ Hsa).
      cbn beta iota zeta delta [bind]. rewrite (drop_none t (3 * i) pars Hb) by (cbn [fst t]; lia).
      assert (Ek : filter (fun c : child => negb (Nat.eqb (fst c) (fst t))) (ks ++ [t]) = ks).
      { rewrite filter_app. cbn [filter]. rewrite Nat.eqb_refl. cbn [negb]. rewrite app_nil_r.
        clear - Fi. induction Fi as [|c ks Hc _ IH]; [reflexivity|]. cbn [filter].
        destruct (Nat.eqb (fst c) (fst t)) eqn:E; [apply Nat.eqb_eq in E; cbn [t fst] in E; lia|].
        cbn [negb]. rewrite IH. reflexivity. }
      rewrite Ek. do 2 eexists. split; [reflexivity|]. split.
      * constructor; [|constructor]. cbn [snd]. apply Forall_app. split.
        -- eapply Forall_impl; [|exact Fi]. cbv beta. intros; lia.
        -- repeat (apply Forall_cons; [cbn [fst t]; lia|]). apply Forall_nil.
      * exists im', (Some (s, bt, et)), (Some (sa, ba, ea)).
        split; [exact Di|]. split; [cbn; auto|]. split; [cbn; auto|].
        exists (py_str d), (map snd ks), [snd t].
        eexists [_]. split; [exact Nd|]. split; [exact Si|]. split; [exact St|].
        split; [apply (shown_some (str "audio") [] d sa ba ea)|].
        unfold par_element. cbn [fst snd]. rewrite map_app. reflexivity.
    + do 2 eexists. split; [reflexivity|]. split.
      * constructor; [|constructor]. cbn [snd]. apply Forall_app. split.
        -- eapply Forall_impl; [|exact Fi]. cbv beta. intros; lia.
        -- repeat (apply Forall_cons; [cbn [fst t]; lia|]). apply Forall_nil.
      * exists im', (Some (s, bt, et)), None.
        split; [exact Di|]. split; [cbn; auto|]. split; [cbn; auto|].
        exists (py_str d), (map snd ks), [snd t], [].
        split; [exact Nd|]. split; [exact Si|]. split; [exact St|]. split; [reflexivity|].
        unfold par_element. cbn [fst snd]. rewrite map_app. reflexivity.
  - destruct au as [a|]; [exfalso; apply Hat; congruence|]. cbn beta iota zeta delta [bind].
    do 2 eexists. split; [reflexivity|]. split.
    + constructor; [|constructor]. cbn [snd]. eapply Forall_impl; [|exact Fi]. cbv beta. intros; lia.
    + exists im', None, None. split; [exact Di|]. split; [exact I|]. split; [exact I|].
      exists (py_str d), (map snd ks), [], []. split; [apply py_str_notation|].
      split; [exact Si|]. split; [reflexivity|]. split; [reflexivity|].
      unfold par_element. cbn [fst snd]. rewrite app_nil_r. reflexivity.
Qed.

Lemma smil_pages_run : forall w gs i pars tn, Forall (has_sources w) gs ->
  Forall audio_with_text gs -> child_ids_below (3 * i) pars ->
  exists qs, smil_pages w i pars tn gs = Ok (pars ++ qs) /\
    Forall2 (slide_described w) gs (map par_element qs).
Proof.
  intros w gs. induction gs as [|g gs IH]; intros i pars tn Hs Ha Hb.
  - exists []. split; [cbn; rewrite app_nil_r; reflexivity|constructor].
  - destruct (smil_page_run w i pars tn g (Forall_inv Hs) (Forall_inv Ha) Hb)
      as (q & tn' & E & Hq & D).
    destruct (IH (S i) (pars ++ [q]) tn' (Forall_inv_tail Hs) (Forall_inv_tail Ha)) as (qs & E' & F).
    { apply Forall_app. split; [|exact Hq]. eapply Forall_impl; [|exact Hb]. cbv beta.
      intros x Hx. eapply Forall_impl; [|exact Hx]. cbv beta. intros; lia. }
    exists (q :: qs). split.
    + cbn [smil_pages]. rewrite E. cbn beta iota delta [bind]. rewrite E', <- app_assoc. reflexivity.
    + constructor; assumption.
Qed.

Lemma smil_run : forall render w m, Forall (has_sources w) (m_pages m) ->
  Forall audio_with_text (m_pages m) ->
  exists x pars, smil_tree w m = Ok x /\ smil render w m = Ok (render x) /\
    slide_show (m_width m) (m_height m) pars x /\
    Forall2 (slide_described w) (m_pages m) pars.
Proof.
  intros render w m Hs Ha.
  destruct (smil_pages_run w (m_pages m) 0 [] None Hs Ha) as (qs & E & F); [constructor|].
  unfold smil, smil_tree. rewrite E. cbn [app]. do 2 eexists. split; [reflexivity|]. split; [reflexivity|].
  split; [|exact F]. exists (py_str (m_width m)), (py_str (m_height m)).
  split; [apply py_str_notation|]. split; [apply py_str_notation|]. reflexivity.
Qed.
