(** One assignment of [pdu], accepted or refused: every attribute is the one in the string
    if there is one, and else as before (for C129). *)
From Coq Require Import Lia ZifyBool ZifyNat.
From Verif Require Import Py PyFacts SpecGsm SpecPack SpecTime SpecSubmit SpecDeliver SpecUdh SpecUnread
  Utils Gsm GsmFacts Udh UdhFacts Deliver DeliverFacts DeliverCutFacts UnreadFacts ShownFacts PropGsm SpecShown SpecSeries ShownClaims.
Open Scope Z_scope.
Ltac Zify.zify_post_hook ::= Z.div_mod_to_equations.

(** [new] is what [P] says, or [old] if it says nothing. *)
Definition settles {A} (P : A -> Prop) (old new : option A) : Prop :=
  (exists v, (forall w, P w <-> w = v) /\ new = Some v) \/ ((forall w, ~ P w) /\ new = old).

(** * Reading a string *)

Definition the_kept (strict : bool) (p : list Z) : list Z :=
  if negb strict && negb (zlen p mod 2 =? 0) then removelast p else p.

Lemma kept_iff strict p s : kept strict p s <-> s = the_kept strict p /\ zlen (the_kept strict p) mod 2 = 0.
Proof.
  unfold the_kept. split.
  - intros [t L|t c -> L].
    + unfold zlen. replace (Z.of_nat (length t) mod 2 =? 0) with true by lia.
      cbn [negb]. rewrite andb_false_r. auto.
    + unfold zlen. rewrite app_length. cbn [length negb andb].
      replace (Z.of_nat (length t + 1) mod 2 =? 0) with false by lia. cbn [negb].
      rewrite removelast_last. auto.
  - intros (-> & L). destruct (negb strict && negb (zlen p mod 2 =? 0)) eqn:E; [|now apply kept_all].
    apply andb_true_iff in E. destruct E as (E1 & E2).
    destruct p as [|c q _] using rev_ind; [discriminate E2|]. rewrite removelast_last in *.
    apply kept_most; [now destruct strict|exact L].
Qed.

Lemma octets_iff strict p o : the_octets strict p o <->
  zlen (the_kept strict p) mod 2 = 0 /\ to_array (the_kept strict p) = Ok o.
Proof.
  split.
  - intros [s x K N O]. apply kept_iff in K. destruct K as (-> & L). split; [exact L|].
    unfold to_array. pose proof (numbers_out _ L) as H.
    destruct (mapM (py_int 16) (chunks2 (the_kept strict p))) as [l|e]; cbn [bind].
    + destruct H as (_ & _ & H). rewrite (H _ N) in *.
      destruct (forallb (fun b => (0 <=? b) && (b <? 256)) l) eqn:F; [reflexivity|].
      exfalso. assert (X : forallb (fun b => (0 <=? b) && (b <? 256)) l = true); [|congruence].
      apply forallb_forall. intros y Hy. rewrite Forall_forall in O. specialize (O y Hy). unfold octet in O. lia.
    + destruct H as (_ & H). destruct (H _ N).
  - intros (L & E). apply array_numbers in E; [|exact L]. destruct E as (N & O).
    apply to_octets with (s := the_kept strict p); [|exact N|exact O]. apply kept_iff. auto.
Qed.

Definition the_behind (o : list Z) : option (list Z) :=
  match o with
  | [] => None
  | l :: r => if 0 <? l then match r with _ :: q => Some (skipn (Z.to_nat (l - 1)) q) | [] => None end else Some r
  end.
Lemma behind_iff o x : Forall octet o -> (behind_centre o x <-> the_behind o = Some x).
Proof.
  intros O. split.
  - intros [r|l ty r L]; cbn [the_behind]; [reflexivity|]. replace (0 <? l) with true by lia. reflexivity.
  - destruct o as [|l r]; [discriminate|]. cbn [the_behind]. apply Forall_inv in O. unfold octet in O.
    destruct (0 <? l) eqn:L.
    + destruct r as [|ty q]; [discriminate|]. intros [= <-]. apply bc_some. lia.
    + intros [= <-]. assert (l = 0) by lia. subst l. constructor.
Qed.

Lemma centre_fun o c c' : centre_shown o c -> centre_shown o c' -> c = c'.
Proof. intros H H'. destruct H; inversion H'; subst; try lia; reflexivity. Qed.

(** * Text *)

Lemma reads_fun l u u' : reads None l u -> reads None l u' -> u = u'.
Proof.
  intros H H'. apply C69_decode_strict in H, H'. rewrite H in H'. now injection H'.
Qed.
Lemma gsm_reads l u : reads None l u -> gsm_decode l = Ok u.
Proof. intros H. apply C69_decode_strict in H. unfold gsm_decode. now rewrite H. Qed.

Lemma be16_inj a : forall b, Forall unit16 a -> Forall unit16 b -> be16 a = be16 b -> a = b.
Proof.
  intros b Ha Hb E. pose proof (ucs2_chars_be16 a Ha) as X. rewrite E, ucs2_chars_be16 in X by exact Hb.
  now injection X.
Qed.

Lemma text_fun hdr dcs udl ud t t' : text_shown hdr dcs udl ud t -> text_shown hdr dcs udl ud t' -> t = t'.
Proof.
  intros H H'. destruct H as [t C k R|C|t C U E]; destruct H' as [t' C' k' R'|C'|t' C' U' E']; try congruence.
  - exact (reads_fun _ _ _ R R').
  - rewrite E in E'. exact (be16_inj _ _ U U' E').
Qed.

Lemma sender_fun ty os t t' : sender_shown ty os t -> sender_shown ty os t' -> t = t'.
Proof.
  intros H H'. destruct H as [t C R|C]; destruct H' as [t' C' R'|C']; try congruence; try reflexivity.
  exact (reads_fun _ _ _ R R').
Qed.

Definition put {A} (set : option A -> deliver -> deliver) (o : option A) (s : deliver) : deliver :=
  match o with Some v => set (Some v) s | None => s end.

Definition has_header (hdr : bool) (ud : list Z) : Prop :=
  hdr = true /\ exists n r, ud = n :: r /\ forall e, ~ header_broken (firstn (Z.to_nat n) r) e.

Lemma finish_run fmt h udl msg rest s : exists ot, snd (finish fmt h udl msg rest s) = put set_d_text ot s.
Proof.
  unfold finish. destruct (fmt =? 0).
  - rewrite st_bind_eq. cbn [st_lift]. destruct (unpack_msg msg); [|now exists None].
    rewrite st_bind_eq. cbn [st_lift]. destruct (gsm_decode _) as [t|]; [now exists (Some t)|now exists None].
  - destruct (fmt =? 4); [now exists (Some rest)|]. destruct (fmt =? 8); [|now exists None].
    rewrite st_bind_eq. cbn [st_lift]. destruct (ucs2_chars rest) as [t|]; [now exists (Some t)|now exists None].
Qed.
Lemma finish_err fmt h udl msg rest s e : fst (finish fmt h udl msg rest s) = Err e -> snd (finish fmt h udl msg rest s) = s.
Proof.
  unfold finish. destruct (fmt =? 0).
  - rewrite st_bind_eq. cbn [st_lift]. destruct (unpack_msg msg); [|reflexivity].
    rewrite st_bind_eq. cbn [st_lift]. destruct (gsm_decode _) as [t|]; [discriminate|reflexivity].
  - destruct (fmt =? 4); [discriminate|]. destruct (fmt =? 8); [|reflexivity].
    rewrite st_bind_eq. cbn [st_lift]. destruct (ucs2_chars rest) as [t|]; [discriminate|reflexivity].
Qed.

Lemma data_run fo dcs udl ud s : octet fo -> octet dcs -> octet udl -> Forall octet ud ->
  exists ou ot, snd (process_message fo (fmt_of_dcs dcs) (udl :: ud) s) = put set_d_text ot (put set_d_udh ou s) /\
    match ot with
    | Some t => (forall e, ~ data_broken (udhi fo) dcs ud e) /\ text_shown (udhi fo) dcs udl ud t
    | None => exists e, data_broken (udhi fo) dcs ud e
    end /\
    match ou with
    | Some u => udhi fo = true /\ exists n r, ud = n :: r /\ (forall e, ~ header_broken (firstn (Z.to_nat n) r) e) /\
                  header_shown (firstn (Z.to_nat n) r) (Some u)
    | None => ~ has_header (udhi fo) ud
    end.
Proof.
  intros Hf Hd Hl Hu. pose proof (data_out fo dcs udl ud s Hf Hd Hu) as A.
  destruct (process_message fo (fmt_of_dcs dcs) (udl :: ud) s) as [r s'] eqn:E. unfold agrees in A. cbn [fst snd] in *.
  destruct r as [[]|e].
  - pose proof E as E0. rewrite coding_taken_fmt in E by exact Hd.
    apply (data_shown fo dcs (udl :: ud) s s' Hf Hd) in E; [|now constructor].
    destruct E as (x & y & text & Q & T & E). injection Q as <- <-. destruct (udhi fo) eqn:U.
    + destruct E as (k & more & u & -> & F & ->). exists (Some u), (Some text). cbn [put].
      assert (O : Forall octet (firstn (Z.to_nat k) more)) by (apply Forall_firstn; now apply Forall_inv_tail in Hu).
      split; [reflexivity|]. split; [auto|]. split; [reflexivity|]. exists k, more. split; [reflexivity|].
      split; [|now apply header_out_shown]. pose proof (from_bytes_out _ O) as H. rewrite F in H. exact H.
    + subst s'. exists None, (Some text). cbn [put]. split; [reflexivity|]. split; [auto|]. intros (X & _). congruence.
  - destruct A as (B & _). pose proof (udhi_bit fo Hf) as Bit.
    assert (G : exists ou, s' = put set_d_udh ou s /\
      match ou with
      | Some u => udhi fo = true /\ exists n r, ud = n :: r /\ (forall e, ~ header_broken (firstn (Z.to_nat n) r) e) /\
                    header_shown (firstn (Z.to_nat n) r) (Some u)
      | None => ~ has_header (udhi fo) ud
      end).
    { destruct (udhi fo) eqn:U.
      - destruct ud as [|n q].
        { exists None. split; [|intros (_ & n & r & X & _); discriminate X].
          unfold process_message in E. rewrite st_bind_eq in E. cbn [st_lift pop0] in E. cbn zeta in E. rewrite Bit in E.
          rewrite !st_bind_eq in E. cbn [st_lift pop0] in E. cbn [put]. congruence. }
        pose proof (Forall_inv Hu) as On. pose proof (Forall_inv_tail Hu) as Oq.
        rewrite process_header in E by (assumption || (unfold octet in On; lia)). unfold py_to at 1 in E.
        assert (O : Forall octet (firstn (Z.to_nat n) q)) by now apply Forall_firstn.
        pose proof (from_bytes_out _ O) as H. destruct (from_bytes (firstn (Z.to_nat n) q)) as [u|e'] eqn:F.
        + exists (Some u). split.
          * match type of E with ?m = _ => assert (X : snd m = set_d_udh (Some u) s)
              by (apply finish_err with (e := e); now rewrite E) end. rewrite E in X. exact X.
          * split; [reflexivity|]. exists n, q. split; [reflexivity|]. split; [exact H|now apply header_out_shown].
        + exists None. split; [cbn [put]; congruence|]. intros (_ & n' & r' & X & Y). injection X as <- <-.
          destruct H as (H & _). exact (Y _ H).
      - exists None. split; [|intros (X & _); congruence]. rewrite process_plain in E by exact Bit.
        match type of E with ?m = _ => assert (X : snd m = s) by (apply finish_err with (e := e); now rewrite E) end.
        rewrite E in X. exact X. }
    destruct G as (ou & -> & G). exists ou, None. split; [reflexivity|]. split; [eauto|exact G].
Qed.

(** * A message behind its first octet *)

Definition unchanged (s s' : deliver) : Prop :=
  d_strict s' = d_strict s /\ d_pdu s' = d_pdu s /\ d_csca s' = d_csca s /\ d_mtype s' = d_mtype s.

(** How the header on the object goes with where it is from. *)
Definition shows_header (v : header_source) (u : option udh) : Prop :=
  match v with
  | HeaderOctets h => header_shown h u
  | ReportReference mr => exists x, u = Some x /\ concat_view x = Some (mr, 0, 0) /\ ports_view x = None /\
      forall i, d_get Z.eqb i (h_headers x) = None
  end.
Definition settles_header (P : header_source -> Prop) (old new : option udh) : Prop :=
  (exists v, (forall w, P w <-> w = v) /\ shows_header v new) \/ ((forall w, ~ P w) /\ new = old).

Record settled (strict : bool) (p : list Z) (s s' : deliver) : Prop := Settled {
  sd_number : settles (number_in strict p) (d_number s) (d_number s');
  sd_pid : settles (pid_in strict p) (d_pid s) (d_pid s');
  sd_dcs : settles (dcs_in strict p) (d_dcs s) (d_dcs s');
  sd_coding : settles (coding_in strict p) (d_fmt s) (d_fmt s');
  sd_date : settles (date_in strict p) (d_date s) (d_date s');
  sd_text : settles (text_in strict p) (d_text s) (d_text s');
  sd_type : settles (type_in strict p) (d_type s) (d_type s');
  sd_header : settles_header (header_in strict p) (d_udh s) (d_udh s');
  sd_result : (exists v, (forall w, result_in strict p w <-> w = v) /\
                 d_sr s' = Some (SReport (fst (fst v)) (d_date s') (snd (fst v)) (snd v))) \/
              ((forall w, ~ result_in strict p w) /\ d_sr s' = d_sr s) }.

(** The string has this first octet behind the service centre and nothing else can be
    taken for it. *)
Definition begins (strict : bool) (p : list Z) (fo : Z) (r : list Z) : Prop :=
  forall fo' r', first_in strict p fo' r' <-> fo' = fo /\ r' = r.

Lemma message_iff strict p fo r : begins strict p fo r -> message_type fo = 0 \/ message_type fo = 3 ->
  forall fo' ty sd x, message_in strict p fo' ty sd x <->
    fo' = fo /\ exists n q, r = n :: ty :: q /\ sd = firstn (Z.to_nat ((n + 1) / 2)) q /\ x = skipn (Z.to_nat ((n + 1) / 2)) q.
Proof.
  intros B M fo' ty sd x. split.
  - intros [f n t q H _]. apply B in H. destruct H as (-> & <-). eauto 8.
  - intros (-> & n & q & E & -> & ->). constructor; [|exact M]. apply B. auto.
Qed.
Lemma no_message strict p fo r : begins strict p fo r -> message_type fo = 1 \/ message_type fo = 2 ->
  forall fo' ty sd x, ~ message_in strict p fo' ty sd x.
Proof. intros B M fo' ty sd x [f n t q H T]. apply B in H. destruct H as (-> & _). lia. Qed.
Lemma report_iff strict p fo r : begins strict p fo r -> message_type fo = 2 ->
  forall ty to x, report_in strict p ty to x <->
    exists mr n q, r = mr :: n :: ty :: q /\ to = firstn (Z.to_nat ((n + 1) / 2)) q /\ x = skipn (Z.to_nat ((n + 1) / 2)) q.
Proof.
  intros B M ty to x. split.
  - intros [f mr n t q H _]. apply B in H. destruct H as (-> & <-). eauto 8.
  - intros (mr & n & q & E & -> & ->). econstructor; [|exact M]. apply B. eauto.
Qed.
Lemma no_report strict p fo r : begins strict p fo r -> message_type fo <> 2 ->
  forall ty to x, ~ report_in strict p ty to x.
Proof. intros B M ty to x [f mr n t q H T]. apply B in H. destruct H as (-> & _). lia. Qed.

Lemma settles_none {A} (P : A -> Prop) o : (forall w, ~ P w) -> settles P o o.
Proof. intros H. right. auto. Qed.
Lemma settles_some {A} (P : A -> Prop) o v : P v -> (forall w, P w -> w = v) -> settles P o (Some v).
Proof. intros H U. left. exists v. split; [|reflexivity]. intros w. split; [apply U|intros ->; exact H]. Qed.

Lemma stamp_fun ts t t' : Forall octet ts -> stamp ts t -> stamp ts t' -> t = t'.
Proof.
  intros O H H'. destruct (strptime_stamp _ _ H O) as (E & _). destruct (strptime_stamp _ _ H' O) as (E' & _).
  rewrite E in E'. now injection E'.
Qed.
Lemma stamp_length ts t : stamp ts t -> length ts = 6%nat.
Proof. intros (oy & om & od & oh & oi & os & -> & _). reflexivity. Qed.

Lemma message_run strict p fo r s : begins strict p fo r -> octet fo -> Forall octet r ->
  message_type fo = 0 \/ message_type fo = 3 ->
  let s' := snd (decode_deliver fo r s) in settled strict p s s' /\ unchanged s s'.
Proof.
  intros B Of Or M. pose proof (message_iff _ _ _ _ B M) as MI.
  assert (NR : forall ty to x, ~ report_in strict p ty to x) by (apply no_report with (fo := fo) (r := r); [exact B|lia]).
  assert (NF : forall fo' mr x, first_in strict p fo' (mr :: x) -> message_type fo' <> 2).
  { intros fo' mr x H. apply B in H. destruct H as (-> & _). lia. }
  assert (NT : forall w, ~ type_in strict p w) by (intros w [ty to x H]; exact (NR _ _ _ H)).
  assert (NS : forall w, ~ result_in strict p w) by (intros w [ty to x dt z H _]; exact (NR _ _ _ H)).
  (* what stops short of the date *)
  assert (ND : forall n ty q, r = n :: ty :: q -> forall dcs t oz x, dated_in strict p fo dcs t oz x ->
    exists pid z, skipn (Z.to_nat ((n + 1) / 2)) q = pid :: dcs :: z /\ stamp (firstn 6 z) t /\ skipn 6 z = oz :: x).
  { intros n ty q E dcs t oz x H. inversion H as [f ty' sd pid d z t' oz' x' H1 H2 H3]; subst.
    apply MI in H1. destruct H1 as (_ & n' & q' & E & _ & E'). injection E as <- <- <-. eauto 8. }
  assert (DF : forall f dcs t oz x, dated_in strict p f dcs t oz x -> f = fo).
  { intros f dcs t oz x [f' ty' sd pid d z t' oz' x' H1 H2 H3]. apply MI in H1. tauto. }
  cbn zeta. unfold decode_deliver.
  (* nothing at all *)
  assert (Z0 : (length r < 2)%nat -> settled strict p s s /\ unchanged s s).
  { intros L. assert (NM : forall fo' ty sd x, ~ message_in strict p fo' ty sd x).
    { intros fo' ty sd x H. apply MI in H. destruct H as (_ & n & q & -> & _). cbn in L. lia. }
    assert (N1 : forall w, ~ dcs_in strict p w) by (intros w [f ty sd pid d x H]; exact (NM _ _ _ _ H)).
    assert (N2 : forall f dcs t oz x, ~ dated_in strict p f dcs t oz x)
      by (intros f dcs t oz x [f' ty' sd pid d z t' oz' x' H1 H2 H3]; exact (NM _ _ _ _ H1)).
    split; [|repeat split]. constructor; try (apply settles_none).
    - intros w [f ty sd x t H _|ty to x H]; [exact (NM _ _ _ _ H)|exact (NR _ _ _ H)].
    - intros w [f ty sd pid x H]. exact (NM _ _ _ _ H).
    - exact N1.
    - intros w [d H|ty to x H]; [exact (N1 _ H)|exact (NR _ _ _ H)].
    - intros w [f d t oz x H|ty to x t H _]; [exact (N2 _ _ _ _ _ H)|exact (NR _ _ _ H)].
    - intros w [f d t oz udl ud text H _ _|ty to x a b c d H _ _]; [exact (N2 _ _ _ _ _ H)|exact (NR _ _ _ H)].
    - exact NT.
    - right. split; [|reflexivity]. intros w [f d t oz udl n x H _ _|f mr x H T]; [exact (N2 _ _ _ _ _ H)|exact (NF _ _ _ H T)].
    - right. auto. }
  destruct r as [|n [|ty q]]; [apply Z0; cbn; lia|apply Z0; cbn; lia|]. clear Z0.
  rewrite st_bind_eq. cbn [st_lift pop0]. cbn zeta. rewrite st_bind_eq. cbn [st_lift pop0]. cbn zeta.
  pose proof (Forall_inv Or) as On. pose proof (Forall_inv (Forall_inv_tail Or)) as Ot.
  apply Forall_inv_tail, Forall_inv_tail in Or.
  rewrite addr_octets_spec by (unfold octet in On; lia). unfold py_to, py_from.
  specialize (ND n ty q eq_refl). set (k := Z.to_nat ((n + 1) / 2)) in *.
  assert (Os : Forall octet (firstn k q)) by now apply Forall_firstn.
  assert (Ob : Forall octet (skipn k q)) by now apply Forall_skipn.
  assert (MI' : forall fo' ty' sd x, message_in strict p fo' ty' sd x <-> fo' = fo /\ ty' = ty /\ sd = firstn k q /\ x = skipn k q).
  { intros fo' ty' sd x. rewrite MI. split.
    - intros (-> & n' & q' & E & -> & ->). injection E as <- <- <-. auto.
    - intros (-> & -> & -> & ->). split; [reflexivity|]. exists n, q. auto. }
  clear MI. rename MI' into MI.
  destruct (sender_total (Z.land (Z.shiftr ty 4) 7) (firstn k q) Os) as (t0 & E0).
  pose proof (sender_out ty _ t0 Ot Os E0) as S0.
  rewrite st_bind_eq. cbn [st_lift]. rewrite E0. rewrite st_bind_eq. cbn [assign st_upd].
  assert (G1 : forall o, settles (number_in strict p) o (Some t0)).
  { intros o. apply settles_some.
    - apply ni_message with (fo := fo) (ty := ty) (sender := firstn k q) (r := skipn k q); [now apply MI|exact S0].
    - intros w [f ty' sd x t H K|ty' to x H]; [|destruct (NR _ _ _ H)].
      apply MI in H. destruct H as (_ & -> & -> & _). exact (sender_fun _ _ _ _ K S0). }
  destruct (skipn k q) as [|pid x1] eqn:E1.
  { assert (N1 : forall w, ~ dcs_in strict p w).
    { intros w [f ty' sd pid d x H]. apply MI in H. destruct H as (_ & _ & _ & H). discriminate H. }
    assert (N2 : forall f dcs t oz x, ~ dated_in strict p f dcs t oz x).
    { intros f dcs t oz x H. pose proof (DF _ _ _ _ _ H). subst f. destruct (ND _ _ _ _ H) as (a & b & X & _). discriminate X. }
    cbn. split; [|repeat split]. constructor; try (apply settles_none); cbn; try apply G1.
    - intros w [f ty' sd pid x H]. apply MI in H. destruct H as (_ & _ & _ & H). discriminate H.
    - exact N1.
    - intros w [d H|ty' to x H]; [exact (N1 _ H)|exact (NR _ _ _ H)].
    - intros w [f d t oz x H|ty' to x t H _]; [exact (N2 _ _ _ _ _ H)|exact (NR _ _ _ H)].
    - intros w [f d t oz udl ud text H _ _|ty' to x a b c d H _ _]; [exact (N2 _ _ _ _ _ H)|exact (NR _ _ _ H)].
    - exact NT.
    - right. split; [|reflexivity]. intros w [f d t oz udl n' x H _ _|f mr x H T]; [exact (N2 _ _ _ _ _ H)|exact (NF _ _ _ H T)].
    - right. auto. }
  rewrite st_bind_eq. cbn [st_lift pop0]. rewrite st_bind_eq. cbn [assign st_upd].
  assert (G2 : forall o, settles (pid_in strict p) o (Some pid)).
  { intros o. apply settles_some.
    - apply pi_message with (fo := fo) (ty := ty) (sender := firstn k q) (r := x1). now apply MI.
    - intros w [f ty' sd pid' x H]. apply MI in H. destruct H as (_ & _ & _ & H). now injection H. }
  destruct x1 as [|dcs x2].
  { assert (N1 : forall w, ~ dcs_in strict p w).
    { intros w [f ty' sd pid' d x H]. apply MI in H. destruct H as (_ & _ & _ & H). discriminate H. }
    assert (N2 : forall f dcs t oz x, ~ dated_in strict p f dcs t oz x).
    { intros f dcs t oz x H. pose proof (DF _ _ _ _ _ H). subst f. destruct (ND _ _ _ _ H) as (a & b & X & _). discriminate X. }
    cbn. split; [|repeat split]. constructor; try (apply settles_none); cbn; try apply G1; try apply G2.
    - exact N1.
    - intros w [d H|ty' to x H]; [exact (N1 _ H)|exact (NR _ _ _ H)].
    - intros w [f d t oz x H|ty' to x t H _]; [exact (N2 _ _ _ _ _ H)|exact (NR _ _ _ H)].
    - intros w [f d t oz udl ud text H _ _|ty' to x a b c d H _ _]; [exact (N2 _ _ _ _ _ H)|exact (NR _ _ _ H)].
    - exact NT.
    - right. split; [|reflexivity]. intros w [f d t oz udl n' x H _ _|f mr x H T]; [exact (N2 _ _ _ _ _ H)|exact (NF _ _ _ H T)].
    - right. auto. }
  rewrite st_bind_eq. cbn [st_lift pop0]. rewrite st_bind_eq. cbn [assign st_upd]. rewrite st_bind_eq. cbn [assign st_upd].
  pose proof (Forall_inv (Forall_inv_tail Ob)) as Od. apply Forall_inv_tail, Forall_inv_tail in Ob.
  assert (D1 : dcs_in strict p dcs).
  { apply di_message with (fo := fo) (ty := ty) (sender := firstn k q) (pid := pid) (r := x2). now apply MI. }
  assert (D2 : forall w, dcs_in strict p w -> w = dcs).
  { intros w [f ty' sd pid' d x H]. apply MI in H. destruct H as (_ & _ & _ & H). now injection H. }
  assert (G3 : forall o, settles (dcs_in strict p) o (Some dcs)) by (intros o; now apply settles_some).
  assert (G4 : forall o, settles (coding_in strict p) o (Some (fmt_of_dcs dcs))).
  { intros o. rewrite coding_taken_fmt by exact Od. apply settles_some; [now constructor|].
    intros w [d H|ty' to x H]; [|destruct (NR _ _ _ H)]. apply D2 in H. congruence. }
  assert (Ots : Forall octet (firstn 6 x2)) by now apply Forall_firstn.
  assert (Ozs : Forall octet (skipn 6 x2)) by now apply Forall_skipn.
  change (Z.to_nat 6) with 6%nat.
  (* up to here and no date *)
  assert (Z1 : (forall f d t oz x, ~ dated_in strict p f d t oz x) ->
    let s' := set_d_fmt (Some (fmt_of_dcs dcs)) (set_d_dcs (Some dcs) (set_d_pid (Some pid) (set_d_number (Some t0) s))) in
    settled strict p s s' /\ unchanged s s').
  { intros N2. cbn zeta. split; [|repeat split].
    constructor; try (apply settles_none); cbn; try apply G1; try apply G2; try apply G3; try apply G4.
    - intros w [f d t oz x H|ty' to x t H _]; [exact (N2 _ _ _ _ _ H)|exact (NR _ _ _ H)].
    - intros w [f d t oz udl ud text H _ _|ty' to x a b c d H _ _]; [exact (N2 _ _ _ _ _ H)|exact (NR _ _ _ H)].
    - exact NT.
    - right. split; [|reflexivity]. intros w [f d t oz udl n' x H _ _|f mr x H T]; [exact (N2 _ _ _ _ _ H)|exact (NF _ _ _ H T)].
    - right. auto. }
  cbn zeta in Z1.
  destruct (skipn 6 x2) as [|oz x3] eqn:E3.
  { rewrite st_bind_eq. cbn [st_lift pop0]. cbn [snd]. apply Z1. intros f d t oz x H.
    pose proof (DF _ _ _ _ _ H). subst f. destruct (ND _ _ _ _ H) as (a & b & X & _ & Y). injection X as <- <- <-. congruence. }
  rewrite st_bind_eq. cbn [st_lift pop0]. rewrite st_bind_eq. cbn [st_lift].
  assert (L6 : length (firstn 6 x2) = 6%nat).
  { pose proof (skipn_length 6 x2) as X. rewrite E3 in X. cbn [length] in X. rewrite firstn_length. lia. }
  destruct (strptime (swap (encode_bytes (firstn 6 x2)))) as [t|e] eqn:ET.
  2:{ cbn [snd]. apply Z1. intros f d t oz' x H.
      pose proof (DF _ _ _ _ _ H). subst f. destruct (ND _ _ _ _ H) as (a & b & X & St & Y). injection X as <- <- <-.
      destruct (strptime_stamp _ _ St Ots) as (C & _). congruence. }
  clear Z1. assert (St : stamp (firstn 6 x2) t).
  { destruct (strptime_only _ _ Ots L6 ET) as (t' & St). destruct (strptime_stamp _ _ St Ots) as (Et & _). congruence. }
  rewrite st_bind_eq. cbn [assign st_upd]. rewrite tz_minutes_spec by exact (Forall_inv Ozs).
  replace (15 * zone_quarters oz * 60) with (900 * zone_quarters oz) by lia.
  assert (T1 : dated_in strict p fo dcs t oz x3).
  { apply da_message with (ty := ty) (sender := firstn k q) (pid := pid) (r := x2); [now apply MI|exact St|exact E3]. }
  assert (T2 : forall f d t' oz' x, dated_in strict p f d t' oz' x -> f = fo /\ d = dcs /\ t' = t /\ oz' = oz /\ x = x3).
  { intros f d t' oz' x H. pose proof (DF _ _ _ _ _ H). subst f.
    destruct (ND _ _ _ _ H) as (a & b & X & St' & Y). injection X as <- <- <-.
    rewrite E3 in Y. injection Y as <- <-. split; [reflexivity|]. split; [reflexivity|].
    split; [exact (stamp_fun _ _ _ Ots St' St)|auto]. }
  assert (G5 : forall o, settles (date_in strict p) o (Some (t - 900 * zone_quarters oz))).
  { intros o. apply settles_some; [now apply dt_message with (fo := fo) (dcs := dcs) (r := x3)|].
    intros w [f d t' oz' x H|ty' to x t' H _]; [|destruct (NR _ _ _ H)].
    apply T2 in H. destruct H as (_ & _ & -> & -> & _). reflexivity. }
  set (s5 := set_d_date _ _).
  assert (Z2 : forall s', settles (text_in strict p) (d_text s) (d_text s') ->
    settles_header (header_in strict p) (d_udh s) (d_udh s') ->
    (exists ou ot, s' = put set_d_text ot (put set_d_udh ou s5)) -> settled strict p s s' /\ unchanged s s').
  { intros s' TX HX (ou & ot & ->). split; [|destruct ou, ot; repeat split].
    constructor; try exact TX; try exact HX; destruct ou, ot; cbn;
      try apply G1; try apply G2; try apply G3; try apply G4; try apply G5; try (apply settles_none; exact NT); right; auto. }
  destruct x3 as [|udl ud].
  { apply Z2; [| |exists None, None; reflexivity].
    - apply settles_none. intros w [f d t' oz' udl ud text H _ _|ty' to x a b c d H _ _]; [|exact (NR _ _ _ H)].
      apply T2 in H. destruct H as (_ & _ & _ & _ & H). discriminate H.
    - right. split; [|reflexivity]. intros w [f d t' oz' udl n' x H _ _|f mr x H T]; [|exact (NF _ _ _ H T)].
      apply T2 in H. destruct H as (_ & _ & _ & _ & H). discriminate H. }
  pose proof (Forall_inv_tail Ozs) as Oud. pose proof (Forall_inv Oud) as Oul. apply Forall_inv_tail in Oud.
  destruct (data_run fo dcs udl ud s5 Of Od Oul Oud) as (ou & ot & E & X1 & X2). rewrite E.
  apply Z2; [| |eauto].
  - destruct ot as [text|].
    + destruct X1 as (Y1 & Y2).
      replace (d_text (put set_d_text _ _)) with (Some text) by (destruct ou; reflexivity). apply settles_some.
      * now apply te_message with (fo := fo) (dcs := dcs) (t := t) (oz := oz) (udl := udl) (ud := ud).
      * intros w [f d t' oz' udl' ud' text' H _ K|ty' to x a b c d H _ _]; [|destruct (NR _ _ _ H)].
        apply T2 in H. destruct H as (-> & -> & _ & _ & H). injection H as -> ->. exact (text_fun _ _ _ _ _ _ K Y2).
    + replace (d_text (put set_d_text _ _)) with (d_text s) by (destruct ou; reflexivity). apply settles_none.
      destruct X1 as (e & X1).
      intros w [f d t' oz' udl' ud' text' H K _|ty' to x a b c d H _ _]; [|exact (NR _ _ _ H)].
      apply T2 in H. destruct H as (-> & -> & _ & _ & H). injection H as -> ->. exact (K _ X1).
  - destruct ou as [u|].
    + destruct X2 as (U & n' & r' & -> & Y1 & Y2).
      replace (d_udh (put set_d_text _ _)) with (Some u) by (destruct ot; reflexivity). left.
      exists (HeaderOctets (firstn (Z.to_nat n') r')). split; [|exact Y2]. intros w. split.
      * intros [f d t' oz' udl' n2 x H _ _|f mr x H T]; [|destruct (NF _ _ _ H T)].
        apply T2 in H. destruct H as (_ & _ & _ & _ & H). injection H as -> -> ->. reflexivity.
      * intros ->. now apply he_message with (fo := fo) (dcs := dcs) (t := t) (oz := oz) (udl := udl).
    + replace (d_udh (put set_d_text _ _)) with (d_udh s) by (destruct ot; reflexivity). right. split; [|reflexivity].
      intros w [f d t' oz' udl' n2 x H U K|f mr x H T]; [|exact (NF _ _ _ H T)].
      apply T2 in H. destruct H as (-> & _ & _ & _ & H). injection H as -> <-.
      apply X2. split; [exact U|]. eauto.
Qed.

(** * A status report behind its first octet *)

Lemma date_fun ts a s b s' : Forall octet ts -> date_shown ts a s -> date_shown ts b s' -> a = b /\ s = s'.
Proof.
  intros O H H'. destruct H as [t St|N]; destruct H' as [t' St'|N'].
  - rewrite (stamp_fun _ _ _ O St St'). auto.
  - destruct (N' _ St).
  - destruct (N _ St').
  - auto.
Qed.

Lemma report_run strict p fo r s : begins strict p fo r -> Forall octet r -> message_type fo = 2 ->
  let s' := snd (decode_status_report_pdu r s) in settled strict p s s' /\ unchanged s s'.
Proof.
  intros B Or M. pose proof (report_iff _ _ _ _ B M) as RI.
  pose proof (no_message _ _ _ _ B (or_intror M)) as NM.
  assert (N1 : forall w, ~ dcs_in strict p w) by (intros w [f ty sd pid d x H]; exact (NM _ _ _ _ H)).
  assert (N2 : forall f dcs t oz x, ~ dated_in strict p f dcs t oz x)
    by (intros f dcs t oz x [f' ty' sd pid d z t' oz' x' H1 H2 H3]; exact (NM _ _ _ _ H1)).
  assert (N3 : forall w, ~ pid_in strict p w) by (intros w [f ty sd pid x H]; exact (NM _ _ _ _ H)).
  cbn zeta.
  assert (Z0 : (length r < 3)%nat -> forall s', settles_header (header_in strict p) (d_udh s) (d_udh s') ->
    (exists ou, s' = put set_d_udh ou s) -> settled strict p s s' /\ unchanged s s').
  { intros L s' HX (ou & ->). assert (NR : forall ty to x, ~ report_in strict p ty to x).
    { intros ty to x H. apply RI in H. destruct H as (mr & n & q & -> & _). cbn in L. lia. }
    split; [|destruct ou; repeat split].
    assert (Q : forall A (P : A -> Prop) (g : deliver -> option A), g (put set_d_udh ou s) = g s -> (forall w, ~ P w) ->
      settles P (g s) (g (put set_d_udh ou s))) by (intros A P g E N; rewrite E; now apply settles_none).
    constructor; try exact HX; try (apply Q; [destruct ou; reflexivity|]).
    - intros w [f ty sd x t H _|ty to x H]; [exact (NM _ _ _ _ H)|exact (NR _ _ _ H)].
    - exact N3.
    - exact N1.
    - intros w [d H|ty to x H]; [exact (N1 _ H)|exact (NR _ _ _ H)].
    - intros w [f d t oz x H|ty to x t H _]; [exact (N2 _ _ _ _ _ H)|exact (NR _ _ _ H)].
    - intros w [f d t oz udl ud text H _ _|ty to x a b c d H _ _]; [exact (N2 _ _ _ _ _ H)|exact (NR _ _ _ H)].
    - intros w [ty to x H]. exact (NR _ _ _ H).
    - right. split; [|destruct ou; reflexivity]. intros w [ty to x dt z H _]. exact (NR _ _ _ H). }
  destruct r as [|mr r].
  { apply Z0; [cbn; lia| |now exists None]. right. split; [|reflexivity].
    intros w [f d t oz udl n x H _ _|f mr x H T]; [exact (N2 _ _ _ _ _ H)|]. apply B in H. destruct H as (_ & H). discriminate H. }
  assert (HX : settles_header (header_in strict p) (d_udh s) (Some (from_status_report_ref mr))).
  { left. exists (ReportReference mr). split.
    - intros w. split.
      + intros [f d t oz udl n x H _ _|f mr' x H T]; [destruct (N2 _ _ _ _ _ H)|]. apply B in H. destruct H as (_ & H). now injection H as -> _.
      + intros ->. apply he_report with (fo := fo) (r := r); [now apply B|exact M].
    - exists (from_status_report_ref mr). repeat split. }
  destruct r as [|n [|ty q]].
  { apply Z0; [cbn; lia|exact HX|now exists (Some (from_status_report_ref mr))]. }
  { apply Z0; [cbn; lia|exact HX|now exists (Some (from_status_report_ref mr))]. }
  clear Z0. apply Forall_inv_tail in Or. pose proof (Forall_inv Or) as On.
  pose proof (Forall_inv (Forall_inv_tail Or)) as Ot. apply Forall_inv_tail, Forall_inv_tail in Or.
  set (k := Z.to_nat ((n + 1) / 2)) in *. set (to := firstn k q). set (rest := skipn k q).
  assert (RI' : forall ty' to' x, report_in strict p ty' to' x <-> ty' = ty /\ to' = to /\ x = rest).
  { intros ty' to' x. rewrite RI. split.
    - intros (mr' & n' & q' & E & -> & ->). injection E as <- <- <- <-. auto.
    - intros (-> & -> & ->). exists mr, n, q. auto. }
  clear RI. rename RI' into RI.
  assert (R1 : report_in strict p ty to rest) by now apply RI.
  assert (Orest : Forall octet rest) by now apply Forall_skipn.
  assert (O6 : Forall octet (firstn 6 rest)) by now apply Forall_firstn.
  assert (O7 : Forall octet (firstn 6 (skipn 7 rest))) by now apply Forall_firstn, Forall_skipn.
  destruct (report_date_out rest Orest) as (scts & s1 & E1 & D1).
  destruct (report_date_out (skipn 7 rest) ltac:(now apply Forall_skipn)) as (dt & s2 & E2 & D2).
  assert (E3 : pop0 (skipn 7 (skipn 7 rest)) =
               match nth_error rest 14 with Some x => Ok (x, skipn 15 rest) | None => Err IndexError end).
  { generalize rest. clear. intros rest. do 15 (destruct rest as [|? rest]; [reflexivity|]). reflexivity. }
  set (s6 := put set_d_date scts (set_d_udh (Some (from_status_report_ref mr)) s)).
  assert (X : snd (decode_status_report_pdu (mr :: n :: ty :: q) s) =
    set_d_sr (Some (SReport (address_text ty to) (d_date s6) dt (nth_error rest 14)))
    (set_d_type (Some 3) (set_d_fmt (Some 8) (set_d_text
      (Some (address_text ty to ++ str "|" ++ s1 ++ str "|" ++
             match nth_error rest 14 with None | Some 0 => s2 | _ => [] end))
      (set_d_number (Some (state_name (nth_error rest 14))) s6))))).
  { unfold decode_status_report_pdu. rewrite st_bind_eq. cbn [st_lift pop0]. rewrite st_bind_eq. cbn [assign st_upd].
    rewrite st_bind_eq. cbn [st_lift pop0]. cbn zeta. rewrite st_bind_eq. cbn [st_lift pop0].
    rewrite addr_octets_spec by (unfold octet in On; lia).
    rewrite plus_shown by (exact Ot || now apply Forall_py_to).
    unfold py_to, py_from. fold k. fold to. fold rest. change (Z.to_nat 7) with 7%nat. rewrite E1, E2, E3.
    assert (C : forall x, match x with 0 => s2 | _ => [] end = (if x =? 0 then s2 else [])).
    { intros x. destruct x; reflexivity. }
    assert (C' : forall x, state_name (Some x) = if x =? 0 then str "SR-OK" else if x =? 1 then str "SR-UNKNOWN"
        else if x =? 48 then str "SR-STORED" else str "SR-UNKNOWN").
    { intros x. destruct (x =? 0) eqn:X0; [assert (x = 0) by lia; now subst|].
      destruct (x =? 1) eqn:X1; [assert (x = 1) by lia; now subst|].
      destruct (x =? 48) eqn:X2; [assert (x = 48) by lia; now subst|].
      unfold state_name. destruct x as [|b|b]; [discriminate X0| |reflexivity].
      do 6 (destruct b as [b|b|]; try reflexivity); discriminate X2. }
    subst s6. destruct (nth_error rest 14) as [st|].
    - rewrite C, C'. destruct scts; reflexivity.
    - destruct scts; reflexivity. }
  rewrite X. clear X.
  assert (DT : d_date s6 = match scts with Some t => Some t | None => d_date s end) by (subst s6; destruct scts; reflexivity).
  split; [|subst s6; destruct scts; repeat split].
  constructor; cbn [d_number d_pid d_dcs d_fmt d_date d_text d_type d_udh d_sr set_d_sr set_d_type set_d_fmt set_d_text set_d_number].
  - apply settles_some; [exact (ni_report _ _ _ _ _ R1)|].
    intros w [f ty' sd x t H _|ty' to' x H]; [destruct (NM _ _ _ _ H)|]. apply RI in H. destruct H as (_ & _ & ->). reflexivity.
  - replace (d_pid s6) with (d_pid s) by (subst s6; destruct scts; reflexivity). now apply settles_none.
  - replace (d_dcs s6) with (d_dcs s) by (subst s6; destruct scts; reflexivity). now apply settles_none.
  - apply settles_some; [exact (co_report _ _ _ _ _ R1)|]. intros w [d H|ty' to' x H]; [destruct (N1 _ H)|reflexivity].
  - rewrite DT. inversion D1 as [t St Q1 Q2|N Q1 Q2].
    + apply settles_some; [exact (dt_report _ _ _ _ _ _ R1 St)|].
      intros w [f d t' oz x H|ty' to' x t' H K]; [destruct (N2 _ _ _ _ _ H)|].
      apply RI in H. destruct H as (_ & _ & ->). apply (stamp_fun _ _ _ O6 K St).
    + apply settles_none. intros w [f d t' oz x H|ty' to' x t' H K]; [exact (N2 _ _ _ _ _ H)|].
      apply RI in H. destruct H as (_ & _ & ->). exact (N _ K).
  - apply settles_some; [exact (te_report _ _ _ _ _ _ _ _ _ R1 D1 D2)|].
    intros w [f d t oz udl ud text H _ _|ty' to' x a b c d H K1 K2]; [destruct (N2 _ _ _ _ _ H)|].
    apply RI in H. destruct H as (-> & -> & ->).
    destruct (date_fun _ _ _ _ _ O6 K1 D1) as (_ & ->).
    destruct (date_fun _ _ _ _ _ O7 K2 D2) as (_ & ->). reflexivity.
  - apply settles_some; [exact (ty_report _ _ _ _ _ R1)|]. intros w [ty' to' x H]. reflexivity.
  - replace (d_udh s6) with (Some (from_status_report_ref mr)) by (subst s6; destruct scts; reflexivity). exact HX.
  - left. exists (address_text ty to, dt, nth_error rest 14). split; [|reflexivity]. intros w. split.
    + intros [ty' to' x dt' z H K]. apply RI in H. destruct H as (-> & -> & ->).
      destruct (date_fun _ _ _ _ _ O7 K D2) as (-> & _). reflexivity.
    + intros ->. exact (re_report _ _ _ _ _ _ _ R1 D2).
Qed.

(** * The whole *)

Lemma quiet strict p s s' : (forall fo ty sd x, ~ message_in strict p fo ty sd x) ->
  (forall fo mr x, first_in strict p fo (mr :: x) -> message_type fo <> 2) ->
  d_number s' = d_number s -> d_pid s' = d_pid s -> d_dcs s' = d_dcs s -> d_fmt s' = d_fmt s ->
  d_date s' = d_date s -> d_text s' = d_text s -> d_type s' = d_type s -> d_udh s' = d_udh s ->
  d_sr s' = d_sr s -> settled strict p s s'.
Proof.
  intros NM NF Q1 Q2 Q3 Q4 Q5 Q6 Q7 Q8 Q9.
  assert (NR : forall ty to x, ~ report_in strict p ty to x) by (intros ty to x [f mr n t q H T]; exact (NF _ _ _ H T)).
  assert (N1 : forall w, ~ dcs_in strict p w) by (intros w [f ty sd pid d x H]; exact (NM _ _ _ _ H)).
  assert (N2 : forall f dcs t oz x, ~ dated_in strict p f dcs t oz x)
    by (intros f dcs t oz x [f' ty' sd pid d z t' oz' x' H1 H2 H3]; exact (NM _ _ _ _ H1)).
  constructor; rewrite ?Q1, ?Q2, ?Q3, ?Q4, ?Q5, ?Q6, ?Q7, ?Q8, ?Q9; try apply settles_none.
  - intros w [f ty sd x t H _|ty to x H]; [exact (NM _ _ _ _ H)|exact (NR _ _ _ H)].
  - intros w [f ty sd pid x H]. exact (NM _ _ _ _ H).
  - exact N1.
  - intros w [d H|ty to x H]; [exact (N1 _ H)|exact (NR _ _ _ H)].
  - intros w [f d t oz x H|ty to x t H _]; [exact (N2 _ _ _ _ _ H)|exact (NR _ _ _ H)].
  - intros w [f d t oz udl ud text H _ _|ty to x a b c d H _ _]; [exact (N2 _ _ _ _ _ H)|exact (NR _ _ _ H)].
  - intros w [ty to x H]. exact (NR _ _ _ H).
  - right. split; [|reflexivity]. intros w [f d t oz udl n x H _ _|f mr x H T]; [exact (N2 _ _ _ _ _ H)|exact (NF _ _ _ H T)].
  - right. split; [|reflexivity]. intros w [ty to x dt z H _]. exact (NR _ _ _ H).
Qed.

(** The attributes in front. *)
Record settled_front (strict : bool) (p : list Z) (s s' : deliver) : Prop := SettledFront {
  sf_strict : d_strict s' = d_strict s;
  sf_pdu : settles (kept strict p) (d_pdu s) (d_pdu s');
  sf_first : settles (octet_in strict p) (d_mtype s) (d_mtype s');
  sf_centre : (exists c, (forall w, centre_in strict p w <-> w = c) /\ d_csca s' = c) \/
              ((forall w, ~ centre_in strict p w) /\ d_csca s' = d_csca s) }.

Lemma settled_ext strict p s0 s s' : d_number s0 = d_number s -> d_pid s0 = d_pid s -> d_dcs s0 = d_dcs s ->
  d_fmt s0 = d_fmt s -> d_date s0 = d_date s -> d_text s0 = d_text s -> d_type s0 = d_type s -> d_udh s0 = d_udh s ->
  d_sr s0 = d_sr s -> settled strict p s0 s' -> settled strict p s s'.
Proof.
  intros Q1 Q2 Q3 Q4 Q5 Q6 Q7 Q8 Q9 []. constructor; rewrite <- ?Q1, <- ?Q2, <- ?Q3, <- ?Q4, <- ?Q5, <- ?Q6, <- ?Q7, <- ?Q8, <- ?Q9; assumption.
Qed.

Lemma smsc_run o s : Forall octet o ->
  match decode_smsc o s with
  | (Ok x, s') => exists c, centre_shown o c /\ the_behind o = Some x /\ s' = set_d_csca c s
  | (Err _, s') => the_behind o = None /\ (forall c, ~ centre_shown o c) /\ s' = s
  end.
Proof.
  intros O. unfold decode_smsc. rewrite st_bind_eq. cbn [st_lift]. destruct o as [|l r]; cbn [pop0].
  { split; [reflexivity|]. split; [intros c H; inversion H|reflexivity]. }
  pose proof (Forall_inv O) as Ol. unfold octet in Ol. cbn [the_behind]. destruct (0 <? l) eqn:L.
  - rewrite st_bind_eq. cbn [st_lift]. destruct r as [|ty q]; cbn [pop0].
    { split; [reflexivity|]. split; [intros c H; inversion H; subst; lia|reflexivity]. }
    cbn zeta. rewrite st_bind_eq. cbn [assign st_upd].
    pose proof (plus_shown ty (py_to q (l - 1)) (Forall_inv (Forall_inv_tail O))
      (Forall_py_to octet (l - 1) q (Forall_inv_tail (Forall_inv_tail O)))) as P.
    rewrite st_bind_eq. destruct (Z.land (Z.shiftr ty 4) 7 =? 1); cbn [assign st_upd st_ret];
      (exists (Some (address_text ty (firstn (Z.to_nat (l - 1)) q))); split; [apply cs_some; lia|];
       split; [reflexivity|]; unfold py_to in *; rewrite <- P; reflexivity).
  - assert (l = 0) by lia. subst l. exists None. split; [constructor|]. split; reflexivity.
Qed.

Lemma assigned p s : let s' := snd (set_pdu p s) in
  settled (d_strict s) p s s' /\ settled_front (d_strict s) p s s'.
Proof.
  cbn zeta. unfold set_pdu. rewrite st_bind_eq. cbn [st_get]. cbn zeta. fold (the_kept (d_strict s) p).
  set (strict := d_strict s). set (k := the_kept strict p).
  destruct (zlen k mod 2 =? 0) eqn:L; cbn [negb].
  2:{ cbn [st_err snd]. assert (NO : forall o, ~ the_octets strict p o).
      { intros o H. apply octets_iff in H. fold k in H. lia. }
      assert (N : forall fo r, ~ first_in strict p fo r) by (intros fo r [o f q H _]; exact (NO _ H)).
      split; [apply quiet; try reflexivity|constructor; [reflexivity|..]].
      - intros fo ty sd x [f n t q H _]. exact (N _ _ H).
      - intros fo mr x H. destruct (N _ _ H).
      - apply settles_none. intros w H. apply kept_iff in H. fold k in H. lia.
      - apply settles_none. intros w (r & H). exact (N _ _ H).
      - right. split; [|reflexivity]. intros w [o c H _]. exact (NO _ H). }
  rewrite st_bind_eq. cbn [assign st_upd].
  assert (GK : settles (kept strict p) (d_pdu s) (Some k)).
  { apply settles_some; [apply kept_iff; split; [reflexivity|fold k; lia]|]. intros w H. apply kept_iff in H. tauto. }
  rewrite st_bind_eq. cbn [st_lift]. destruct (to_array k) as [o|e] eqn:A.
  2:{ cbn [snd]. assert (NO : forall o, ~ the_octets strict p o).
      { intros o H. apply octets_iff in H. fold k in H. rewrite A in H. destruct H as (_ & H). discriminate H. }
      assert (N : forall fo r, ~ first_in strict p fo r) by (intros fo r [o f q H _]; exact (NO _ H)).
      split; [apply quiet; try reflexivity|constructor; [reflexivity|exact GK|..]].
      - intros fo ty sd x [f n t q H _]. exact (N _ _ H).
      - intros fo mr x H. destruct (N _ _ H).
      - apply settles_none. intros w (r & H). exact (N _ _ H).
      - right. split; [|reflexivity]. intros w [o c H _]. exact (NO _ H). }
  assert (OI : forall x, the_octets strict p x <-> x = o).
  { intros x. rewrite octets_iff. fold k. rewrite A. split; [intros (_ & [= ->]); reflexivity|intros ->; split; [lia|reflexivity]]. }
  assert (Oo : Forall octet o) by (apply array_numbers in A; [tauto|lia]).
  assert (FI : forall fo r, first_in strict p fo r <-> the_behind o = Some (fo :: r)).
  { intros fo r. split.
    - intros [x f q H K]. apply OI in H. subst x. now apply behind_iff in K.
    - intros H. apply behind_iff in H; [|exact Oo]. apply fi_first with (o := o); [now apply OI|exact H]. }
  assert (CI : forall c, centre_in strict p c <-> centre_shown o c).
  { intros c. split; [intros [x c' H K]; apply OI in H; now subst x|]. intros H. apply ci_centre with (o := o); [now apply OI|exact H]. }
  set (s1 := set_d_pdu (Some k) s). pose proof (smsc_run o s1 Oo) as R.
  rewrite st_bind_eq. destruct (decode_smsc o s1) as [[x|e] s2].
  2:{ destruct R as (R1 & R2 & ->). cbn [snd]. 
      assert (N : forall fo r, ~ first_in strict p fo r) by (intros fo r H; apply FI in H; congruence).
      split; [apply quiet; try reflexivity|constructor; [reflexivity|exact GK|..]].
      - intros fo ty sd y [f n t q H _]. exact (N _ _ H).
      - intros fo mr y H. destruct (N _ _ H).
      - apply settles_none. intros w (r & H). exact (N _ _ H).
      - right. split; [|reflexivity]. intros w H. apply CI in H. exact (R2 _ H). }
  destruct R as (c & C & Bx & ->).
  assert (GC : forall s', d_csca s' = c ->
    (exists c, (forall w, centre_in strict p w <-> w = c) /\ d_csca s' = c) \/
    ((forall w, ~ centre_in strict p w) /\ d_csca s' = d_csca s)).
  { intros s' E. left. exists c. split; [|exact E]. intros w. rewrite CI.
    split; [intros H; exact (centre_fun _ _ _ H C)|intros ->; exact C]. }
  rewrite st_bind_eq. cbn [st_lift]. destruct x as [|fo r]; cbn [pop0].
  { cbn [snd]. assert (N : forall fo r, ~ first_in strict p fo r) by (intros fo r H; apply FI in H; congruence).
    split; [apply quiet; try reflexivity|constructor; [reflexivity|exact GK| |apply GC; reflexivity]].
    - intros fo ty sd y [f n t q H _]. exact (N _ _ H).
    - intros fo mr y H. destruct (N _ _ H).
    - apply settles_none. intros w (r & H). exact (N _ _ H). }
  rewrite st_bind_eq. cbn [assign st_upd]. set (s3 := set_d_mtype (Some fo) (set_d_csca c s1)).
  assert (B : begins strict p fo r).
  { intros fo' r'. rewrite FI, Bx. split; [intros [= -> ->]; auto|intros (-> & ->); reflexivity]. }
  assert (Or : Forall octet (fo :: r)).
  { apply (proj2 (behind_iff _ _ Oo)) in Bx. clear - Bx Oo. remember (fo :: r) as y.
    destruct Bx; [subst; now apply Forall_inv_tail in Oo|].
    apply Forall_skipn. now apply Forall_inv_tail, Forall_inv_tail in Oo. }
  pose proof (Forall_inv Or) as Of. apply Forall_inv_tail in Or. rewrite mti_bits by exact Of.
  assert (GF : forall o, settles (octet_in strict p) o (Some fo)).
  { intros y. apply settles_some; [exists r; now apply B|]. intros w (z & H). apply B in H. tauto. }
  assert (End : forall s', settled strict p s3 s' -> unchanged s3 s' -> settled strict p s s' /\ settled_front strict p s s').
  { intros s' H (U1 & U2 & U3 & U4). split.
    - eapply settled_ext; [..|exact H]; reflexivity.
    - constructor; [exact U1|rewrite U2; exact GK|rewrite U4; apply GF|apply GC; exact U3]. }
  assert (T : message_type fo = 0 \/ message_type fo = 1 \/ message_type fo = 2 \/ message_type fo = 3)
    by (unfold message_type; lia).
  destruct (message_type fo =? 2) eqn:E2; [|destruct (message_type fo =? 1) eqn:E1].
  - destruct (report_run strict p fo r s3 B Or ltac:(lia)) as (H & U). now apply End.
  - cbn [st_err snd]. apply End; [|repeat split]. apply quiet; try reflexivity.
    + apply no_message with (fo := fo) (r := r); [exact B|lia].
    + intros fo' mr x H. apply B in H. destruct H as (-> & _). lia.
  - destruct (message_run strict p fo r s3 B Of Or ltac:(lia)) as (H & U). now apply End.
Qed.
