(** Proofs about validity periods and time zones. *)
From Coq Require Import Lia ZifyBool ZifyNat.
From Verif Require Import Py PyFacts SpecTime Utils.
Open Scope Z_scope.
Ltac Zify.zify_post_hook ::= Z.div_mod_to_equations.

Ltac unfold_td := unfold td_minutes, td_hours, td_of_days, td_weeks, td_days,
  td_seconds, us_day, us_sec in *.

Lemma relative_floor t :
  5 * 60 * 1000000 <= t <= 63 * 7 * 86400 * 1000000 ->
  exists v, timedelta_to_relative_validity t = Ok (Some v) /\ 0 <= v <= 255 /\
    relative_period v * 1000000 <= t /\
    forall w, 0 <= w <= 255 -> relative_period w * 1000000 <= t -> w <= v.
Proof.
  intros H. unfold timedelta_to_relative_validity. unfold_td.
  destruct (t <? 5 * 60 * 1000000) eqn:E1; [lia|].
  destruct (63 * 7 * (86400 * 1000000) <? t) eqn:E2; [lia|].
  destruct (t <=? 12 * 3600 * 1000000) eqn:E3.
  { eexists. split; [reflexivity|]. unfold relative_period.
    set (v := t mod (86400 * 1000000) / 1000000 / (60 * 5) - 1).
    assert (0 <= v <= 143 /\ (v + 1) * 300 * 1000000 <= t < (v + 2) * 300 * 1000000)
      as [Hv Hb] by (subst v; rewrite Z.mod_small by lia; rewrite Z.div_div by lia;
                     change (1000000 * (60 * 5)) with 300000000; lia).
    clearbody v. split; [lia|]. destruct (v <=? 143) eqn:Ev; [|lia]. split; [lia|].
    intros w Hw. destruct (w <=? 143) eqn:Ew1; [lia|]. destruct (w <=? 167) eqn:Ew2; [lia|].
    destruct (w <=? 196) eqn:Ew3; lia. }
  destruct (t <=? 24 * 3600 * 1000000) eqn:E4.
  { cbn zeta. eexists. split; [reflexivity|]. unfold relative_period.
    set (v := (t - 12 * 3600 * 1000000) mod (86400 * 1000000) / 1000000 / (60 * 30) + 143).
    assert (143 <= v <= 167 /\
            12 * 3600 * 1000000 + (v - 143) * 1800 * 1000000 <= t
            < 12 * 3600 * 1000000 + (v - 142) * 1800 * 1000000)
      as [Hv Hb] by (subst v; rewrite Z.mod_small by lia; rewrite Z.div_div by lia;
                     change (1000000 * (60 * 30)) with 1800000000; lia).
    split; [lia|]. split.
    - destruct (v <=? 143) eqn:Ev; [lia|]. destruct (v <=? 167) eqn:Ev2; lia.
    - intros w Hw. destruct (w <=? 143) eqn:Ew; [lia|]. destruct (w <=? 167) eqn:Ew2; [lia|].
      destruct (w <=? 196) eqn:Ew3; lia. }
  destruct (t <=? 30 * (86400 * 1000000)) eqn:E5.
  { eexists. split; [reflexivity|]. unfold relative_period.
    set (v := t / (86400 * 1000000) + 166).
    assert (167 <= v <= 196 /\
            (v - 166) * 86400 * 1000000 <= t < (v - 165) * 86400 * 1000000)
      as [Hv Hb] by (subst v; lia).
    split; [lia|]. split.
    - destruct (v <=? 143) eqn:Ev; [lia|]. destruct (v <=? 167) eqn:Ev2; [lia|].
      destruct (v <=? 196) eqn:Ev3; lia.
    - intros w Hw. destruct (w <=? 143) eqn:Ew; [lia|]. destruct (w <=? 167) eqn:Ew2; [lia|].
      destruct (w <=? 196) eqn:Ew3; lia. }
  destruct (t <=? 63 * 7 * (86400 * 1000000)) eqn:E6; [|lia].
  eexists. split; [reflexivity|]. unfold relative_period.
  set (v := t / (86400 * 1000000) / 7 + 192).
  assert (196 <= v <= 255 /\
          (v - 192) * 7 * 86400 * 1000000 <= t < (v - 191) * 7 * 86400 * 1000000)
    as [Hv Hb] by (subst v; lia).
  split; [lia|]. split.
  - destruct (v <=? 143) eqn:Ev; [lia|]. destruct (v <=? 167) eqn:Ev2; [lia|].
    destruct (v <=? 196) eqn:Ev3; lia.
  - intros w Hw. destruct (w <=? 143) eqn:Ew; [lia|]. destruct (w <=? 167) eqn:Ew2; [lia|].
    destruct (w <=? 196) eqn:Ew3; lia.
Qed.

Lemma relative_error t :
  (t < 5 * 60 * 1000000 \/ 63 * 7 * 86400 * 1000000 < t) <->
  timedelta_to_relative_validity t = Err ValueError.
Proof.
  split.
  - intros H. unfold timedelta_to_relative_validity. unfold_td.
    destruct (t <? 5 * 60 * 1000000) eqn:E1; [reflexivity|].
    destruct (63 * 7 * (86400 * 1000000) <? t) eqn:E2; [reflexivity|lia].
  - intros H.
    destruct (Z_lt_dec t (5 * 60 * 1000000)); [now left|].
    destruct (Z_lt_dec (63 * 7 * 86400 * 1000000) t); [now right|].
    destruct (relative_floor t) as (v & E & _); [lia|]. congruence.
Qed.

(** * Absolute validity *)

Lemma dec02_int n : 0 <= n < 100 ->
  exists o, py_int 16 (rev (dec02 n)) = Ok o /\ 0 <= o < 256 /\ swapped_bcd o = n.
Proof.
  intros H.
  pose proof (range_sweep 100 (fun n =>
    match py_int 16 (rev (dec02 n)) with
    | Ok o => (0 <=? o) && (o <? 256) && (swapped_bcd o =? n)
    | Err _ => false end) eq_refl n H) as S.
  cbn beta in S. destruct (py_int 16 (rev (dec02 n))) as [o|]; [|discriminate].
  exists o. split; [reflexivity|]. lia.
Qed.

(** The last octet, as the code computes it. *)
Definition tz_octet (off : option Z) : res Z :=
  offset <- from_timezone (strftime_z off) ;;
  let s := dec02 (td_seconds offset / (60 * 15)) in
  s <- (if td_days offset <? 0 then
          a <- py_index s 0 ;; b <- py_index s 1 ;;
          a <- py_int 10 [a] ;; b <- py_int 10 [b] ;;
          Ok (hex02 (Z.lor (Z.lor (Z.shiftl a 4) b) 128))
        else Ok s) ;;
  py_int 16 (rev s).

Lemma tz_octet_spec m : -1200 < m < 1200 ->
  exists o, tz_octet (Some m) = Ok o /\ 0 <= o < 256 /\ zone_quarters o = Z.quot m 15.
Proof.
  intros H.
  pose proof (range_sweep 2399 (fun k =>
    let m := k - 1199 in
    match tz_octet (Some m) with
    | Ok o => (0 <=? o) && (o <? 256) && (zone_quarters o =? Z.quot m 15)
    | Err _ => false end) ltac:(vm_compute; reflexivity) (m + 1199) ltac:(lia)) as S.
  cbn beta zeta in S. replace (m + 1199 - 1199) with m in S by lia.
  destruct (tz_octet (Some m)) as [o|]; [|discriminate].
  exists o. split; [reflexivity|].
  apply andb_true_iff in S as [S1 S2]. apply Z.eqb_eq in S2.
  split; [lia|assumption].
Qed.

Lemma absolute_split d :
  1900 <= dt_year d ->
  datetime_to_absolute_validity d =
  (l <- mapM (fun c => py_int 16 (rev c))
         [dec02 (dt_year d mod 100); dec02 (dt_month d); dec02 (dt_day d);
          dec02 (dt_hour d); dec02 (dt_minute d); dec02 (dt_second d)] ;;
   o <- tz_octet (dt_offset d) ;; Ok (l ++ [o])) \/
  exists e, datetime_to_absolute_validity d = Err e /\
    ((exists e', tz_octet (dt_offset d) = Err e') \/
     exists e', mapM (fun c => py_int 16 (rev c))
         [dec02 (dt_year d mod 100); dec02 (dt_month d); dec02 (dt_day d);
          dec02 (dt_hour d); dec02 (dt_minute d); dec02 (dt_second d)] = Err e').
Proof.
  intros Hy. unfold datetime_to_absolute_validity, tz_octet.
  replace (dt_year d <? 1900) with false by lia.
  destruct (from_timezone (strftime_z (dt_offset d))) as [offset|e];
    cbn [bind]; [|right; eauto].
  set (s := dec02 (td_seconds offset / (60 * 15))).
  match goal with |- context [bind ?m (fun s => mapM _ _)] =>
    change m with m; destruct m as [s'|e] end; cbn [bind]; [|right; eauto].
  set (f := fun c => py_int 16 (rev c)).
  set (l6 := [dec02 (dt_year d mod 100); dec02 (dt_month d); dec02 (dt_day d);
          dec02 (dt_hour d); dec02 (dt_minute d); dec02 (dt_second d)]).
  change (py_int 16 (rev s')) with (f s').
  change (mapM f [dec02 (dt_year d mod 100); dec02 (dt_month d); dec02 (dt_day d);
          dec02 (dt_hour d); dec02 (dt_minute d); dec02 (dt_second d); s'])
    with (mapM f (l6 ++ [s'])).
  rewrite mapM_app. destruct (mapM f l6) as [l|e] eqn:El; cbn [bind mapM].
  - destruct (f s'); cbn [bind]; left; reflexivity.
  - right. exists e. split; [reflexivity|]. eauto.
Qed.

Lemma absolute_correct d off :
  1900 <= dt_year d ->
  0 <= dt_month d < 100 -> 0 <= dt_day d < 100 -> 0 <= dt_hour d < 100 ->
  0 <= dt_minute d < 100 -> 0 <= dt_second d < 100 ->
  dt_offset d = Some off -> -1200 < off < 1200 ->
  exists y mo da h mi s z,
    datetime_to_absolute_validity d = Ok [y; mo; da; h; mi; s; z] /\
    Forall (fun o => 0 <= o < 256) [y; mo; da; h; mi; s; z] /\
    swapped_bcd y = dt_year d mod 100 /\ swapped_bcd mo = dt_month d /\
    swapped_bcd da = dt_day d /\ swapped_bcd h = dt_hour d /\
    swapped_bcd mi = dt_minute d /\ swapped_bcd s = dt_second d /\
    zone_quarters z = Z.quot off 15.
Proof.
  intros Hy Hmo Hd Hh Hmi Hs Eo Ho.
  destruct (dec02_int (dt_year d mod 100)) as (y & Ey & Ry & Vy); [lia|].
  destruct (dec02_int (dt_month d) Hmo) as (mo & Emo & Rmo & Vmo).
  destruct (dec02_int (dt_day d) Hd) as (da & Eda & Rda & Vda).
  destruct (dec02_int (dt_hour d) Hh) as (h & Eh & Rh & Vh).
  destruct (dec02_int (dt_minute d) Hmi) as (mi & Emi & Rmi & Vmi).
  destruct (dec02_int (dt_second d) Hs) as (s & Es & Rs & Vs).
  destruct (tz_octet_spec off Ho) as (z & Ez & Rz & Vz).
  exists y, mo, da, h, mi, s, z.
  assert (mapM (fun c => py_int 16 (rev c))
         [dec02 (dt_year d mod 100); dec02 (dt_month d); dec02 (dt_day d);
          dec02 (dt_hour d); dec02 (dt_minute d); dec02 (dt_second d)]
          = Ok [y; mo; da; h; mi; s]) as El.
  { cbn [mapM]. rewrite Ey. cbn [bind]. rewrite Emo. cbn [bind]. rewrite Eda. cbn [bind].
    rewrite Eh. cbn [bind]. rewrite Emi. cbn [bind]. rewrite Es. reflexivity. }
  split.
  - destruct (absolute_split d Hy) as [E|(e & _ & [[e2 C]|[e2 C]])].
    + rewrite E, El, Eo, Ez. reflexivity.
    + rewrite Eo in C. congruence.
    + congruence.
  - repeat split; try assumption; repeat constructor; lia.
Qed.

Lemma absolute_naive d :
  1900 <= dt_year d ->
  0 <= dt_month d < 100 -> 0 <= dt_day d < 100 -> 0 <= dt_hour d < 100 ->
  0 <= dt_minute d < 100 -> 0 <= dt_second d < 100 ->
  dt_offset d = None ->
  datetime_to_absolute_validity d =
  datetime_to_absolute_validity
    (Datetime (dt_year d) (dt_month d) (dt_day d) (dt_hour d) (dt_minute d)
              (dt_second d) (Some 0)).
Proof.
  intros Hy _ _ _ _ _ E. unfold datetime_to_absolute_validity.
  cbn [dt_year dt_month dt_day dt_hour dt_minute dt_second dt_offset].
  rewrite E. reflexivity.
Qed.

(** * Time zone strings *)

Lemma from_timezone_all :
  forallb (fun k =>
    let m := k - 1439 in
    match from_timezone (strftime_z (Some m)) with
    | Ok t => t =? (if m <? 0 then (- m - 1440) * 60 * 1000000 else m * 60 * 1000000)
    | Err _ => false end) (zrange 2879) = true.
Proof. vm_compute. reflexivity. Qed.

Lemma from_timezone_spec m : -1440 < m < 1440 ->
  from_timezone (strftime_z (Some m)) =
  Ok (if m <? 0 then (- m - 1440) * 60 * 1000000 else m * 60 * 1000000).
Proof.
  intros H. pose proof (range_sweep 2879 _ from_timezone_all (m + 1439) ltac:(lia)) as S.
  cbn beta zeta in S. replace (m + 1439 - 1439) with m in S by lia.
  destruct (from_timezone (strftime_z (Some m))) as [t|]; [|discriminate].
  apply Z.eqb_eq in S. now subst.
Qed.

Lemma from_timezone_string negative hh mm : 0 <= hh <= 23 -> 0 <= mm <= 59 ->
  from_timezone (tz_string negative hh mm) =
  Ok (if negative then (hh * 60 + mm - 1440) * 60 * 1000000
      else (hh * 60 + mm) * 60 * 1000000).
Proof.
  intros Hh Hm.
  assert (forall b : bool, forallb (fun k =>
    match from_timezone (tz_string b (k / 60) (k mod 60)) with
    | Ok t => t =? (if b then (k - 1440) * 60 * 1000000 else k * 60 * 1000000)
    | Err _ => false end) (zrange 1440) = true) as S.
  { intros [|]; vm_compute; reflexivity. }
  specialize (S negative).
  pose proof (range_sweep 1440 _ S (hh * 60 + mm) ltac:(lia)) as T. cbn beta in T.
  replace ((hh * 60 + mm) / 60) with hh in T by lia.
  replace ((hh * 60 + mm) mod 60) with mm in T by lia.
  destruct (from_timezone (tz_string negative hh mm)) as [t|]; [|discriminate].
  apply Z.eqb_eq in T. subst t. destruct negative; reflexivity.
Qed.

Lemma valid_fields y mo d hh mi ss : valid_civil y mo d hh mi ss ->
  0 <= mo < 100 /\ 0 <= d < 100 /\ 0 <= hh < 100 /\ 0 <= mi < 100 /\ 0 <= ss < 100.
Proof.
  intros (H1 & H2 & H3 & H4 & H5).
  assert (month_length y mo <= 31).
  { unfold month_length. destruct mo as [|p|p]; try lia.
    do 4 (try destruct p as [p|p|]); try lia; destruct (leap y); lia. }
  lia.
Qed.

Lemma absolute_valid y mo d hh mi ss off :
  1900 <= y -> valid_civil y mo d hh mi ss ->
  match off with Some m => -1200 < m < 1200 | None => True end ->
  exists oy om od oh oi os oz,
    datetime_to_absolute_validity (Datetime y mo d hh mi ss off)
      = Ok [oy; om; od; oh; oi; os; oz] /\
    Forall (fun o => 0 <= o < 256) [oy; om; od; oh; oi; os; oz] /\
    swapped_bcd oy = y mod 100 /\ swapped_bcd om = mo /\
    swapped_bcd od = d /\ swapped_bcd oh = hh /\
    swapped_bcd oi = mi /\ swapped_bcd os = ss /\
    zone_quarters oz = match off with Some m => Z.quot m 15 | None => 0 end.
Proof.
  intros Hy Hv Ho. apply valid_fields in Hv as (H1 & H2 & H3 & H4 & H5).
  destruct off as [m|].
  - apply (absolute_correct (Datetime y mo d hh mi ss (Some m)) m); auto.
  - rewrite absolute_naive by auto.
    apply (absolute_correct (Datetime y mo d hh mi ss (Some 0)) 0); auto; lia.
Qed.

Lemma period_increasing v w :
  0 <= v -> v < w -> w <= 255 -> relative_period v < relative_period w.
Proof.
  intros Hv Hw Hm. unfold relative_period.
  destruct (v <=? 143) eqn:E1; destruct (w <=? 143) eqn:F1; try lia;
  destruct (v <=? 167) eqn:E2; destruct (w <=? 167) eqn:F2; try lia;
  destruct (v <=? 196) eqn:E3; destruct (w <=? 196) eqn:F3; lia.
Qed.

Lemma large_offset : exists y mo d hh mi ss off l,
  1900 <= y /\ valid_civil y mo d hh mi ss /\ -1440 < off < 1440 /\
  datetime_to_absolute_validity (Datetime y mo d hh mi ss (Some off)) = Ok l /\
  zone_quarters (nth 6 l 0) <> Z.quot off 15.
Proof.
  exists 2010, 1, 1, 0, 0, 0, 1215. eexists.
  split; [lia|]. split; [unfold valid_civil; cbn; lia|]. split; [lia|].
  split; [vm_compute; reflexivity|]. vm_compute. discriminate.
Qed.

Lemma negative_timezone : exists hh mm, 0 <= hh <= 23 /\ 0 <= mm <= 59 /\
  from_timezone (tz_string true hh mm) <> Ok (- (hh * 60 + mm) * 60 * 1000000).
Proof. exists 3, 0. split; [lia|]. split; [lia|]. vm_compute. discriminate. Qed.
