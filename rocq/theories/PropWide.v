(** 8-bit messages with characters that are no octets (C22). *)
From Coq Require Import Lia ZifyBool ZifyNat.
From Verif Require Import Py PyFacts SpecGsm SpecPack SpecAddress SpecTime SpecSubmit
  Gsm GsmFacts Utils PackFacts ValidityFacts Submit SubmitClaims NumberFacts SplitFacts
  SubmitFacts ToPduFacts PropSubmit.
Open Scope Z_scope.
Ltac Zify.zify_post_hook ::= Z.div_mod_to_equations.

Lemma hex_fuel_length fuel : forall n acc, (length acc <= length (hex_fuel fuel n acc))%nat.
Proof.
  induction fuel as [|f IH]; intros n acc; cbn [hex_fuel]; [lia|].
  destruct (n / 16 =? 0); [cbn; lia|]. specialize (IH (n / 16) (hexdigit (n mod 16) :: acc)).
  cbn [length] in IH. lia.
Qed.

Lemma py_hex_nonempty n : py_hex n <> [].
Proof.
  unfold py_hex. cbn [hex_fuel]. destruct (n / 16 =? 0); [discriminate|].
  intros E. pose proof (hex_fuel_length (Z.to_nat (Z.log2 n)) (n / 16) [hexdigit (n mod 16)]) as L.
  rewrite E in L. cbn in L. lia.
Qed.

Lemma hex02_two n : 2 <= zlen (hex02 n).
Proof.
  unfold hex02. pose proof (py_hex_nonempty n) as N. destruct (py_hex n) as [|a [|b l]]; [congruence| |].
  - unfold zlen. cbn. lia.
  - rewrite !zlen_cons. pose proof (zlen_nonneg l). lia.
Qed.

Lemma hex02_wide n : 255 < n -> 3 <= zlen (hex02 n).
Proof.
  intros Hn. assert (L : 3 <= zlen (py_hex n)).
  { unfold py_hex. pose proof (Z.log2_le_mono 256 n ltac:(lia)) as B. change (Z.log2 256) with 8 in B.
    destruct (Z.to_nat (Z.log2 n)) as [|[|k]] eqn:Ek; [lia|lia|].
    cbn [hex_fuel]. replace (n / 16 =? 0) with false by lia.
    replace (n / 16 / 16 =? 0) with false by lia.
    destruct (n / 16 / 16 / 16 =? 0); [unfold zlen; cbn; lia|].
    pose proof (hex_fuel_length k (n / 16 / 16 / 16)
      [hexdigit ((n / 16 / 16) mod 16); hexdigit ((n / 16) mod 16); hexdigit (n mod 16)]) as H.
    unfold zlen. cbn [length] in H. lia. }
  unfold hex02. destruct (py_hex n) as [|a [|b l]]; [unfold zlen in L; cbn in L; lia| |exact L].
  unfold zlen in L. cbn in L. lia.
Qed.

Lemma encode_str_long l : 2 * zlen l <= zlen (encode_str l).
Proof.
  unfold encode_str. induction l as [|c l IH]; [cbn; lia|]. cbn [map concat].
  rewrite zlen_app, zlen_cons. pose proof (hex02_two c). lia.
Qed.

Lemma encode_str_wide l : Exists (fun c => 255 < c) l -> 2 * zlen l < zlen (encode_str l).
Proof.
  unfold encode_str. induction 1 as [c l Hc|c l _ IH]; cbn [map concat]; rewrite zlen_app, zlen_cons.
  - pose proof (hex02_wide c Hc). pose proof (encode_str_long l). unfold encode_str in *. lia.
  - pose proof (hex02_two c). lia.
Qed.

Lemma hex_upper_length o : zlen (hex_upper o) = 2 * zlen o.
Proof. induction o as [|b o IH]; [reflexivity|]. cbn [hex_upper]. rewrite !zlen_cons. lia. Qed.
Lemma hex_upper_app a b : hex_upper (a ++ b) = hex_upper a ++ hex_upper b.
Proof. induction a as [|x a IH]; [reflexivity|]. cbn [app hex_upper]. now rewrite IH. Qed.

Lemma app_split {A} (a b c d : list A) : zlen a = zlen c -> a ++ b = c ++ d -> a = c /\ b = d.
Proof.
  revert c. induction a as [|x a IH]; intros [|y c] L E.
  - auto.
  - rewrite zlen_cons in L. pose proof (zlen_nonneg c). change (zlen (@nil A)) with 0 in L. lia.
  - rewrite zlen_cons in L. pose proof (zlen_nonneg a). change (zlen (@nil A)) with 0 in L. lia.
  - rewrite !zlen_cons in L. cbn [app] in E. injection E as -> E.
    destruct (IH c ltac:(lia) E) as (-> & ->). auto.
Qed.

(** Whatever else is asked for: an 8-bit message for one PDU with a character above
    255 goes out in a PDU that is no hexadecimal notation of octets, or whose user
    data is longer than announced. *)
Theorem C22_wide_8bit_all : forall s p s', reachable s -> validity_ok (s_validity s) ->
  coding_of s = 4 -> zlen (chars (s_text s)) <= 140 -> Exists (fun c => 255 < c) (chars (s_text s)) ->
  to_pdu s = (Ok [p], s') ->
  forall mr u udl ud, carries s 4 mr u udl ud p ->
    udl = zlen (chars (s_text s)) /\ udl < zlen ud.
Proof.
  intros s p s' H Hv Hc Hl Hw E mr u udl ud C.
  destruct (to_pdu_decompose_full s (reachable_wf _ H) Hv) as (mr0 & l & _ & _ & _ & _ & _ & D).
  rewrite E in D. destruct D as (_ & _ & mk & ms & Em & Ep & _ & Hmk & Hpre).
  rewrite Hc in *. unfold message_ud in Em. cbn [Z.eqb Pos.eqb] in Em. unfold EIGHTBIT_SIZE in Em.
  replace (zlen (chars (s_text s)) <=? 140) with true in Em by lia.
  unfold st_bind, st_lift, st_ret, pack_8bits_to_8bit in Em. cbn [bind] in Em.
  set (n := zlen (chars (s_text s))) in *.
  assert (Hn : octet n) by (pose proof (zlen_nonneg (chars (s_text s))); unfold octet, n; lia).
  rewrite py_chr_octet in Em by exact Hn. cbn [bind] in Em.
  destruct (pystr_add (PyStr false [n]) (s_text s)) as [m|e] eqn:Ea; cbn [bind] in Em; [|discriminate].
  assert (Hm : chars m = n :: chars (s_text s)).
  { unfold pystr_add in Ea. cbn [is_uni chars] in Ea. clear - Ea.
    repeat match type of Ea with (if ?b then _ else _) = _ => destruct b end; try discriminate;
      injection Ea as <-; reflexivity. }
  rewrite Hm in Em. assert (ms = [encode_str (n :: chars (s_text s))]) as -> by congruence.
  injection Ep as ->. destruct (Hpre false) as (pre & Hp).
  pose proof (Hmk false 1 1 n [] ltac:(constructor; [exact Hn|constructor])) as (o0 & sc0 & da0 & vpf0 & vp0 & E0 & Ho0 & _).
  pose proof C as (o & sc & da & vpf & vp & Eo & Ho & _).
  rewrite Hp in E0, Eo. change (encode_str (n :: chars (s_text s)))
    with (hex02 n ++ encode_str (chars (s_text s))) in Eo.
  assert (Hx : hex02 n = hex_of [n]).
  { rewrite <- encode_str_hex by (constructor; [exact Hn|constructor]). unfold encode_str. cbn [map concat].
    now rewrite app_nil_r. }
  rewrite Hx in Eo. unfold py_upper in E0, Eo. rewrite map_app, app_assoc, E0 in Eo.
  set (x := skipn (length o0) o).
  assert (L : zlen o0 <= zlen o).
  { pose proof (hex_upper_length o) as A. rewrite <- Eo, zlen_app, hex_upper_length in A.
    match type of A with _ + zlen ?q = _ => pose proof (zlen_nonneg q) end. lia. }
  assert (Ex : o = firstn (length o0) o ++ x) by (symmetry; apply firstn_skipn).
  assert (Lf : zlen (firstn (length o0) o) = zlen o0).
  { unfold zlen in *. rewrite firstn_length. lia. }
  rewrite Ex, hex_upper_app in Eo. apply app_split in Eo; [|rewrite !hex_upper_length; lia].
  destruct Eo as (_ & Eu).
  assert (Hox : Forall octet x).
  { rewrite Ex in Ho. apply Forall_app in Ho. tauto. }
  assert (P : p_pdu (mk false 1 1 (hex_of (n :: x))) = p_pdu (mk false 1 1 (encode_str (n :: chars (s_text s))))).
  { rewrite !Hp. f_equal. rewrite upper_hex by (constructor; assumption).
    change (encode_str (n :: chars (s_text s))) with (hex02 n ++ encode_str (chars (s_text s))).
    unfold py_upper. rewrite map_app, Hx. change (map up (hex_of [n])) with (py_upper (hex_of [n])).
    rewrite upper_hex by (constructor; [exact Hn|constructor]). rewrite Eu. reflexivity. }
  pose proof (Hmk false 1 1 n x ltac:(constructor; assumption)) as C2.
  apply carries_read in C. apply carries_read in C2. rewrite P in C2.
  destruct (parse_submit _) as [f|]; [|destruct C].
  destruct C as (_ & _ & <- & <- & _). destruct C2 as (_ & _ & -> & -> & _).
  split; [reflexivity|].
  apply (f_equal zlen) in Eu. rewrite hex_upper_length in Eu. unfold zlen in Eu at 1.
  rewrite map_length in Eu. fold (zlen (encode_str (chars (s_text s)))) in Eu.
  pose proof (encode_str_wide _ Hw). unfold n in *. lia.
Qed.
Print Assumptions C22_wide_8bit_all.

(** So such a message is never sent in a well-formed PDU, whose user data has the
    announced length. *)
Theorem C22_wide_8bit_never : forall s p s', reachable s -> validity_ok (s_validity s) ->
  coding_of s = 4 -> zlen (chars (s_text s)) <= 140 -> Exists (fun c => 255 < c) (chars (s_text s)) ->
  to_pdu s = (Ok [p], s') ->
  forall mr u udl ud, carries s 4 mr u udl ud p -> zlen ud <> udl.
Proof.
  intros s p s' H Hv Hc Hl Hw E mr u udl ud C.
  destruct (C22_wide_8bit_all s p s' H Hv Hc Hl Hw E mr u udl ud C). lia.
Qed.
Print Assumptions C22_wide_8bit_never.
(** A greeting in 8 bits: announced as 8 octets; an even number of such characters
    gives the notation of more octets. *)
Example C22_wide_8bit_case :
  (match to_pdu (with_fmt (Some 4) (sample (PyStr true [71; 114; 252; 223; 101; 44; 32; 20013]))) with
   | (Ok [p], _) => skipn 26 (p_pdu p) = str "084772FCDF652C204E2D" | _ => False end) /\
  match to_pdu (with_fmt (Some 4) (sample (PyStr true [256]))) with
  | (Ok [p], _) => skipn 26 (p_pdu p) = str "01100" | _ => False end.
Proof. split; vm_compute; reflexivity. Qed.
