(** Proofs about splitting a text into parts. *)
From Coq Require Import Lia ZifyBool ZifyNat.
From Verif Require Import Py PyFacts SpecGsm Gsm GsmFacts Utils Submit.
Open Scope Z_scope.
Ltac Zify.zify_post_hook ::= Z.div_mod_to_equations.

(** The splitting loop on the text still to be split. *)
Fixpoint cut (fuel : nat) (w : nat) (rest : list Z) : list (list Z) :=
  match rest with
  | [] => []
  | _ =>
      match fuel with
      | O => []
      | S f =>
          let k := if last (firstn w rest) 0 =? 27 then (w - 1)%nat else w in
          firstn k rest :: cut f w (skipn k rest)
      end
  end.

Lemma py_slice_skipn {A} (l : list A) a b : 0 <= a ->
  py_slice l a b = firstn (Z.to_nat (b - a)) (skipn (Z.to_nat a) l).
Proof. reflexivity. Qed.

Lemma py_index_last_nonempty (l : list Z) : l <> [] -> py_index l (-1) = Ok (last l 0).
Proof.
  intros H. destruct (exists_last H) as (i & c & ->). rewrite py_index_last.
  f_equal. now rewrite last_last.
Qed.

Lemma firstn_nonempty {A} (l : list A) k : l <> [] -> (0 < k)%nat -> firstn k l <> [].
Proof. destruct l, k; cbn; intros; [congruence|congruence|lia|congruence]. Qed.

Lemma cut_cons f w rest : rest <> [] ->
  cut (S f) w rest =
  let k := if last (firstn w rest) 0 =? 27 then (w - 1)%nat else w in
  firstn k rest :: cut f w (skipn k rest).
Proof. destruct rest; [congruence|reflexivity]. Qed.

Lemma split_loop_cut w text : 2 <= w -> forall fuel pi,
  0 <= pi -> (length (skipn (Z.to_nat pi) text) < fuel)%nat ->
  split_loop fuel text (zlen text) w pi (pi + w) =
  Ok (cut fuel (Z.to_nat w) (skipn (Z.to_nat pi) text)).
Proof.
  intros Hw. induction fuel as [|f IH]; intros pi Hpi Hf; [lia|].
  set (rest := skipn (Z.to_nat pi) text) in *.
  cbn [split_loop]. destruct (pi <? zlen text) eqn:E.
  - assert (rest <> []) as Hne.
    { intros C. unfold rest in C. apply (f_equal (@length Z)) in C.
      rewrite skipn_length in C. cbn in C. unfold zlen in E. lia. }
    rewrite py_slice_skipn by lia. fold rest.
    replace (Z.to_nat (pi + w - pi)) with (Z.to_nat w) by lia.
    rewrite py_index_last_nonempty by (apply firstn_nonempty; [assumption|lia]).
    cbn [bind]. rewrite cut_cons by assumption. cbn zeta.
    set (b := last (firstn (Z.to_nat w) rest) 0 =? 27).
    set (k := if b then (Z.to_nat w - 1)%nat else Z.to_nat w).
    set (pe := if b then pi + w - 1 else pi + w).
    assert (pe = pi + Z.of_nat k) as Epe by (unfold pe, k; destruct b; lia).
    assert (1 <= k)%nat as Hk by (unfold k; destruct b; lia).
    assert (skipn (Z.to_nat pe) text = skipn k rest) as Es.
    { unfold rest. rewrite skipn_skipn. f_equal. lia. }
    rewrite IH.
    + rewrite Es. cbn [bind]. rewrite py_slice_skipn by lia.
      replace (Z.to_nat (pe - pi)) with k by lia. reflexivity.
    + lia.
    + rewrite Es, skipn_length.
      assert (0 < length rest)%nat by (destruct rest; [congruence|cbn; lia]). lia.
  - replace rest with (@nil Z); [reflexivity|]. symmetry. unfold rest.
    apply skipn_all2. unfold zlen in E. lia.
Qed.

Lemma cut_spec w : (2 <= w)%nat -> forall fuel rest, (length rest <= fuel)%nat ->
  concat (cut fuel w rest) = rest /\
  Forall (fun p => p <> [] /\ (length p <= w)%nat) (cut fuel w rest).
Proof.
  intros Hw. induction fuel as [|f IH]; intros rest Hf.
  - destruct rest; [cbn; auto|cbn in Hf; lia].
  - destruct rest as [|x rest'] eqn:Er; [cbn; auto|]. rewrite <- Er in *.
    assert (rest <> []) as Hne by congruence. rewrite cut_cons by assumption. cbn zeta.
    set (k := if last (firstn w rest) 0 =? 27 then (w - 1)%nat else w).
    assert (1 <= k <= w)%nat as Hk by (unfold k; destruct (_ =? 27); lia).
    destruct (IH (skipn k rest)) as [H1 H2].
    { rewrite skipn_length, Er. rewrite Er in Hf. cbn [length] in *. lia. }
    cbn [concat]. rewrite H1. split; [apply firstn_skipn|].
    constructor; [|assumption]. split; [apply firstn_nonempty; [assumption|lia]|].
    rewrite firstn_length. lia.
Qed.

Lemma split_text_cut text w : 2 <= w ->
  split_text text w = Ok (cut (S (length text)) (Z.to_nat w) text).
Proof.
  intros Hw. unfold split_text. change w with (0 + w) at 2.
  rewrite split_loop_cut by (cbn [skipn Z.to_nat]; lia). reflexivity.
Qed.

Lemma split_text_spec text w : 2 <= w ->
  exists parts, split_text text w = Ok parts /\ concat parts = text /\
    Forall (fun p => 1 <= zlen p <= w) parts.
Proof.
  intros Hw. rewrite split_text_cut by assumption. eexists. split; [reflexivity|].
  destruct (cut_spec (Z.to_nat w)) with (fuel := S (length text)) (rest := text)
    as [H1 H2]; [lia|lia|]. split; [assumption|].
  eapply Forall_impl; [|exact H2]. intros p [Hp Hl]. unfold zlen.
  destruct p; [congruence|cbn [length] in *; lia].
Qed.

(** * Clean cuts *)

Lemma ext_not_esc g u : In (g, u) gsm_extension -> g <> 27.
Proof.
  intros H C. subst g. cbn in H.
  repeat (destruct H as [H|H]; [discriminate|]). exact H.
Qed.

Lemma clean_cut s : clean s -> forall a b, s = a ++ b -> last a 0 <> 27 -> clean a /\ clean b.
Proof.
  induction 1 as [|g r Hg Hne Hr IH|g u r Hg Hr IH]; intros a b E Hl.
  - symmetry in E. apply app_eq_nil in E as [-> ->]. split; constructor.
  - destruct a as [|x a]; [cbn in E; subst b; split; [constructor|now constructor]|].
    cbn in E. injection E as <- E. destruct (IH a b E) as [Ha Hb].
    + destruct a; [cbn; lia|exact Hl].
    + split; [now constructor|assumption].
  - destruct a as [|x a].
    { cbn in E. subst b. split; [constructor|]. econstructor; eassumption. }
    cbn in E. injection E as <- E. destruct a as [|y a]; [cbn in Hl; now destruct Hl|].
    cbn in E. injection E as <- E. destruct (IH a b E) as [Ha Hb].
    + destruct a; [cbn; lia|exact Hl].
    + split; [econstructor; eassumption|assumption].
Qed.

Lemma clean_no_trailing_esc s : clean s -> last s 0 <> 27.
Proof.
  induction 1 as [|g r Hg Hne Hr IH|g u r Hg Hr IH].
  - cbn. lia.
  - destruct r; [exact Hne|exact IH].
  - apply ext_not_esc in Hg. destruct r as [|x r]; [exact Hg|exact IH].
Qed.

Lemma clean_tail_pair p q x : clean (p ++ [27; x] ++ q) -> x <> 27.
Proof.
  intros H. remember (p ++ [27; x] ++ q) as s eqn:E. revert p E.
  induction H as [|g r Hg Hne Hr IH|g u r Hg Hr IH]; intros p E.
  - destruct p; discriminate.
  - destruct p as [|y p]; cbn in E; injection E as -> E; [now destruct Hne|]. eauto.
  - apply ext_not_esc in Hg. destruct p as [|y [|z p]]; cbn in E.
    + congruence.
    + assert (g = 27) by congruence. contradiction.
    + assert (r = p ++ [27; x] ++ q) by (cbn; congruence). eauto.
Qed.

Lemma firstn_snoc {A} (l : list A) k d : (0 < k)%nat -> (k <= length l)%nat ->
  firstn k l = firstn (k - 1) l ++ [last (firstn k l) d].
Proof.
  intros Hk Hl. assert (firstn k l <> []) as Hne.
  { apply firstn_nonempty; [destruct l; cbn in *; [lia|congruence]|lia]. }
  rewrite (app_removelast_last d Hne) at 1. f_equal. rewrite removelast_firstn_len.
  rewrite firstn_length, firstn_firstn. f_equal. lia.
Qed.

(** The chosen cut point is between characters. *)
Lemma clean_step w rest : (2 <= w)%nat -> clean rest ->
  let k := if last (firstn w rest) 0 =? 27 then (w - 1)%nat else w in
  clean (firstn k rest) /\ clean (skipn k rest).
Proof.
  intros Hw Hc. cbn zeta.
  destruct (last (firstn w rest) 0 =? 27) eqn:E.
  - destruct (Nat.le_gt_cases (length rest) (w - 1)) as [Hl|Hl].
    + rewrite firstn_all2 in E |- * by lia. rewrite skipn_all2 by lia.
      pose proof (clean_no_trailing_esc _ Hc). lia.
    + apply (clean_cut rest Hc); [symmetry; apply firstn_skipn|].
      intros C. apply Z.eqb_eq in E.
      pose proof (firstn_snoc rest w 0 ltac:(lia) ltac:(lia)) as F. rewrite E in F.
      pose proof (firstn_snoc rest (w - 1) 0 ltac:(lia) ltac:(lia)) as G. rewrite C in G.
      rewrite G in F. rewrite <- (firstn_skipn w rest), F in Hc.
      rewrite <- !app_assoc in Hc. cbn [app] in Hc.
      apply (clean_tail_pair _ _ 27 Hc). reflexivity.
  - apply (clean_cut rest Hc); [symmetry; apply firstn_skipn|]. lia.
Qed.

Lemma cut_clean w : (2 <= w)%nat -> forall fuel rest, clean rest ->
  Forall clean (cut fuel w rest).
Proof.
  intros Hw. induction fuel as [|f IH]; intros rest Hc.
  - destruct rest; constructor.
  - destruct rest as [|x rest'] eqn:Er; [constructor|]. rewrite <- Er in *.
    rewrite cut_cons by congruence. cbn zeta.
    destruct (clean_step w rest Hw Hc) as [H1 H2]. cbn zeta in *. constructor; auto.
Qed.

Lemma split_text_clean text w parts : 2 <= w -> clean text ->
  split_text text w = Ok parts -> Forall clean parts.
Proof.
  intros Hw Hc. rewrite split_text_cut by assumption. intros H.
  assert (cut (S (length text)) (Z.to_nat w) text = parts) as <- by congruence.
  apply cut_clean; [lia|assumption].
Qed.

Lemma gsm_text_app us1 us2 b1 b2 :
  gsm_text us1 b1 -> gsm_text us2 b2 -> gsm_text (us1 ++ us2) (b1 ++ b2).
Proof.
  intros (c1 & H1 & ->) (c2 & H2 & ->). exists (c1 ++ c2).
  split; [now apply Forall2_app|now rewrite concat_app].
Qed.

Lemma gsm_text_fun us1 us2 b : gsm_text us1 b -> gsm_text us2 b -> us1 = us2.
Proof.
  intros H1 H2. apply gsm_decode_text in H1, H2. congruence.
Qed.

(** Parts that are each complete texts give the whole text back. *)
Lemma parts_texts us parts : gsm_text us (concat parts) -> Forall clean parts ->
  exists texts, Forall2 gsm_text texts parts /\ concat texts = us.
Proof.
  intros Hu Hp.
  assert (exists texts, Forall2 gsm_text texts parts) as [texts Ht].
  { clear Hu. induction Hp as [|p parts Hp _ IH]; [exists []; constructor|].
    destruct (clean_text p Hp) as [t Ht].
    destruct IH as [texts H].
    exists (t :: texts). now constructor. }
  exists texts. split; [assumption|].
  eapply gsm_text_fun; [|exact Hu].
  clear Hu Hp. induction Ht; cbn; [now apply gsm_text_nil|]. now apply gsm_text_app.
Qed.
