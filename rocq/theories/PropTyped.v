(** Typed parameter values (C112). *)
From Coq Require Import Lia ZifyBool ZifyNat.
From Verif Require Import Py Iter Tables WspDec SpecWsp SpecMms WspClaims PyFacts IterFacts WspFacts
  HeaderFacts GrammarFacts.
Open Scope Z_scope.

(** Typed-value of WSP: Compact-value or Text-value.  Of the compact values those
    that can be told from their octets: integers (also dates and delta seconds) and
    URIs, which do not begin with a double quote.  Text-value: No-value, a token or
    a quoted string; No-value means the empty text. *)
Inductive Typed_value : pval -> list Z -> Prop :=
| tv_integer : forall n l, Integer_value n l -> Typed_value (PInt n) l
| tv_uri : forall s l, Text_string s l -> starts_with (fun c => c <> 34) s -> Typed_value (PStr s) l
| tv_none : Typed_value (PStr []) [0]
| tv_token : forall s l, Token_text s l -> Typed_value (PStr s) l
| tv_quoted : forall s l, Quoted_string s l -> Typed_value (PStr s) l.

Lemma next_errors : forall it, fst (next it) <> Err DecodeError.
Proof.
  intros [rest cache pos]. unfold next, reset_preview, st_bind, st_get, st_upd, st_ret.
  cbn. destruct cache; [|discriminate]. unfold it_next. cbn. destruct rest; discriminate.
Qed.

Lemma text_loop_errors : forall fuel b it, fst (text_loop fuel b it) <> Err DecodeError.
Proof.
  induction fuel as [|f IH]; intros b it; cbn [text_loop]; destruct (b =? 0); try discriminate.
  unfold st_bind, st_ret. pose proof (next_errors it) as N. destruct (next it) as [[c|e] it1]; [|cbn [fst] in *; congruence].
  specialize (IH c it1). destruct (text_loop f c it1) as [[l|e] it2]; [discriminate|].
  cbn [fst] in *. congruence.
Qed.

Lemma text_string_errors : forall it, fst (decode_text_string it) <> Err DecodeError.
Proof.
  intros it. unfold decode_text_string, st_bind, st_ret, fuelled.
  pose proof (next_errors it) as N. destruct (next it) as [[c|e] it1]; [|cbn [fst] in *; congruence].
  destruct (c =? 127).
  - pose proof (next_errors it1) as N1. destruct (next it1) as [[c1|e] it2]; [|cbn [fst] in *; congruence].
    apply text_loop_errors.
  - apply text_loop_errors.
Qed.

(** The text of a typed value is never looked at: what is no integer is taken for a
    URI. *)
Theorem C112_compact : forall it, decode_typed_value it = decode_compact_value it.
Proof.
  intros it. unfold decode_typed_value, st_catch.
  destruct (decode_compact_value it) as [[v|e] it'] eqn:E; [reflexivity|].
  destruct (exn_eqb DecodeError e) eqn:X; [exfalso|reflexivity].
  assert (e = DecodeError) by (destruct e; try discriminate X; reflexivity). subst e.
  unfold decode_compact_value, st_catch in E.
  destruct ((n <~ decode_integer_value;; st_ret (PInt n)) it) as [[v|e] it1]; [discriminate|].
  destruct (exn_eqb DecodeError e) eqn:X'.
  - unfold decode_uri_value, st_bind, st_ret in E. pose proof (text_string_errors it1) as T.
    destruct (decode_text_string it1) as [[s|e1] it2]; [discriminate|].
    apply T. cbn [fst]. congruence.
  - assert (e = DecodeError) by congruence. subst e. discriminate X'.
Qed.
Print Assumptions C112_compact.

Lemma typed_text : forall s l rest b r, Text_string s l -> l = b :: r -> 30 < b < 128 ->
  wp decode_typed_value (l ++ rest) 0 (becomes (PStr s) rest).
Proof.
  intros s l rest b r H E Hb. unfold decode_typed_value, decode_compact_value.
  apply wp_becomes_catch. apply wp_refused_catch.
  - rewrite E. cbn [app]. apply wp_bind. eapply wp_mono; [apply integer_value_refuses; lia|].
    intros x l' p (-> & -> & ->). repeat split.
  - apply wp_map_becomes. apply text_string_read. exact H.
Qed.

Lemma token_is_text : forall s l, Token_text s l -> Text_string s l.
Proof.
  intros s l [t (N & F)]. apply ts_plain.
  - split.
    + eapply Forall_impl; [|exact F]. cbv beta. intros c (Hc & _). lia.
    + right. destruct t; [congruence|]. cbn. pose proof (Forall_inv F) as X. cbv beta in X. lia.
  - destruct t; [congruence|]. cbn. pose proof (Forall_inv F) as X. cbv beta in X. lia.
Qed.

Lemma integer_first n l : Integer_value n l -> exists b r, l = b :: r /\ (128 <= b \/ 1 <= b <= 30).
Proof.
  intros [n' l' [k Hk]|n' l' [os Ho Hl]]; eexists _, _; (split; [reflexivity|]); lia.
Qed.

(** The values the grammar gives to octets that begin with a quote or are No-value. *)
Lemma typed_none v : Typed_value v [0] -> v = PStr [].
Proof.
  intros H. inversion H as [n l I E1 E2|s l T S E1 E2|E1 E2|s l T E1 E2|s l T E1 E2]; subst.
  - exfalso. apply integer_first in I. destruct I as (b & r & E & Hb). assert (b = 0) by congruence. lia.
  - inversion T as [? T1 T2 E3 E4|]; subst. destruct s as [|c [|? ?]]; [reflexivity|discriminate|discriminate].
  - reflexivity.
  - inversion T as [? (N & _) E3 E4]; subst. destruct s as [|c [|? ?]]; [congruence|discriminate|discriminate].
  - inversion T.
Qed.

Lemma typed_quote v r : Typed_value v (34 :: r) -> exists s, v = PStr s /\ text s /\ r = s ++ [0].
Proof.
  intros H. inversion H as [n l I E1 E2|s l T S E1 E2|E1 E2|s l T E1 E2|s l T E1 E2]; subst.
  - exfalso. apply integer_first in I. destruct I as (b & t & E & Hb). assert (b = 34) by congruence. lia.
  - exfalso. inversion T as [? T1 T2 E3 E4|]; subst. destruct s as [|c s]; [discriminate|].
    cbn [app] in E4. assert (c = 34) by congruence. subst. cbn in S. congruence.
  - exfalso. inversion T as [? (N & F) E3 E4]; subst. destruct s as [|c s]; [congruence|].
    cbn [app] in E4. assert (c = 34) by congruence. subst. apply Forall_inv in F.
    destruct F as (_ & F). apply F. cbn. tauto.
  - inversion T as [? T1 E3 E4]; subst. eauto.
Qed.

Lemma decodes_once : forall A (m : ST piter A) l v v', Decodes m l v -> Decodes m l v' -> v = v'.
Proof.
  intros A m l v v' D D'. destruct (D [] (new_iter l)) as (it & E & _).
  { rewrite app_nil_r. reflexivity. } { reflexivity. }
  destruct (D' [] (new_iter l)) as (it' & E' & _). { rewrite app_nil_r. reflexivity. } { reflexivity. }
  congruence.
Qed.

(** C112, settled: a typed value is decoded to what it means just when it is
    neither No-value, which is taken for the number 0, nor a quoted string, of which
    the quote is kept. *)
Theorem C112_exact : forall v l, Typed_value v l ->
  (Decodes decode_typed_value l v <-> l <> [0] /\ ~ exists r, l = 34 :: r).
Proof.
  intros v l H. split.
  - intros D. split.
    + intros ->. rewrite (typed_none v H) in D. destruct (D [] (new_iter [0])) as (it & E & _); [reflexivity..|].
      vm_compute in E. discriminate.
    + intros (r & ->). destruct (typed_quote v r H) as (s & -> & T & ->).
      assert (D' : Decodes decode_typed_value (34 :: s ++ [0]) (PStr (34 :: s))).
      { apply decodes_wp. intros rest. eapply typed_text; [|reflexivity|lia].
        change (34 :: s ++ [0]) with ((34 :: s) ++ [0]). apply ts_plain.
        - destruct T as (T & _). split; [constructor; [lia|exact T]|right; cbn; lia].
        - cbn. lia. }
      pose proof (decodes_once _ _ _ _ _ D D') as X. inversion X as [Y]. apply (f_equal (@length Z)) in Y.
      cbn [length] in Y. lia.
  - intros (N & Q). apply decodes_wp. intros rest. destruct H as [n l H|s l H Hs| |s l H|s l H].
    + unfold decode_typed_value, decode_compact_value.
      apply wp_becomes_catch, wp_becomes_catch, wp_map_becomes. apply integer_value_read. exact H.
    + inversion H as [s' T1 T2 E1 E2|s' T1 T2 E1 E2]; subst.
      * destruct s as [|c s]; [destruct Hs|]. eapply typed_text; [exact H|reflexivity|].
        destruct T1 as (_ & [T1|T1]); [discriminate|]. cbn in T1, T2. lia.
      * eapply typed_text; [exact H|reflexivity|lia].
    + congruence.
    + destruct (token_text_head _ _ H) as (c & c' & r & E & Hc & _).
      eapply typed_text; [apply token_is_text; exact H|exact E|lia].
    + destruct H. destruct Q. eauto.
Qed.
Print Assumptions C112_exact.
Example C112_case :
  Typed_value (PInt 300) [2; 1; 44] /\ Typed_value (PStr (str "a/b")) (str "a/b" ++ [0]) /\
  Typed_value (PStr (str "a b")) (34 :: str "a b" ++ [0]) /\
  fst (decode_typed_value (new_iter [2; 1; 44])) = Ok (PInt 300) /\
  fst (decode_typed_value (new_iter (str "a/b" ++ [0]))) = Ok (PStr (str "a/b")) /\
  fst (decode_typed_value (new_iter (34 :: str "a b" ++ [0]))) = Ok (PStr (34 :: str "a b")).
Proof.
  split; [|split; [|split; [|vm_compute; auto]]].
  - apply tv_integer, iv_long. apply (long_integer [1; 44]); [repeat constructor; lia|vm_compute; split; discriminate].
  - apply tv_uri; [|cbn; lia]. apply ts_plain; [|cbn; lia]. split; [repeat constructor; lia|right; cbn; lia].
  - apply tv_quoted. constructor. split; [repeat constructor; lia|right; cbn; lia].
Qed.

(** So the claim is false of every quoted string. *)
Theorem C112_quoted_refuted : forall s, text s ->
  Typed_value (PStr s) (34 :: s ++ [0]) /\
  Decodes decode_typed_value (34 :: s ++ [0]) (PStr (34 :: s)) /\
  ~ Decodes decode_typed_value (34 :: s ++ [0]) (PStr s).
Proof.
  intros s T. assert (H : Typed_value (PStr s) (34 :: s ++ [0])) by (apply tv_quoted; constructor; exact T).
  split; [exact H|]. split.
  - apply decodes_wp. intros rest. eapply typed_text; [|reflexivity|lia].
    change (34 :: s ++ [0]) with ((34 :: s) ++ [0]). apply ts_plain.
    + destruct T as (T & _). split; [constructor; [lia|exact T]|right; cbn; lia].
    + cbn. lia.
  - rewrite (C112_exact _ _ H). intros (_ & N). apply N. eauto.
Qed.
Print Assumptions C112_quoted_refuted.
